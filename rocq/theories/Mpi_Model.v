(** Executable model of the numbers with size in front of
    lib/python-bitcoinlib/bitcoin/core/_bignum.py (cited as bignum.py). *)
From Verif Require Import Base Tx_Model Script_Model.

(** struct.pack(b">I", n) as bignum.py:53 and 99 use it: four bytes, most significant first. *)
Definition pack_be32 (n : N) : result bytes := do b <- pack_u 4 (Z.of_N n); Ok (rev b).

(** bignum.py:43-63 [bn2mpi]. *)
Definition bn2mpi (v : Z) : result bytes :=
  let have_ext := if (0 <? bit_length v)%N then (N.land (bit_length v) 7 =? 0)%N else false in
  let neg := (v <? 0)%Z in
  let v := if neg then (- v)%Z else v in
  do s <- pack_be32 (bn_bytes v have_ext);
  let ext := if have_ext then [x00] else [] in
  let v_bin := bn2bin (Z.to_N v) in
  if neg then
    if have_ext then do ext <- set_sign ext; Ok (s ++ ext ++ v_bin)
    else do v_bin <- set_sign v_bin; Ok (s ++ ext ++ v_bin)
  else Ok (s ++ ext ++ v_bin).

(** bignum.py:65-88 [mpi2bn]; None is Python's None. *)
Definition mpi2bn (s : bytes) : option Z :=
  if (blen s <? 4)%N then None
  else
    let v_len := le_dec (rev (firstn 4 s)) in
    if (blen s =? v_len + 4)%N then
      match skipn 4 s with
      | [] => Some 0%Z
      | i :: r =>
        if (N.land (bN i) 128 =? 0)%N then Some (Z.of_N (bin2bn (i :: r)))
        else Some (- Z.of_N (bin2bn (Nb (N.land (bN i) 127) :: r)))%Z
      end
    else None.

(** bignum.py:91-94 [mpi2vch]. *)
Definition mpi2vch (s : bytes) : bytes := rev (skipn 4 s).

(** bignum.py:99-102 [vch2mpi]. *)
Definition vch2mpi (s : bytes) : result bytes := do r <- pack_be32 (blen s); Ok (r ++ rev s).
