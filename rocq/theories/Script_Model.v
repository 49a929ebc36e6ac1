(** Executable model of script construction and parsing:
    lib/python-bitcoinlib/bitcoin/core/script.py (cited as script.py) and
    lib/python-bitcoinlib/bitcoin/core/_bignum.py (cited as bignum.py). *)
From Verif Require Import Base Tx_Model.

(** ** bignum.py: script numbers *)

(** Python's int.bit_length().  bignum.py:27, 45-46. *)
Definition bit_length (v : Z) : N := N.size (Z.abs_N v).

(** bignum.py:23-27 [bn_bytes]. *)
Definition bn_bytes (v : Z) (have_ext : bool) : N :=
  ((bit_length v + 7) / 8 + (if have_ext then 1 else 0))%N.

(** bignum.py:29-35 [bn2bin]: [i] most significant bytes first. *)
Fixpoint bn2bin_loop (v : N) (i : nat) : bytes :=
  match i with
  | O => []
  | S i' => Nb (N.land (N.shiftr v (N.of_nat i' * 8)) 255) :: bn2bin_loop v i'
  end.
(** bignum.py:29-35 [bn2bin]. *)
Definition bn2bin (v : N) : bytes := bn2bin_loop v (N.to_nat (bn_bytes (Z.of_N v) false)).

(** bignum.py:37-41 [bin2bn]. *)
Definition bin2bn (s : bytes) : N := fold_left (fun l ch => N.lor (N.shiftl l 8) (bN ch)) s 0%N.

(** bignum.py:60, 62: set the sign bit of the first byte. *)
Definition set_sign (s : bytes) : result bytes :=
  match s with [] => Err IndexError | b :: s' => Ok (Nb (N.lor (bN b) 128) :: s') end.

(** bignum.py:43-63 [bn2mpi] without its 4-byte size prefix, which bn2vch strips
    again (91); struct.pack raises when the size does not fit 32 bits (53). *)
Definition bn2mpi_body (v : Z) : result bytes :=
  let have_ext := ((0 <? bit_length v) && (N.land (bit_length v) 7 =? 0))%N in
  let neg := (v <? 0)%Z in
  let v := Z.abs_N v in
  do _ <- (if (bn_bytes (Z.of_N v) have_ext <? 2 ^ 32)%N then Ok tt else Err StructError);
  let v_bin := bn2bin v in
  if neg then
    if have_ext then Ok (x80 :: v_bin) else set_sign v_bin
  else Ok (if have_ext then x00 :: v_bin else v_bin).

(** bignum.py:90-96 [bn2vch]: strip size, reverse. *)
Definition bn2vch (v : Z) : result bytes := do s <- bn2mpi_body v; Ok (rev s).

(** bignum.py:65-104 [vch2bn]: the size prefix added by vch2mpi always matches,
    so mpi2bn never returns None here; struct.pack raises for 2^32 bytes or more (99). *)
Definition vch2bn (s : bytes) : result Z :=
  if (2 ^ 32 <=? blen s)%N then Err StructError
  else match rev s with
       | [] => Ok 0%Z
       | b :: r =>
         if (N.land (bN b) 128 =? 0)%N then Ok (Z.of_N (bin2bn (b :: r)))
         else Ok (- Z.of_N (bin2bn (Nb (N.land (bN b) 127) :: r)))%Z
       end.

(** ** script.py: opcodes and pushes *)

(** script.py:46-57 [CScriptOp.encode_op_pushdata]. *)
Definition encode_op_pushdata (d : bytes) : result bytes :=
  let l := blen d in
  if (l <? 0x4c)%N then Ok (Nb l :: d)
  else if (l <=? 0xff)%N then Ok (x4c :: Nb l :: d)
  else if (l <=? 0xffff)%N then do p <- pack_u 2 (Z.of_N l); Ok (x4d :: p ++ d)
  else if (l <=? 0xffffffff)%N then do p <- pack_u 4 (Z.of_N l); Ok (x4e :: p ++ d)
  else Err ValueError.

(** script.py:59-68 [encode_op_n]. *)
Definition encode_op_n (n : Z) : result N :=
  if negb ((0 <=? n) && (n <=? 16))%Z then Err ValueError
  else if (n =? 0)%Z then Ok 0%N else Ok (Z.to_N (0x51 + n - 1)).

(** script.py:80-85 [is_small_int]. *)
Definition is_small_int (op : N) : bool := ((0x51 <=? op) && (op <=? 0x60) || (op =? 0))%N.

(** script.py:70-78 [decode_op_n]. *)
Definition decode_op_n (op : N) : result Z :=
  if (op =? 0)%N then Ok 0%Z
  else if ((0x51 <=? op) && (op <=? 0x60))%N then Ok (Z.of_N op - 0x51 + 1)%Z
  else Err ValueError.

(** What can be put into a script: a CScriptOp (0..255), an int, or bytes. *)
Inductive sitem := IOp (op : N) | IInt (z : Z) | IData (d : bytes).

(** script.py:513-527 [__coerce_instance]. *)
Definition coerce (x : sitem) : result bytes :=
  match x with
  | IOp n => do b <- pybyte n; Ok [b]
  | IInt z =>
    if ((0 <=? z) && (z <=? 16))%Z then do n <- encode_op_n z; do b <- pybyte n; Ok [b]
    else if (z =? -1)%Z then Ok [x4f]
    else do v <- bn2vch z; encode_op_pushdata v
  | IData d => encode_op_pushdata d
  end.

(** script.py:544-553 [CScript(iterable)]: the coerced items joined. *)
Definition cscript (l : list sitem) : result bytes := objs_ser coerce l.

(** script.py:573-596: size of the pushed data, number of length bytes read, rest. *)
Definition push_size (op : N) (s : bytes) : result (N * nat * bytes) :=
  if (op <? 0x4c)%N then Ok (op, 0, s)
  else if (op =? 0x4c)%N then
    match s with b0 :: s' => Ok (bN b0, 1, s') | _ => Err CScriptInvalidError end
  else if (op =? 0x4d)%N then
    match s with b0 :: b1 :: s' => Ok (bN b0 + N.shiftl (bN b1) 8, 2%nat, s')%N | _ => Err CScriptInvalidError end
  else
    match s with
    | b0 :: b1 :: b2 :: b3 :: s' =>
      Ok (bN b0 + N.shiftl (bN b1) 8 + N.shiftl (bN b2) 16 + N.shiftl (bN b3) 24, 4%nat, s')%N
    | _ => Err CScriptInvalidError
    end.

(** script.py:563-610, the loop of [raw_iter] at index [i] with [s = self[i:]].
    A generator: the result is the list of (opcode, data, sop_idx) yielded and
    the exception that ended the iteration, if any. *)
Fixpoint raw_iter_loop (fuel : nat) (i : nat) (s : bytes) : list (N * option bytes * nat) * option exn :=
  match fuel with
  | O => ([], Some OutOfFuel)
  | S fuel' =>
    match s with
    | [] => ([], None)
    | b :: s1 =>
      let op := bN b in
      if (0x4e <? op)%N then
        let '(l, e) := raw_iter_loop fuel' (S i) s1 in ((op, None, i) :: l, e)
      else
        match push_size op s1 with
        | Err e => ([], Some e)
        | Ok (datasize, hdr, s2) =>
          if (blen s2 <? datasize)%N then ([], Some CScriptTruncatedPushDataError)
          else
            let n := N.to_nat datasize in
            let '(l, e) := raw_iter_loop fuel' (S i + hdr + n) (skipn n s2) in
            ((op, Some (firstn n s2), i) :: l, e)
        end
    end
  end.
(** script.py:555-610 [raw_iter]. *)
Definition raw_iter (s : bytes) : list (N * option bytes * nat) * option exn :=
  raw_iter_loop (S (List.length s)) 0 s.

(** What [__iter__] yields: bytes, an int, or a CScriptOp.  script.py:612-630. *)
Inductive cooked := CData (d : bytes) | CInt (z : Z) | COp (op : N).

(** script.py:621-630, one item. *)
Definition cook (x : N * option bytes * nat) : cooked :=
  match x with
  | (_, Some d, _) => CData d
  | (op, None, _) => if is_small_int op then match decode_op_n op with Ok z => CInt z | Err _ => COp op end else COp op
  end.
(** script.py:612-630 [__iter__]. *)
Definition script_iter (s : bytes) : list cooked * option exn :=
  let '(l, e) := raw_iter s in (map cook l, e).

(** script.py:661-669 [is_p2sh]. *)
Definition is_p2sh (s : bytes) : bool :=
  match s with
  | b0 :: b1 :: _ =>
    (blen s =? 23)%N && (bN b0 =? 0xa9)%N && (bN b1 =? 0x14)%N && (bN (nth 22 s x00) =? 0x87)%N
  | _ => false
  end.

(** script.py:671-687 [is_push_only]; the generator is consumed lazily, so an
    invalid push after a non-push opcode is not reached. *)
Definition is_push_only (s : bytes) : bool :=
  let '(l, e) := raw_iter s in
  forallb (fun x => (fst (fst x) <=? 0x60)%N) l && match e with None => true | Some _ => false end.

(** script.py:689-717 [has_canonical_pushes]: the test of one item. *)
Definition canonical_push (x : N * option bytes * nat) : bool :=
  match x with
  | (op, Some data, _) =>
    if (0x60 <? op)%N then true
    else if ((op <? 0x4c) && (0 <? op) && (blen data =? 1) && (match data with b :: _ => bN b <=? 16 | [] => false end))%N then false
    else if ((op =? 0x4c) && (blen data <? 0x4c))%N then false
    else if ((op =? 0x4d) && (blen data <=? 0xff))%N then false
    else if ((op =? 0x4e) && (blen data <=? 0xffff))%N then false
    else true
  | (_, None, _) => true
  end.
(** script.py:689-717: the loop. *)
Definition has_canonical_pushes (s : bytes) : bool :=
  let '(l, e) := raw_iter s in forallb canonical_push l && match e with None => true | Some _ => false end.

(** script.py:719-722 [is_unspendable]. *)
Definition is_unspendable (s : bytes) : bool :=
  match s with b :: _ => (bN b =? 0x6a)%N | [] => false end.

(** script.py:724-734 [is_valid]. *)
Definition script_is_valid (s : bytes) : bool :=
  match snd (raw_iter s) with None => true | Some _ => false end.
