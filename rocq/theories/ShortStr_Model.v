(** Executable model of uint256_to_shortstr of lib/python-bitcoinlib/bitcoin/core/serialize.py (cited as bserialize.py). *)
From Verif Require Import Base Base58_Model Repr_Model.

(** Python's ["%064x" % (u,)]: the sign counts for the width, and the zeros come after it.  bserialize.py:319. *)
Definition fmt_064x (u : Z) : text :=
  let d := hexdigits (S (N.to_nat (N.size (Z.abs_N u)))) (Z.abs_N u) in
  let sign := if (u <? 0)%Z then ["-"%char] else [] in
  sign ++ repeat "0"%char (64 - List.length sign - List.length d) ++ d.
(** bserialize.py:318-320. *)
Definition uint256_to_shortstr (u : Z) : text := firstn 16 (fmt_064x u).
