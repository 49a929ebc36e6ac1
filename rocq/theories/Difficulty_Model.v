(** The difficulty of a block header (bitcoin/core/__init__.py).  Floating point numbers are the doubles of
    PyText_Spec. *)
From Verif Require Import Base PyText_Spec.
Local Open Scope Z_scope.

(** core.py:425-427: [while nShift < 29], [k] turns. *)
Fixpoint times_256 (k : nat) (d : double) : double :=
  match k with O => d | S k' => times_256 k' (double_mul d (of_int 256)) end.
(** core.py:428-430: [while nShift > 29], [k] turns. *)
Fixpoint over_256 (k : nat) (d : double) : double :=
  match k with O => d | S k' => over_256 k' (double_div d (of_int 256)) end.

(** core.py:420-431 [CBlockHeader.calc_difficulty]; of the two loops only one has turns.  The division
    raises ZeroDivisionError. *)
Definition calc_difficulty (nBits : Z) : result double :=
  let nShift := Z.land (Z.shiftr nBits 24) 0xff in
  let m := Z.land nBits 0x00ffffff in
  if m =? 0 then Err ZeroDivisionError
  else Ok (over_256 (Z.to_nat (nShift - 29)) (times_256 (Z.to_nat (29 - nShift)) (double_div (of_int 0x0000ffff) (of_int m)))).
