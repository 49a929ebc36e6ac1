(** [append] of lib/python-proofmarshal/proofmarshal/mmr.py (cited as mmr.py) with a count of the calls it makes: of
    [append], [_merge_trees], [is_perfect_tree] and the constructors.  Apart from the count it is that of Mmr_Model.v. *)
From Verif Require Import Base Serialize_Model Proof_Model Mmr_Model.
Local Open Scope Z_scope.

(** A computation in mmr.py:457-504, and how many calls it makes. *)
Definition counted (A : Type) := (result A * nat)%type.
(** Part of mmr.py:457-504 that calls nothing that counts. *)
Definition free {A} (r : result A) : counted A := (r, O).
(** The body of a call (mmr.py:283-289, 330-331, 390-392, 263-270, 457-504). *)
Definition call {A} (c : counted A) : counted A := let '(r, k) := c in (r, S k).
(** One after the other (mmr.py:457-504). *)
Definition cthen {A B} (c : counted A) (f : A -> counted B) : counted B :=
  match c with (Ok a, k) => let '(r, j) := f a in (r, (k + j)%nat) | (Err e, k) => (Err e, k) end.
Notation "'do#' x <- c ; d" := (cthen c (fun x => d)) (at level 200, x name, c at level 100, d at level 200).

(** mmr.py:457-482 [_merge_trees]. *)
Fixpoint cmerge (ct : ctable) (M : mmr_classes) (t new_right : mmr) : counted mmr :=
  call match t with
  | Inner l r n =>
    do# n <- free (py_len n);
    do# nn <- free (mlen new_right);
    do# _ <- free (assert (nn <=? n));
    if Z.land n nn =? 0 then call (free (inner_new ct M t new_right))
    else if n =? nn then
      do# p <- call (free (is_perfect_tree t));
      do# _ <- free (assert p);
      call (free (inner_new ct M t new_right))
    else
      do# nr <- free (mlen r);
      do# _ <- free (assert (negb (Z.land nr nn =? 0)));
      do# new_right <- cmerge ct M r new_right;
      cmerge ct M l new_right
  | Pruned KInner _ => free (Err PrunedError)
  | _ => free (Err AttributeError)
  end.
(** mmr.py:238-243, 313-318, 369-375, 484-504 [append]. *)
Fixpoint cappend (ct : ctable) (M : mmr_classes) (t : mmr) (v : val) : counted mmr :=
  call match t with
  | Empty => call (free (leaf_new ct M v))
  | Leaf _ => do# new <- call (free (leaf_new ct M v)); call (free (inner_new ct M t new))
  | Inner l r n =>
    do# n <- free (py_len n);
    if Z.land n 1 =? 0 then do# new <- call (free (leaf_new ct M v)); call (free (inner_new ct M t new))
    else do# new_right <- cappend ct M r v; cmerge ct M l new_right
  | Pruned KBase _ => call (free (leaf_new ct M v))
  | Pruned KEmpty _ => call (free (leaf_new ct M v))
  | Pruned KLeaf _ => do# new <- call (free (leaf_new ct M v)); call (free (inner_new ct M t new))
  | Pruned KInner _ => free (Err PrunedError)
  end.
