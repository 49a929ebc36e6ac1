(** Vocabulary for C177: extending and slicing merkle mountain ranges that are not complete. *)
From Verif Require Import Base PySlice Serialize_Model Proof_Model Proof_Spec Mmr_Model Mmr_Spec Merbinner_Spec.

(** What one can do with a MMR to get another: append the values of a list, take a slice; and doing it (the first failure ends it). *)
Inductive mop := Extend (vs : list val) | Cut (s : slice).
Fixpoint mrun (ct : ctable) (M : mmr_classes) (t : mmr) (os : list mop) : result mmr :=
  match os with
  | [] => Ok t
  | Extend vs :: os => do t <- extend ct M t vs; mrun ct M t os
  | Cut s :: os => do t <- getslice ct M t s; mrun ct M t os
  end.

(** The values are of the kind declared, and can be hashed. *)
Definition fine_value (ct : ctable) (sr : ser) (v : val) : Prop := holds ct sr v /\ hashable ct v.
Definition fine_mop (ct : ctable) (sr : ser) (o : mop) : Prop := match o with Extend vs => Forall (fine_value ct sr) vs | Cut _ => True end.

(** What is done to the list (always short enough for [len()]): slices with step 1 whose start is not after their stop. *)
Inductive list_after : list val -> list mop -> list val -> Prop :=
| LA_nil l : list_after l [] l
| LA_extend l vs os l' : fine (List.length (l ++ vs)) -> list_after (l ++ vs) os l' -> list_after l (Extend vs :: os) l'
| LA_cut l s a b os c l' : slice_indices s (Z.of_nat (List.length l)) = Ok (a, b, 1%Z) -> (a <= b)%Z -> py_slice l s = Ok c ->
    list_after c os l' -> list_after l (Cut s :: os) l'.
