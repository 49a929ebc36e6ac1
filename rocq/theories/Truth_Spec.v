(** Vocabulary for C179 and C180: what objects with the hash of a list or of a map say about it. *)
From Verif Require Import Base Serialize_Model Proof_Model Proof_Spec Mmr_Model Merbinner_Model.

(** An answer that is right, or none: [q] is raised. *)
Definition right_or {A} (q : exn) (r : result A) (right : A -> Prop) : Prop := r = Err q \/ exists x, r = Ok x /\ right x.

(** What is raised by objects that do not know: PrunedError; of an object that is pruned as a whole, as an instance of the base class, no
    method works. *)
Definition mmr_silence (t : mmr) : exn := match t with Pruned KBase _ => NotImplementedError | _ => PrunedError end.
Definition mbt_silence (t : mbt) : exn := match t with TPruned BBase _ => NotImplementedError | _ => PrunedError end.

(** Entries equal up to pruning. *)
Definition agree_entry (ct : ctable) (a b : val * val) : Prop := agree ct (fst a) (fst b) /\ agree ct (snd a) (snd b).

(** The honest shape.  For a MMR without pruned parts: every length field is the number of values below it. *)
Fixpoint count (t : mmr) : nat := match t with Leaf _ => 1 | Inner l r _ => count l + count r | _ => 0 end.
Fixpoint well_counted (t : mmr) : Prop := match t with Inner l r n => well_counted l /\ well_counted r /\ n = Z.of_nat (count l + count r) | _ => True end.
(** For a tree without pruned parts: the keys on the left and on the right of an inner node have its prefix and then a 0 and a 1. *)
Fixpoint keys_in (t : mbt) : list val := match t with TLeaf k _ => [k] | TInner _ l r => keys_in l ++ keys_in r | _ => [] end.
Fixpoint well_placed (k2p : val -> list bool) (t : mbt) : Prop :=
  match t with
  | TInner p l r => (forall k, In k (keys_in l) -> exists x, k2p k = p ++ false :: x) /\ (forall k, In k (keys_in r) -> exists x, k2p k = p ++ true :: x) /\ well_placed k2p l /\ well_placed k2p r
  | _ => True
  end.
