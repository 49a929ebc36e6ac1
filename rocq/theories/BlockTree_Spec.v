(** What the merkle tree kept by a block must be, and what it is good for (C155). *)
From Verif Require Import Base Sha256 Tx_Model Block_Model Block_Spec.

(** The tree over [ids]: the levels one after the other, up to the first of one node. *)
Definition tree_of (ids tree : list bytes) : Prop :=
  (ids = [] /\ tree = []) \/
  exists k r, level k ids = [r] /\ (forall i, i < k -> 1 < List.length (level i ids)) /\
    tree = concat (map (fun i => level i ids) (seq 0 (S k))).

(** The merkle branch of the transaction at [i], taken from the tree as Bitcoin does: in each
    level the neighbour of the node above the transaction, [j] being where the level begins. *)
Fixpoint branch (fuel j size i : nat) (tree : list bytes) : list bytes :=
  match fuel with
  | O => []
  | S fuel' =>
    if 1 <? size then
      nth (j + Nat.min (if Nat.even i then i + 1 else i - 1) (size - 1)) tree [] ::
      branch fuel' (j + size) ((size + 1) / 2) (i / 2) tree
    else []
  end.

(** What the receiver of a branch computes: join the id at [i] with the members of the branch one by one. *)
Fixpoint climb (h : bytes) (i : nat) (br : list bytes) : bytes :=
  match br with
  | [] => h
  | s :: br' => climb (Hash (if Nat.even i then h ++ s else s ++ h)) (i / 2) br'
  end.

(** The strings hashed on the way. *)
Fixpoint climbed (h : bytes) (i : nat) (br : list bytes) (x : bytes) : Prop :=
  match br with
  | [] => False
  | s :: br' => let y := if Nat.even i then h ++ s else s ++ h in x = y \/ climbed (Hash y) (i / 2) br' x
  end.
