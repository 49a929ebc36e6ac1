(** Vocabulary for C176: changes to merbinner trees that are not complete. *)
From Verif Require Import Base Serialize_Model Proof_Model Proof_Spec Merbinner_Model Merbinner_Spec.

(** What one can do to a tree, and doing it (the first failure ends it). *)
Inductive change := Put (k v : val) | Remove (k : val).
Fixpoint changes (ct : ctable) (M : mbt_classes) (k2p : val -> list bool) (t : mbt) (cs : list change) : result mbt :=
  match cs with
  | [] => Ok t
  | Put k v :: cs => do t <- put ct M k2p t k v; changes ct M k2p t cs
  | Remove k :: cs => do t <- remove ct M k2p t k; changes ct M k2p t cs
  end.

(** The keys and values are of the kinds declared, and can be hashed. *)
Definition fine_change (ct : ctable) (ks vs : ser) (c : change) : Prop :=
  match c with Put k v => entry_fine ct ks vs k v | Remove k => holds ct ks k /\ hashable ct k end.

(** Keys that are equal ([==]) have equal prefixes. *)
Definition prefix_respects (ct : ctable) (ks : ser) (k2p : val -> list bool) : Prop :=
  forall k k', holds ct ks k -> holds ct ks k' -> py_eq ct k k' = Ok true -> k2p k = k2p k'.

(** How an incomplete tree says that it does not know: PrunedError; of the whole object pruned, as an instance of the base class,
    no method works. *)
Definition unknown (t : mbt) (e : exn) : Prop :=
  match t with TPruned BBase _ => e = NotImplementedError | _ => e = PrunedError end.

(** What changes do to a map: keys that are put are new, keys that are removed are there.  To change a value: [Remove k; Put k v']. *)
Inductive map_after : list (val * val) -> list change -> list (val * val) -> Prop :=
| MA_nil D : map_after D [] D
| MA_put D k v cs D' : ~ In k (map fst D) -> map_after ((k, v) :: D) cs D' -> map_after D (Put k v :: cs) D'
| MA_remove D1 k v D2 cs D' : map_after (D1 ++ D2) cs D' -> map_after (D1 ++ (k, v) :: D2) (Remove k :: cs) D'.
Definition usable (ct : ctable) (M : mbt_classes) (K : val -> Prop) (c : change) : Prop :=
  match c with Put k v => K k /\ entry_ok ct M k v | Remove _ => True end.
