(** Vocabulary for the properties of mmr.py. *)
From Verif Require Import Base PySlice Serialize_Model Proof_Model Proof_Spec Mmr_Model.
Local Open Scope Z_scope.

(** [M] is what [make_mmr_subclass] makes of a class with VALUE_SERIALIZER [sr]. *)
Record is_mmr (ct : ctable) (M : mmr_classes) (sr : ser) : Prop := {
  mm_kinds : forall c, In c [m_base M; m_empty M; m_leaf M; m_inner M] -> c_kind (ct c) = Variant [m_empty M; m_leaf M; m_inner M];
  mm_distinct : NoDup [m_base M; m_empty M; m_leaf M; m_inner M];
  mm_empty : c_attrs (ct (m_empty M)) = [];
  mm_leaf : c_attrs (ct (m_leaf M)) = [("value"%string, sr)];
  mm_inner : c_attrs (ct (m_inner M)) = [("left"%string, SerProof (m_base M)); ("right"%string, SerProof (m_base M)); ("length"%string, SerPrim UInt64)] }.

(** ** The documented construction (mmr.py:158-170) *)

Definition power_of_two (k : Z) : Prop := exists e, 0 <= e /\ k = 2 ^ e.

(** [k] is a power of two with k < n and n & k == k. *)
Definition fits_below (n k : Z) : Prop := power_of_two k /\ k < n /\ Z.land n k = k.

(** "let k be the smallest power of two such that k < n and n & k == k, or if no such
    power of two exists, n / 2". *)
Definition split_at (n k : Z) : Prop :=
  (fits_below n k /\ forall k', fits_below n k' -> k <= k') \/
  ((forall k', ~ fits_below n k') /\ k = n / 2).

(** The tree for a list of values. *)
Inductive documented : list val -> mmr -> Prop :=
| D_empty : documented [] Empty
| D_leaf v : documented [v] (Leaf v)
| D_inner n k vs t1 t2 : n = Z.of_nat (List.length vs) -> 1 < n -> split_at n k ->
    documented (firstn (Z.to_nat (n - k)) vs) t1 -> documented (skipn (Z.to_nat (n - k)) vs) t2 ->
    documented vs (Inner t1 t2 n).

(** Values the class accepts as list items. *)
Definition item (ct : ctable) (M : mmr_classes) (v : val) : Prop := exists p, construct ct (m_leaf M) [("value"%string, v)] = Ok p.

(** A length Python allows. *)
Definition fine (n : nat) : Prop := Z.of_nat n < 2 ^ 63.

(** Any way of building a MMR: start from the class and a list, then append and extend. *)
Inductive built (ct : ctable) (M : mmr_classes) : list val -> result mmr -> Prop :=
| B_new vs : built ct M vs (mmr_new ct M vs)
| B_append vs r v : built ct M vs r -> built ct M (vs ++ [v]) (do t <- r; append ct M t v)
| B_extend vs r vs' : built ct M vs r -> built ct M (vs ++ vs') (do t <- r; extend ct M t vs').

(** ** Proof objects however they were obtained *)

(** An arbitrary MMR proof object: sub-proofs of the three classes, present or pruned to
    any data hash, any length field; or the whole object pruned, of the base class. *)
Definition any_object (ct : ctable) (M : mmr_classes) (t : mmr) : Prop :=
  holds ct (SerProof (m_base M)) (node M t) \/ exists dh, t = Pruned KBase dh.

(** [hides ct M t t']: [t'] is [t] with some sub-trees replaced by their data hashes. *)
Definition kind_of (t : mmr) : kind :=
  match t with Empty => KEmpty | Leaf _ => KLeaf | Inner _ _ _ => KInner | Pruned k _ => k end.
Inductive hides (ct : ctable) (M : mmr_classes) : mmr -> mmr -> Prop :=
| Hi_same t : hides ct M t t
| Hi_pruned t dh : Proof_Model.data_hash ct (node M t) = Ok dh -> hides ct M t (Pruned (kind_of t) dh)
| Hi_inner l l' r r' n : hides ct M l l' -> hides ct M r r' -> hides ct M (Inner l r n) (Inner l' r' n).

(** The same computation on the complete tree [r] and on the pruned one [r']: it fails
    for want of pruned data, or fails in the same way, or both succeed alike. *)
Definition tracks (ct : ctable) (M : mmr_classes) (r r' : result mmr) : Prop :=
  match r' with
  | Ok u' => exists u, r = Ok u /\ hides ct M u u'
  | Err e => e = PrunedError \/ r = Err e
  end.
