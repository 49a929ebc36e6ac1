(** Vocabulary for the properties of merbinnertree.py. *)
From Coq Require Export Permutation Sorted.
From Verif Require Import Base Serialize_Model Proof_Model Proof_Spec Merbinner_Model.

(** [M] is what [make_MerbinnerTree_subclass] makes of a class with KEY_SERIALIZER [ks] and
    VALUE_SERIALIZER [vs]. *)
Record is_mbt (ct : ctable) (M : mbt_classes) (ks vs : ser) : Prop := {
  mb_kinds : forall c, In c [b_base M; b_empty M; b_leaf M; b_inner M] -> c_kind (ct c) = Variant [b_empty M; b_leaf M; b_inner M];
  mb_distinct : NoDup [b_base M; b_empty M; b_leaf M; b_inner M];
  mb_empty : c_attrs (ct (b_empty M)) = [];
  mb_leaf : c_attrs (ct (b_leaf M)) = [("key"%string, ks); ("value"%string, vs)];
  mb_inner : c_attrs (ct (b_inner M)) = [("prefix"%string, SerBits); ("left"%string, SerProof (b_base M)); ("right"%string, SerProof (b_base M))] }.

(** Keys a tree can be used with: the prefixes of all keys have the same length, different
    keys have different prefixes, and [==] on keys is equality. *)
Record good_keys (ct : ctable) (k2p : val -> list bool) (K : val -> Prop) (n : nat) : Prop := {
  gk_len : forall k, K k -> List.length (k2p k) = n;
  gk_inj : forall k1 k2, K k1 -> K k2 -> k2p k1 = k2p k2 -> k1 = k2;
  gk_eq : forall k1 k2, K k1 -> K k2 -> exists b, py_eq ct k1 k2 = Ok b /\ (b = true <-> k1 = k2) }.

(** An entry the class accepts. *)
Definition entry_ok (ct : ctable) (M : mbt_classes) (k v : val) : Prop :=
  exists p, construct ct (b_leaf M) [("key"%string, k); ("value"%string, v)] = Ok p.

(** ** Histories *)

(** [history ct M k2p K D r]: some sequence of operations leads to [r]; the map it should hold
    is [D]: building from a list of entries with different keys, putting an absent key,
    removing a present one. *)
Inductive history (ct : ctable) (M : mbt_classes) (k2p : val -> list bool) (K : val -> Prop) : list (val * val) -> result mbt -> Prop :=
| Hy_new D : NoDup (map fst D) -> (forall k v, In (k, v) D -> K k /\ entry_ok ct M k v) -> history ct M k2p K D (mbt_new ct M k2p D)
| Hy_put D r k v : history ct M k2p K D r -> K k -> entry_ok ct M k v -> ~ In k (map fst D) ->
    history ct M k2p K ((k, v) :: D) (do t <- r; put ct M k2p t k v)
| Hy_remove D1 k v D2 r : history ct M k2p K (D1 ++ (k, v) :: D2) r ->
    history ct M k2p K (D1 ++ D2) (do t <- r; remove ct M k2p t k).

(** ** The documented construction (merbinnertree.py:50-66) *)

Definition starts (p l : list bool) : Prop := exists rest, l = p ++ rest.
Definition starts_dec (p l : list bool) : {starts p l} + {~ starts p l}.
Proof.
  revert l. induction p as [|x p IH]; intros l; [left; exists l; reflexivity|].
  destruct l as [|y l]; [right; intros (r & E); discriminate|].
  destruct (bool_dec x y) as [->|N]; [|right; intros (r & E); cbn in E; congruence].
  destruct (IH l) as [H|H]; [left; destruct H as (r & ->); exists r; reflexivity|right; intros (r & E); apply H; exists r; cbn in E; congruence].
Defined.

(** "p be the longest prefix such that all k in D start with p" *)
Definition longest_prefix (k2p : val -> list bool) (D : list (val * val)) (p : list bool) : Prop :=
  (forall k v, In (k, v) D -> starts p (k2p k)) /\
  forall p', (forall k v, In (k, v) D -> starts p' (k2p k)) -> List.length p' <= List.length p.

(** "the subset of D such that all k start with p" *)
Definition under (k2p : val -> list bool) (p : list bool) (D : list (val * val)) : list (val * val) :=
  filter (fun e => if starts_dec p (k2p (fst e)) then true else false) D.

Inductive radix_tree (k2p : val -> list bool) : list (val * val) -> mbt -> Prop :=
| RT_empty : radix_tree k2p [] TEmpty
| RT_leaf k v : radix_tree k2p [(k, v)] (TLeaf k v)
| RT_inner D p l r : 2 <= List.length D -> longest_prefix k2p D p ->
    radix_tree k2p (under k2p (p ++ [false]) D) l -> radix_tree k2p (under k2p (p ++ [true]) D) r ->
    radix_tree k2p D (TInner p l r).

(** Prefix order on keys: the first bit that differs decides. *)
Definition before (k2p : val -> list bool) (e1 e2 : val * val) : Prop :=
  exists p x y, k2p (fst e1) = p ++ false :: x /\ k2p (fst e2) = p ++ true :: y.

(** ** Proof objects however they were obtained *)

(** An arbitrary tree object: sub-proofs of the three classes, present or pruned to
    any data hash, any prefix fields; or the whole object pruned, of the base class. *)
Definition any_tree (ct : ctable) (M : mbt_classes) (t : mbt) : Prop :=
  holds ct (SerProof (b_base M)) (bnode M t) \/ exists dh, t = TPruned BBase dh.

(** A value that can be compared: a proof whose hash can be computed, or not a proof. *)
Definition hashable (ct : ctable) (v : val) : Prop := is_proof v = true -> exists h, phash ct v = Ok h.

(** A key and a value that can be hashed into the tree. *)
Definition entry_fine (ct : ctable) (ks vs : ser) (k v : val) : Prop :=
  holds ct ks k /\ holds ct vs v /\ hashable ct k /\ hashable ct v.

(** Two byte strings hashed for some of the objects [l] collide. *)
Definition collision_among (ct : ctable) (l : list val) : Prop :=
  exists v1 v2, In v1 l /\ In v2 l /\ hash_collision ct v1 v2.

(** Every entry of [D1] is an entry of [D2] with an equal ([==]) value. *)
Definition sub_map (ct : ctable) (D1 D2 : list (val * val)) : Prop :=
  forall k v, In (k, v) D1 -> exists w, In (k, w) D2 /\ py_eq ct v w = Ok true.
