(** Vocabulary for the properties of globally unique maps. *)
From Verif Require Import Base Bits_Spec Sha256 Serialize_Model Serialize_Spec Tx_Model Tx_Spec Proof_Model Proof_Spec Chain_Model Chain_Spec Gumap_Model.
Local Open Scope string_scope.
Local Open Scope list_scope.

(** The three kinds of node. *)
Definition Unused (G : gumap) (p : list bool) (s : val) : val := PFull (g_unused G) [VBits p; s].
Definition Leaf (G : gumap) (w k x : val) : val := PFull (g_leaf G) [w; k; x].
Definition Inner (G : gumap) (p : list bool) (w l r : val) : val := PFull (g_inner G) [VBits p; w; l; r].

(** What make_GuMap_subclass declares, for a witness class with an attribute [seal]; the tags
    of leaf and inner contents (derived by hashing) differ. *)
Definition leaf_tag (t : bytes) : bytes := tag_derive (uuid "59c17f37-7e26-4aea-8a5b-7c0db66af35b") t.
Definition inner_tag (t : bytes) : bytes := tag_derive (uuid "b925044d-320e-4c1f-9ef8-20614d260676") t.
Record is_gumap (ct : ctable) (P : chain) (G : gumap) : Prop := {
  gd_unused : c_attrs (ct (g_unused G)) = [("prefix", SerBits); ("seal", SerUnion [p_fseal P; g_seal G])];
  gd_leaf : c_attrs (ct (g_leaf G)) = [("witness", SerUnion [p_fwit P; g_wit G]); ("key", g_key G); ("value", g_value G)];
  gd_inner : c_attrs (ct (g_inner G)) = [("prefix", SerBits); ("witness", SerUnion [p_fwit P; g_wit G]);
     ("left", SerProof (g_base G)); ("right", SerProof (g_base G))];
  gd_variants : forall c, In c [g_base G; g_unused G; g_leaf G; g_inner G] -> c_kind (ct c) = Variant [g_unused G; g_leaf G; g_inner G];
  gd_distinct : NoDup [g_base G; g_unused G; g_leaf G; g_inner G] /\ p_fwit P <> g_wit G;
  gd_seal : c_kind (ct (g_seal G)) = Plain;
  gd_wit : c_kind (ct (g_wit G)) = Plain /\ In ("seal", SerProof (g_seal G)) (c_attrs (ct (g_wit G)));
  gd_tags : exists tl ti, c_hash (ct (g_leaf G)) = HTag (Some tl) /\ c_hash (ct (g_inner G)) = HTag (Some ti) /\ leaf_tag tl <> inner_tag ti }.

(** The witness [w] accepts the digest [h]: it is the fake witness of the fake seal for [h], or
    the method verify_hash of the real witness class accepts. *)
Definition vouches (ct : ctable) (P : chain) (G : gumap) (w : val) (h : bytes) : Prop :=
  w = FakeWitness P (FakeSeal P h) \/ (class_of w = Some (g_wit G) /\ outcome ct (g_verify G h) w = Ok tt).

(** The seal of a node: its own, or the one its witness is for. *)
Definition attr (ct : ctable) (v : val) (name : string) (x : val) : Prop := peek ct v name = Ok x.
Inductive has_seal (ct : ctable) (G : gumap) : val -> val -> Prop :=
| HS_unused p s : has_seal ct G (Unused G p s) s
| HS_leaf w k x s : attr ct w "seal" s -> has_seal ct G (Leaf G w k x) s
| HS_inner p w l r s : attr ct w "seal" s -> has_seal ct G (Inner G p w l r) s.
Definition seal_id (ct : ctable) (G : gumap) (v : val) (h : bytes) : Prop := exists s, has_seal ct G v s /\ phash ct s = Ok h.

(** The prefix of a node. *)
Inductive has_prefix (G : gumap) : val -> list bool -> Prop :=
| HP_unused p s : has_prefix G (Unused G p s) p
| HP_inner p w l r : has_prefix G (Inner G p w l r) p
| HP_leaf w k x p : g_prefix G k = Ok p -> has_prefix G (Leaf G w k x) p.

(** The bytes whose SHA-256 the witness of a closed node has to accept: a tag, then key and value
    (serialized, or their hashes if they are proofs), or the hashes of the seals of the children. *)
Inductive sealed (ct : ctable) (G : gumap) : val -> val -> bytes -> Prop :=
| SM_leaf w k x t kb xb : c_hash (ct (g_leaf G)) = HTag (Some t) ->
    part ct ("key", g_key G) k kb -> part ct ("value", g_value G) x xb -> sealed ct G (Leaf G w k x) w (leaf_tag t ++ kb ++ xb)
| SM_inner p w l r t hl hr : c_hash (ct (g_inner G)) = HTag (Some t) ->
    seal_id ct G l hl -> seal_id ct G r hr -> sealed ct G (Inner G p w l r) w (inner_tag t ++ hl ++ hr).

(** What closing two nodes over their contents hashed to the same digest although it differs. *)
Definition sealed_collision (ct : ctable) (G : gumap) (n1 n2 : val) : Prop :=
  exists w1 w2 m1 m2, sealed ct G n1 w1 m1 /\ sealed ct G n2 w2 m2 /\ collision sha256 m1 m2.

(** The same key or value: equal; for proofs, of equal hash (which is what their [==] means). *)
Definition same (ct : ctable) (sr : ser) (a b : val) : Prop :=
  match sr with SerProof _ | SerUnion _ => exists h, phash ct a = Ok h /\ phash ct b = Ok h | _ => a = b end.

(** Objects that can be the witness or the seal of a node. *)
Definition is_witness (ct : ctable) (P : chain) (G : gumap) (w : val) : Prop := object ct (p_fwit P) w \/ object ct (g_wit G) w.
Definition is_seal (ct : ctable) (P : chain) (G : gumap) (s : val) : Prop := object ct (p_fseal P) s \/ object ct (g_seal G) s.

(** An honest maker of witnesses for the seal [s]. *)
Definition honest (ct : ctable) (P : chain) (G : gumap) (make : val -> bytes -> result val) (s : val) : Prop :=
  forall h, List.length h = 32 -> exists w, make s h = Ok w /\ is_witness ct P G w /\ attr ct w "seal" s /\ vouches ct P G w h.

(** The node is closed with the witness [w]. *)
Definition closed_with (G : gumap) (n w : val) : Prop := (exists k x, n = Leaf G w k x) \/ (exists p l r, n = Inner G p w l r).

(** Two closed nodes of the same kind with the same contents: key and value, or the seals of the children. *)
Definition same_contents (ct : ctable) (G : gumap) (n1 n2 : val) : Prop :=
  (exists w1 w2 k1 k2 x1 x2, n1 = Leaf G w1 k1 x1 /\ n2 = Leaf G w2 k2 x2 /\ same ct (g_key G) k1 k2 /\ same ct (g_value G) x1 x2) \/
  (exists p1 p2 w1 w2 l1 l2 r1 r2 hl hr, n1 = Inner G p1 w1 l1 r1 /\ n2 = Inner G p2 w2 l2 r2 /\
    seal_id ct G l1 hl /\ seal_id ct G l2 hl /\ seal_id ct G r1 hr /\ seal_id ct G r2 hr).

(** ** Maps *)

(** [node G m p n]: the node reached from [m] by going left (false) and right (true) along [p]. *)
Inductive node (G : gumap) : val -> list bool -> val -> Prop :=
| N_here v : node G v [] v
| N_left pfx w l r p n : node G l p n -> node G (Inner G pfx w l r) (false :: p) n
| N_right pfx w l r p n : node G r p n -> node G (Inner G pfx w l r) (true :: p) n.

(** The map [m] contains value [x] for key [k]. *)
Definition contains (G : gumap) (m k x : val) : Prop := exists p w, node G m p (Leaf G w k x).

(** [verify] succeeds on the node itself; on every node of the map. *)
Definition verified (ct : ctable) (P : chain) (G : gumap) (v : val) : Prop := outcome ct (node_verify ct P G) v = Ok tt.
Definition all_verified (ct : ctable) (P : chain) (G : gumap) (m : val) : Prop := forall p n, node G m p n -> verified ct P G n.

(** Every key is where the bits of its prefix lead. *)
Definition placed (G : gumap) (m : val) : Prop :=
  forall p w k x, node G m p (Leaf G w k x) -> exists b, g_prefix G k = Ok b /\ is_prefix p b.

(** No seal is closed over two digests: nodes of the two maps with the same seal have witnesses for the same one. *)
Definition closed_once (ct : ctable) (P : chain) (G : gumap) (m1 m2 : val) : Prop :=
  forall p1 p2 n1 n2 h w1 w2 d1 d2, node G m1 p1 n1 -> node G m2 p2 n2 -> seal_id ct G n1 h -> seal_id ct G n2 h ->
    sealed ct G n1 w1 d1 -> sealed ct G n2 w2 d2 ->
    vouches ct P G w1 (sha256 d1) -> vouches ct P G w2 (sha256 d2) -> sha256 d1 = sha256 d2.

(** Every closed node has a fake witness. *)
Definition all_fake (P : chain) (G : gumap) (m : val) : Prop :=
  forall p n, node G m p n -> (exists q s, n = Unused G q s) \/ (exists s k x, n = Leaf G (FakeWitness P s) k x) \/
    (exists q s l r, n = Inner G q (FakeWitness P s) l r).

(** Collisions among what was hashed for two nodes at the same place of the two maps; for two of their seals. *)
Definition map_collision (ct : ctable) (G : gumap) (m1 m2 : val) : Prop :=
  exists p n1 n2, node G m1 p n1 /\ node G m2 p n2 /\ sealed_collision ct G n1 n2.
Definition seal_collision (ct : ctable) (G : gumap) (m1 m2 : val) : Prop :=
  exists p1 p2 n1 n2 s1 s2, node G m1 p1 n1 /\ node G m2 p2 n2 /\ has_seal ct G n1 s1 /\ has_seal ct G n2 s2 /\ hash_collision ct s1 s2.
