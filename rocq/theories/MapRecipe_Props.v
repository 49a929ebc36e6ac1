(** C186: the hashes of globally unique maps, and what their witnesses commit to, by hand. *)
From Verif Require Import Base Sha256 Hex_Model Serialize_Model Serialize_Spec Proof_Model Proof_Spec Tx_Model Tx_Spec Chain_Model Chain_Spec Chain_Proofs Chain_Props Gumap_Model Gumap_Spec Gumap_Proofs
  Declare_Model Declare_Spec Declare_Props Recipe_Spec TreeRecipe_Spec MapRecipe_Spec MapRecipe_Proofs.
Local Open Scope string_scope.
Local Open Scope list_scope.

(** In every program with the classes of proofchains, for every class decorated with make_GuMap_subclass for Bitcoin seals.  That the
    contents of leaves and of inner nodes are marked differently is so unless the derivation of tags collides. *)
Theorem C186_map_by_hand : forall ds w b t P key value, declared_by ds w -> is_chain (table_of w) P ->
  In (DGumap b (Some t) (p_fseal P) (p_fwit P) (p_bseal P) (p_bwit P) key value) ds ->
  marked_with leaf_contents_mark (marked_with closed_leaf_mark t) <> marked_with inner_contents_mark (marked_with closed_inner_mark t) ->
  exists n, c_hash (table_of w n) = HTag (Some t) /\ forall pre ver, let G := Gumap n (n + 1) (n + 2) (n + 3) key value (p_bseal P) (p_bwit P) pre ver in
    is_gumap (table_of w) P G /\ forall v, object (table_of w) n v ->
    (forall h, phash (table_of w) v = Ok h <-> gumap_hash (recipe P) (part (table_of w) ("key", key)) (part (table_of w) ("value", value)) G t v h) /\
    (outcome (table_of w) (node_verify (table_of w) P G) v = Ok tt <->
     (exists p s, v = Unused G p s) \/
     exists x h, contents_digest (recipe P) (part (table_of w) ("key", key)) (part (table_of w) ("value", value)) (table_of w) G t v x h /\ vouches (table_of w) P G x h).
Proof. exact by_hand_maps. Qed.
Print Assumptions C186_map_by_hand.

(** The hashes below were also computed with Python's hashlib. *)
Definition maps : gumap := Gumap 21 22 23 24 (SerPrim UInt64) (SerPrim UInt64) 11 12 (fun _ => Ok []) (fun _ => Ret (Ok tt)).
Definition free : val := Unused maps [true] (Seal here (mkOutPoint (repeat x11 32) 3) (repeat x22 16)).
Definition five : val := Leaf maps (FakeWitness here (FakeSeal here (hex "4b3802438722cbffed8e62aee01fb7a7a989a8e2ebf9211a811e76508cbb58d1"))) (VPrim (PyInt 0)) (VPrim (PyInt 5)).
Definition both : val := Inner maps [] (FakeWitness here (FakeSeal here (hex "b1829901979d20614338f18fce6991e2a3297c4c06fa56aec31586a76ab0cde7"))) five free.

Example C186_instance :
  declared_by proofchains (after 13) /\ is_chain (table_of (after 13)) here /\
  In (DGumap GUMAP (Some (uuid "73777384-88f0-40cc-a836-443cc6db3589")) 9 10 11 12 (SerPrim UInt64) (SerPrim UInt64)) proofchains /\
  (let t := uuid "73777384-88f0-40cc-a836-443cc6db3589" in
   marked_with leaf_contents_mark (marked_with closed_leaf_mark t) <> marked_with inner_contents_mark (marked_with closed_inner_mark t)) /\
  object (table_of (after 13)) 21 both /\
  outcome (table_of (after 13)) (node_verify (table_of (after 13)) here maps) both = Ok tt /\
  phash (table_of (after 13)) five = Ok (hex "56e8642108b89c5c3e2e4e972043c01ed3bc148fc0980cc840ec8a1a63fe9c4d") /\
  phash (table_of (after 13)) free = Ok (hex "e1fbe0459b5c3eed0928ee6abd1ea1b9282d78dd23aa6ce741b71301fef2c394") /\
  phash (table_of (after 13)) both = Ok (hex "83f030f9d16f9be9b5d3549c52f755a01f7807b0394d8b2971409c98ba7b786c").
Proof.
  assert (C : is_chain (table_of (after 13)) here) by exact (proj1 (proj2 (proj2 C184_example))).
  assert (D : is_gumap (table_of (after 13)) here maps) by exact (proj2 (proj2 (proj2 (proj2 (proj2 C184_example))))).
  split; [exact (after_declared 13 (le_n 13))|]. split; [exact C|]. split; [cbn; auto 20|]. split; [vm_compute; discriminate|]. split.
  - apply (node_shape _ here maps D). right; right. exists [], (FakeWitness here (FakeSeal here (hex "b1829901979d20614338f18fce6991e2a3297c4c06fa56aec31586a76ab0cde7"))), five, free.
    split; [reflexivity|]. split; [left; apply (fwit_object _ here C), (fseal_object _ here C); reflexivity|]. split.
    + apply (node_shape _ here maps D). right; left. exists (FakeWitness here (FakeSeal here (hex "4b3802438722cbffed8e62aee01fb7a7a989a8e2ebf9211a811e76508cbb58d1"))), (VPrim (PyInt 0)), (VPrim (PyInt 5)).
      split; [reflexivity|]. split; [left; apply (fwit_object _ here C), (fseal_object _ here C); reflexivity|]. split; constructor; cbn; lia.
    + apply (node_shape _ here maps D). left. exists [true], (Seal here (mkOutPoint (repeat x11 32) 3) (repeat x22 16)). split; [reflexivity|]. right.
      apply (seal_object _ here C); [split; [reflexivity|cbn; lia]|reflexivity].
  - split; [vm_compute; reflexivity|]. split; [vm_compute; reflexivity|]. split; vm_compute; reflexivity.
Qed.
