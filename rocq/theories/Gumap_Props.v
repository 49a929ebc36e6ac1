(** Properties C44-C46, C57 and C58: globally unique maps. *)
From Verif Require Import Base Bits_Spec Sha256 Ripemd160 Serialize_Model Serialize_Spec Tx_Model Tx_Spec Proof_Model Proof_Spec ProofHash_Proofs
  Chain_Model Chain_Spec Chain_Proofs ChainPipe_Proofs Chain_Examples Chain_Props Gumap_Model Gumap_Spec Gumap_Proofs Gumap_Examples.
From Coq Require Import ZifyBool ZifyNat ZifyN.
Local Open Scope string_scope.
Local Open Scope list_scope.

(** C44: verify accepts unused prefixes and exactly those closed nodes whose witness vouches
    for the hash of the contents; a pruned view gives the same answer. *)
Theorem C44_verify_meaning : forall ct P G v, is_chain ct P -> is_gumap ct P G -> wf_table ct -> object ct (g_base G) v ->
  (outcome ct (node_verify ct P G) v = Ok tt <->
   (exists p s, v = Unused G p s) \/ (exists w m, sealed ct G v w m /\ vouches ct P G w (sha256 m))) /\
  (forall os, outcome ct (node_verify ct P G) (steps ct (prune ct v) os) = outcome ct (node_verify ct P G) v).
Proof. intros ct P G v C D W O. split; [exact (verify_exact ct P G C D W v O)|]. intros os. eapply outcome_view; eassumption. Qed.
Print Assumptions C44_verify_meaning.

Theorem C44_leaf_from_unused_verifies : forall ct P G p s k x kb xb make, is_chain ct P -> is_gumap ct P G -> wf_table ct ->
  object ct (g_base G) (Unused G p s) -> fits ct any_bits (g_key G) k -> fits ct any_bits (g_value G) x ->
  part ct ("key", g_key G) k kb -> part ct ("value", g_value G) x xb -> honest ct P G make s ->
  exists w, leaf_from_unused ct G (Unused G p s) k x make = Ok (Leaf G w k x) /\ object ct (g_base G) (Leaf G w k x) /\
    has_seal ct G (Leaf G w k x) s /\ verified ct P G (Leaf G w k x).
Proof. intros ct P G p s k x kb xb make C D W. exact (leaf_from_unused_verifies ct P G C D W p s k x kb xb make). Qed.
Print Assumptions C44_leaf_from_unused_verifies.

Theorem C44_inner_from_unused_verifies : forall ct P G p s l r hl hr make, is_chain ct P -> is_gumap ct P G -> wf_table ct ->
  object ct (g_base G) (Unused G p s) -> object ct (g_base G) l -> object ct (g_base G) r ->
  seal_id ct G l hl -> seal_id ct G r hr -> honest ct P G make s ->
  exists w, inner_from_unused ct G (Unused G p s) l r make = Ok (Inner G p w l r) /\ object ct (g_base G) (Inner G p w l r) /\
    has_seal ct G (Inner G p w l r) s /\ verified ct P G (Inner G p w l r).
Proof. intros ct P G p s l r hl hr make C D W. exact (inner_from_unused_verifies ct P G C D W p s l r hl hr make). Qed.
Print Assumptions C44_inner_from_unused_verifies.

Theorem C44_from_children_verifies : forall ct P G l r pl pr hl hr, is_chain ct P -> is_gumap ct P G -> wf_table ct ->
  object ct (g_base G) l -> object ct (g_base G) r -> has_prefix G l pl -> has_prefix G r pr -> seal_id ct G l hl -> seal_id ct G r hr ->
  exists p h, from_children ct P G l r = Ok (Inner G p (FakeWitness P (FakeSeal P h)) l r) /\ longest_common_prefix p pl pr /\
    object ct (g_base G) (Inner G p (FakeWitness P (FakeSeal P h)) l r) /\ verified ct P G (Inner G p (FakeWitness P (FakeSeal P h)) l r).
Proof. intros ct P G l r pl pr hl hr C D W. exact (from_children_verifies ct P G C D W l r pl pr hl hr). Qed.
Print Assumptions C44_from_children_verifies.

(** The digest of key 0, value 5 was computed with hashlib from the text of gumap.py. *)
Example C44_instance : is_gumap ledger chain1 intmap /\ object ledger GUMAP map3 /\
  leaf_hash ledger intmap (int 0) (int 5) = Ok (hex "4b3802438722cbffed8e62aee01fb7a7a989a8e2ebf9211a811e76508cbb58d1") /\
  outcome ledger (node_verify ledger chain1 intmap) left_leaf = Ok tt /\
  outcome ledger (node_verify ledger chain1 intmap) map3 = Ok tt /\
  outcome ledger (node_verify ledger chain1 intmap) (Leaf intmap (fake (leaf_id 0 5)) (int 0) (int 7)) = Err AssertionError /\
  outcome ledger (node_verify ledger chain1 intmap) (Leaf intmap (PHash FWIT digest1) (int 0) (int 7)) = Err PrunedError /\
  outcome ledger (node_verify ledger chain1 intmap) (PHash GUMAP digest1) = Err AttributeError.
Proof.
  split; [exact intmap_ok|]. split; [exact map3_object|]. repeat split; vm_compute; reflexivity.
Qed.

Example C44_constructors_instance : honest ledger chain1 intmap make_btc seal1 /\ object ledger GUMAP (Unused intmap [] seal1) /\
  (exists kb, part ledger ("key", g_key intmap) (int 0) kb) /\ (exists h, seal_id ledger intmap left_leaf h) /\
  has_prefix intmap left_leaf (repeat false 32) /\
  (do n <- leaf_from_unused ledger intmap (Unused intmap [] seal1) (int 0) (int 5) make_btc; outcome ledger (node_verify ledger chain1 intmap) n) = Ok tt /\
  (do n <- inner_from_unused ledger intmap (Unused intmap [] seal1) left_leaf right_leaf make_btc; outcome ledger (node_verify ledger chain1 intmap) n) = Ok tt /\
  from_children ledger chain1 intmap left_leaf right_leaf = Ok map1.
Proof.
  split; [apply make_btc_honest; [exact outpoint1_wf|reflexivity]|].
  split; [apply unused_object; right; apply (seal_object ledger chain1 ledger_chain); [exact outpoint1_wf|reflexivity]|].
  split; [eexists; vm_compute; reflexivity|].
  split; [eexists; eexists; split; [apply HS_leaf; reflexivity|vm_compute; reflexivity]|].
  split; [apply HP_leaf; vm_compute; reflexivity|]. repeat split; vm_compute; reflexivity.
Qed.

(** C45: two verified closed nodes with fake seals of equal hash have the same contents. *)
Theorem C45_contents_bound_by_fake_seal : forall ct P G n1 n2 s1 s2 h, is_chain ct P -> is_gumap ct P G -> wf_table ct -> wf_tags ct ->
  object ct (g_base G) n1 -> object ct (g_base G) n2 -> verified ct P G n1 -> verified ct P G n2 ->
  closed_with G n1 (FakeWitness P s1) -> closed_with G n2 (FakeWitness P s2) -> phash ct s1 = Ok h -> phash ct s2 = Ok h ->
  same_contents ct G n1 n2 \/ sealed_collision ct G n1 n2 \/ hash_collision ct s1 s2.
Proof. intros ct P G n1 n2 s1 s2 h C D W. exact (fake_binds_contents ct P G C D W n1 n2 s1 s2 h). Qed.
Print Assumptions C45_contents_bound_by_fake_seal.

(** The same for nodes closed by the same output of a Bitcoin transaction. *)
Theorem C45_contents_bound_by_output : forall ct P G n1 n2 s1 s2 a1 a2 j t, is_chain ct P -> is_gumap ct P G -> wf_table ct ->
  g_wit G = p_bwit P -> g_verify G = btc_verify_hash ->
  let w1 := Witness P s1 a1 (TxOutProof P j (TxProof P t)) in let w2 := Witness P s2 a2 (TxOutProof P j (TxProof P t)) in
  object ct (g_base G) n1 -> object ct (g_base G) n2 -> verified ct P G n1 -> verified ct P G n2 -> closed_with G n1 w1 -> closed_with G n2 w2 ->
  same_contents ct G n1 n2 \/ sealed_collision ct G n1 n2 \/
  exists m1 m2, sealed ct G n1 w1 m1 /\ sealed ct G n2 w2 m2 /\ collision Hash160 (sha256 m1) (sha256 m2).
Proof. intros ct P G n1 n2 s1 s2 a1 a2 j t C D W EW EV. exact (output_binds_contents ct P G C D W n1 n2 s1 s2 a1 a2 j t EW EV). Qed.
Print Assumptions C45_contents_bound_by_output.

Lemma map1_map2 : map1 <> map2.
Proof. intros E. apply (f_equal (fun v => match v with PFull _ [_; _; _; PFull c _] => c | _ => 0 end)) in E. vm_compute in E. discriminate E. Qed.

Example C45_instance : exists n1 n2 s, object ledger GUMAP n1 /\ object ledger GUMAP n2 /\ n1 <> n2 /\ verified ledger chain1 intmap n1 /\ verified ledger chain1 intmap n2 /\
  closed_with intmap n1 (FakeWitness chain1 s) /\ closed_with intmap n2 (FakeWitness chain1 s) /\ (exists h, phash ledger s = Ok h) /\ wf_tags ledger /\
  same_contents ledger intmap n1 n2.
Proof.
  set (s := FakeSeal chain1 (get_ok [] (inner_hash ledger intmap left_leaf right_leaf))). exists map1, map2, s.
  assert (E : FakeSeal chain1 (get_ok [] (inner_hash ledger intmap left_leaf (Unused intmap [true] (FakeSeal chain1 (leaf_id (2 ^ 31) 6))))) = s) by (vm_compute; reflexivity).
  assert (H : exists h, phash ledger s = Ok h) by (eexists; vm_compute; reflexivity).
  assert (C1 : closed_with intmap map1 (FakeWitness chain1 s)) by (right; eexists _, _, _; reflexivity).
  assert (C2 : closed_with intmap map2 (FakeWitness chain1 s)) by (right; rewrite <- E; eexists _, _, _; reflexivity).
  split; [exact map1_object|]. split; [exact map2_object|]. split; [exact map1_map2|]. split; [exact (map1_verified [] _ (N_here _ _))|].
  split; [exact (map2_verified [] _ (N_here _ _))|]. split; [exact C1|]. split; [exact C2|]. split; [exact H|]. split; [exact ledger_tags|].
  right. eexists _, _, _, _, _, _, _, _, _, _. split; [reflexivity|]. split; [reflexivity|].
  assert (SL : seal_id ledger intmap left_leaf (get_ok [] (phash ledger (FakeSeal chain1 (leaf_id 0 5))))) by (eexists; split; [apply HS_leaf; reflexivity|vm_compute; reflexivity]).
  split; [exact SL|]. split; [exact SL|].
  assert (SR : forall s', s' = FakeSeal chain1 (leaf_id (2 ^ 31) 6) -> phash ledger s' = Ok (get_ok [] (phash ledger (FakeSeal chain1 (leaf_id (2 ^ 31) 6))))) by (intros s' ->; vm_compute; reflexivity).
  split; [eexists; split; [apply HS_leaf; reflexivity|apply SR; reflexivity]|]. eexists. split; [apply HS_unused|apply SR; reflexivity].
Qed.

(** C46 is false: verify of a map checks only its root. *)
Theorem C46_maps_disagree_refuted : exists ct P G m1 m2 k x1 x2 h, is_chain ct P /\ is_gumap ct P G /\ wf_table ct /\
  object ct (g_base G) m1 /\ object ct (g_base G) m2 /\ verified ct P G m1 /\ verified ct P G m2 /\
  seal_id ct G m1 h /\ seal_id ct G m2 h /\ placed G m1 /\ placed G m2 /\
  contains G m1 k x1 /\ contains G m2 k x2 /\ ~ same ct (g_value G) x1 x2.
Proof.
  exists ledger, chain1, intmap, map1, map3, (int 0), (int 5), (int 7), (get_ok [] (phash ledger (FakeSeal chain1 (get_ok [] (inner_hash ledger intmap left_leaf right_leaf))))).
  split; [exact ledger_chain|]. split; [exact intmap_ok|]. split; [exact ledger_wf|]. split; [exact map1_object|]. split; [exact map3_object|].
  split; [exact (map1_verified [] _ (N_here _ _))|]. split; [vm_compute; reflexivity|].
  split; [eexists; split; [apply HS_inner; reflexivity|vm_compute; reflexivity]|]. split; [eexists; split; [apply HS_inner; reflexivity|vm_compute; reflexivity]|].
  split; [exact map1_placed|]. split.
  { intros p w k x H. remember (Leaf intmap w k x) as n eqn:E. walk H; try discriminate E; injection E as _ <- _;
      (eexists; split; [vm_compute; reflexivity|]); eexists; cbn [app]; reflexivity. }
  split; [eexists _, _; apply N_left, N_here|]. split; [eexists _, _; apply N_left, N_here|]. cbn. discriminate.
Qed.
Print Assumptions C46_maps_disagree_refuted.

(** Verifying every node is not enough either: nothing ties a key to its place. *)
Theorem C46_verified_everywhere_refuted : exists ct P G m1 m2 k x1 x2 h, is_chain ct P /\ is_gumap ct P G /\ wf_table ct /\
  object ct (g_base G) m1 /\ object ct (g_base G) m2 /\ all_verified ct P G m1 /\ all_verified ct P G m2 /\ all_fake P G m1 /\ all_fake P G m2 /\
  seal_id ct G m1 h /\ seal_id ct G m2 h /\ contains G m1 k x1 /\ contains G m2 k x2 /\ ~ same ct (g_value G) x1 x2.
Proof.
  exists ledger, chain1, intmap, map4, map4, (int 0), (int 5), (int 6), (get_ok [] (phash ledger (FakeSeal chain1 (get_ok [] (inner_hash ledger intmap (fake_leaf 0 5) (fake_leaf 0 6)))))).
  assert (F : all_fake chain1 intmap map4) by (intros p n H; walk H; right; [right|left|left]; repeat eexists).
  assert (S : seal_id ledger intmap map4 (get_ok [] (phash ledger (FakeSeal chain1 (get_ok [] (inner_hash ledger intmap (fake_leaf 0 5) (fake_leaf 0 6)))))))
    by (eexists; split; [apply HS_inner; reflexivity|vm_compute; reflexivity]).
  pose proof map4_object. pose proof map4_verified.
  split; [exact ledger_chain|]. split; [exact intmap_ok|]. split; [exact ledger_wf|]. repeat (split; [assumption|]).
  split; [eexists _, _; apply N_left, N_here|]. split; [eexists _, _; apply N_right, N_here|]. cbn. discriminate.
Qed.
Print Assumptions C46_verified_everywhere_refuted.

(** C46 for maps verified at every node whose keys are where their prefix leads, as long as no
    seal is closed twice.  Missing: the first two conditions are not checked by verify (see
    above), the third is what the seals are for (C40, C45). *)
Theorem C46_agreement_partial : forall ct P G m1 m2 k x1 x2 h, is_chain ct P -> is_gumap ct P G -> wf_table ct ->
  object ct (g_base G) m1 -> object ct (g_base G) m2 -> all_verified ct P G m1 -> all_verified ct P G m2 -> placed G m1 -> placed G m2 ->
  closed_once ct P G m1 m2 -> seal_id ct G m1 h -> seal_id ct G m2 h -> contains G m1 k x1 -> contains G m2 k x2 ->
  same ct (g_value G) x1 x2 \/ map_collision ct G m1 m2.
Proof.
  intros ct P G m1 m2 k x1 x2 h C D W O1 O2 V1 V2 P1 P2 CO S1 S2. apply (unique_closed_once ct P G C D W m1 m2 k x1 x2); eauto.
Qed.
Print Assumptions C46_agreement_partial.

(** With fake seals only, closing twice takes a collision. *)
Theorem C46_fake_agreement_partial : forall ct P G m1 m2 k x1 x2 h, is_chain ct P -> is_gumap ct P G -> wf_table ct -> wf_tags ct ->
  object ct (g_base G) m1 -> object ct (g_base G) m2 -> all_verified ct P G m1 -> all_verified ct P G m2 -> placed G m1 -> placed G m2 ->
  all_fake P G m1 -> all_fake P G m2 -> seal_id ct G m1 h -> seal_id ct G m2 h -> contains G m1 k x1 -> contains G m2 k x2 ->
  same ct (g_value G) x1 x2 \/ map_collision ct G m1 m2 \/ seal_collision ct G m1 m2.
Proof.
  intros ct P G m1 m2 k x1 x2 h C D W T O1 O2 V1 V2 P1 P2 F1 F2 S1 S2. apply (unique_fake ct P G C D W m1 m2 k x1 x2); eauto.
Qed.
Print Assumptions C46_fake_agreement_partial.

Example C46_instance : object ledger GUMAP map1 /\ object ledger GUMAP map2 /\ all_verified ledger chain1 intmap map1 /\ all_verified ledger chain1 intmap map2 /\
  placed intmap map1 /\ placed intmap map2 /\ all_fake chain1 intmap map1 /\ all_fake chain1 intmap map2 /\ map1 <> map2 /\
  (exists h, seal_id ledger intmap map1 h /\ seal_id ledger intmap map2 h) /\ contains intmap map1 (int 0) (int 5) /\ contains intmap map2 (int 0) (int 5).
Proof.
  split; [exact map1_object|]. split; [exact map2_object|]. split; [exact map1_verified|]. split; [exact map2_verified|]. split; [exact map1_placed|]. split; [exact map2_placed|].
  split; [exact map1_fake|]. split; [exact map2_fake|]. split; [exact map1_map2|]. split.
  - exists (get_ok [] (phash ledger (FakeSeal chain1 (get_ok [] (inner_hash ledger intmap left_leaf right_leaf))))).
    split; (eexists; split; [apply HS_inner; reflexivity|vm_compute; reflexivity]).
  - split; (eexists _, _; apply N_left, N_here).
Qed.

(** A leaf closed with a Bitcoin seal is closed once with respect to itself. *)
Definition btc_leaf : val := get_ok (int 0) (leaf_from_unused ledger intmap (Unused intmap [] seal1) (int 9) (int 5) make_btc).
Example C46_closed_once_instance : object ledger GUMAP btc_leaf /\ all_verified ledger chain1 intmap btc_leaf /\ placed intmap btc_leaf /\
  closed_once ledger chain1 intmap btc_leaf btc_leaf /\ contains intmap btc_leaf (int 9) (int 5).
Proof.
  destruct (C44_leaf_from_unused_verifies ledger chain1 intmap [] seal1 (int 9) (int 5) [x09] [x05] make_btc ledger_chain intmap_ok ledger_wf) as (w & E & O & _ & V).
  - apply unused_object. right. apply (seal_object ledger chain1 ledger_chain); [exact outpoint1_wf|reflexivity].
  - apply int_fits. lia.
  - apply int_fits. lia.
  - vm_compute. reflexivity.
  - vm_compute. reflexivity.
  - apply make_btc_honest; [exact outpoint1_wf|reflexivity].
  - assert (EB : btc_leaf = Leaf intmap w (int 9) (int 5)) by (unfold btc_leaf; rewrite E; reflexivity). rewrite EB.
    assert (N : forall p n, node intmap (Leaf intmap w (int 9) (int 5)) p n -> p = [] /\ n = Leaf intmap w (int 9) (int 5)) by (intros p n H; inversion H; auto).
    split; [exact O|]. split; [intros p n H; apply N in H; destruct H as (-> & ->); exact V|]. split.
    { intros p w' k x H. apply N in H. destruct H as (-> & H). injection H as _ -> _. eexists. split; [vm_compute; reflexivity|]. eexists. reflexivity. }
    split; [|exists [], w; constructor].
    intros p1 p2 n1 n2 h w1 w2 d1 d2 A1 A2 _ _ S1 S2 _ _. apply N in A1, A2. destruct A1 as (_ & ->), A2 as (_ & ->).
    assert (F : forall w0 d, sealed ledger intmap (Leaf intmap w (int 9) (int 5)) w0 d -> leaf_hash ledger intmap (int 9) (int 5) = Ok (sha256 d)).
    { intros w0 d S. inversion S as [? ? ? t kb xb T K X|]; subst. exact (leaf_hash_exact ledger intmap _ _ kb xb t T K X). }
    pose proof (F _ _ S1) as E1. pose proof (F _ _ S2) as E2. rewrite E1 in E2. apply (f_equal (get_ok [])) in E2. exact E2.
Qed.

(** C57 is false: verify never asks whether the witness itself verifies.  The transaction of
    this witness does not spend the seal's outpoint. *)
Definition wrong_tx := close_tx [outpoint2] [mkTxOut 0 ([x6a; x20] ++ leaf_id 0 5)].
Definition wrong_witness := Witness chain1 seal1 (TxInProof chain1 0 (TxProof chain1 wrong_tx)) (TxOutProof chain1 0 (TxProof chain1 wrong_tx)).
Theorem C57_unclosed_seal_accepted_refuted : exists ct P G n w, is_chain ct P /\ is_gumap ct P G /\ wf_table ct /\ g_wit G = p_bwit P /\ g_verify G = btc_verify_hash /\
  object ct (g_base G) n /\ complete n /\ closed_with G n w /\ verified ct P G n /\ outcome ct btc_verify w = Err AssertionError.
Proof.
  exists ledger, chain1, intmap, (Leaf intmap wrong_witness (int 0) (int 5)), wrong_witness.
  split; [exact ledger_chain|]. split; [exact intmap_ok|]. split; [exact ledger_wf|]. split; [reflexivity|]. split; [reflexivity|]. split.
  { apply leaf_object; try lia. right. assert (Wt : wf_tx wrong_tx).
    { apply close_tx_wf; [repeat constructor; apply outpoint2_wf| |cbn; lia..]. constructor; [|constructor]. split; [cbn; lia|]. vm_compute. discriminate. }
    apply (witness_object ledger chain1 ledger_chain); [apply (seal_object ledger chain1 ledger_chain); [apply outpoint1_wf|reflexivity]|
      apply (txin_object ledger chain1 ledger_chain); [lia|]|apply (txout_object ledger chain1 ledger_chain); [lia|]]; apply (tx_object ledger chain1 ledger_chain), Wt. }
  split; [repeat constructor|]. split; [left; eexists _, _; reflexivity|]. split; vm_compute; reflexivity.
Qed.
Print Assumptions C57_unclosed_seal_accepted_refuted.

(** C57 when the witness is verified separately.  Missing: verify of the node alone. *)
Theorem C57_closed_seal_partial : forall ct P G n w, is_chain ct P -> is_gumap ct P G -> wf_table ct -> g_wit G = p_bwit P -> g_verify G = btc_verify_hash ->
  object ct (g_base G) n -> object ct (p_bwit P) w -> closed_with G n w -> verified ct P G n -> outcome ct btc_verify w = Ok tt ->
  exists o nonce i t j t' x y m, w = Witness P (Seal P o nonce) (TxInProof P i (TxProof P t)) (TxOutProof P j (TxProof P t')) /\
    input t i x /\ i_prevout x = o /\ same_txid t t' /\ has_seal ct G n (Seal P o nonce) /\
    sealed ct G n w m /\ output t' j y /\ commitment (sha256 m) (o_scriptPubKey y).
Proof. intros ct P G n w C D W EW EV. exact (closed_seal ct P G C D W n w EW EV). Qed.
Print Assumptions C57_closed_seal_partial.

Example C57_instance : exists n w, object ledger GUMAP n /\ object ledger BWIT w /\ closed_with intmap n w /\ verified ledger chain1 intmap n /\ outcome ledger btc_verify w = Ok tt.
Proof.
  destruct (C44_leaf_from_unused_verifies ledger chain1 intmap [] seal1 (int 9) (int 5) [x09] [x05] make_btc ledger_chain intmap_ok ledger_wf) as (w & E & O & _ & V).
  - apply unused_object. right. apply (seal_object ledger chain1 ledger_chain); [exact outpoint1_wf|reflexivity].
  - apply int_fits. lia.
  - apply int_fits. lia.
  - vm_compute. reflexivity.
  - vm_compute. reflexivity.
  - apply make_btc_honest; [exact outpoint1_wf|reflexivity].
  - exists (Leaf intmap w (int 9) (int 5)), w. split; [exact O|]. assert (X : exists t, w = witness t 0 0 /\ outcome ledger btc_verify (witness t 0 0) = Ok tt).
    { vm_compute in E. injection E as <-. eexists (close_tx [outpoint1] [mkTxOut 0 ([x6a; x20] ++ leaf_id 9 5)]). split; vm_compute; reflexivity. }
    destruct X as (t & -> & X). split; [|split; [left; eauto|split; [exact V|exact X]]].
    apply (node_shape ledger chain1 intmap intmap_ok) in O. destruct O as [(? & ? & O & _)|[(? & ? & ? & O & [H|H] & _)|(? & ? & ? & ? & O & _)]]; try discriminate O; injection O as <- _ _; [|exact H].
    apply (fwit_class ledger chain1 ledger_chain) in H. discriminate H.
Qed.

(** C58: a child can be replaced by any node with the same seal, closed or not: the parent
    still verifies and keeps its seal. *)
Theorem C58_child_replaced : forall ct P G p w l r l' r' hl hr, is_chain ct P -> is_gumap ct P G -> wf_table ct ->
  object ct (g_base G) (Inner G p w l r) -> object ct (g_base G) l' -> object ct (g_base G) r' ->
  seal_id ct G l hl -> seal_id ct G l' hl -> seal_id ct G r hr -> seal_id ct G r' hr ->
  object ct (g_base G) (Inner G p w l' r') /\
  (verified ct P G (Inner G p w l' r') <-> verified ct P G (Inner G p w l r)) /\
  (forall s, has_seal ct G (Inner G p w l' r') s <-> has_seal ct G (Inner G p w l r) s).
Proof. intros ct P G p w l r l' r' hl hr C D W. exact (child_replaced ct P G C D W p w l r l' r' hl hr). Qed.
Print Assumptions C58_child_replaced.

(** test_gumap.py:86-106 with a fake parent over real seals. *)
Example C58_instance : exists l l' r p w, object ledger GUMAP (Inner intmap p w l r) /\ object ledger GUMAP l' /\ l <> l' /\
  (exists h, seal_id ledger intmap l h /\ seal_id ledger intmap l' h) /\ (exists h, seal_id ledger intmap r h) /\
  verified ledger chain1 intmap (Inner intmap p w l r) /\ verified ledger chain1 intmap (Inner intmap p w l' r).
Proof.
  assert (OS : forall o n, wf_outpoint o -> List.length n = 16 -> object ledger GUMAP (Unused intmap [false] (Seal chain1 o n)) /\ object ledger GUMAP (Unused intmap [true] (Seal chain1 o n)))
    by (intros o n Wo Ln; split; apply unused_object; right; apply (seal_object ledger chain1 ledger_chain); assumption).
  destruct (OS outpoint1 nonce1 outpoint1_wf eq_refl) as (U1 & _). destruct (OS outpoint2 nonce1 outpoint2_wf eq_refl) as (_ & U2).
  destruct (C44_leaf_from_unused_verifies ledger chain1 intmap [false] seal1 (int 9) (int 5) [x09] [x05] make_btc ledger_chain intmap_ok ledger_wf) as (w & E & O & S & V); try assumption.
  - apply int_fits. lia.
  - apply int_fits. lia.
  - vm_compute. reflexivity.
  - vm_compute. reflexivity.
  - apply make_btc_honest; [exact outpoint1_wf|reflexivity].
  - assert (S1 : exists h, seal_id ledger intmap (Unused intmap [false] seal1) h /\ seal_id ledger intmap (Leaf intmap w (int 9) (int 5)) h).
    { eexists. split; [exists seal1; split; [apply HS_unused|vm_compute; reflexivity]|]. exists seal1. split; [exact S|vm_compute; reflexivity]. }
    destruct S1 as (h1 & S1 & S1'). assert (S2 : exists h, seal_id ledger intmap (Unused intmap [true] seal2) h) by (eexists; eexists; split; [apply HS_unused|vm_compute; reflexivity]).
    destruct S2 as (h2 & S2).
    destruct (C44_from_children_verifies ledger chain1 intmap _ _ [false] [true] h1 h2 ledger_chain intmap_ok ledger_wf U1 U2 (HP_unused _ _ _) (HP_unused _ _ _) S1 S2) as (p & h & _ & _ & OI & VI).
    exists (Unused intmap [false] seal1), (Leaf intmap w (int 9) (int 5)), (Unused intmap [true] seal2), p, (FakeWitness chain1 (FakeSeal chain1 h)).
    split; [exact OI|]. split; [exact O|]. split; [discriminate|]. split; [eauto|]. split; [eauto|]. split; [exact VI|].
    eapply (C58_child_replaced ledger chain1 intmap); try exact OI; try exact VI; eauto using ledger_chain, intmap_ok, ledger_wf.
Qed.
