(** Properties C40 and C46, continued: how many digests a Bitcoin seal can be closed over, and maps closed on a chain without double spends. *)
From Verif Require Import Base Bits_Spec Sha256 Ripemd160 Serialize_Model Serialize_Spec Tx_Model Tx_Spec Proof_Model Proof_Spec ProofHash_Proofs
  Chain_Model Chain_Spec Chain_Proofs ChainPipe_Proofs Chain_Examples Chain_Props Gumap_Model Gumap_Spec Gumap_Proofs Gumap_Examples GumapLedger_Spec GumapLedger_Proofs.
From Coq Require Import ZifyBool ZifyNat ZifyN.
Local Open Scope string_scope.
Local Open Scope list_scope.

(** The digests a seal can be closed over with the transaction [t] that spends its outpoint are exactly those that outputs of [t] commit to:
    every such output makes a witness, and every verified witness is for one of them, or there is a collision. *)
Theorem C40_exactly_the_committed_partial : forall ct P o n t i x, is_chain ct P -> wf_outpoint o -> List.length n = 16 -> wf_tx t ->
  input t i x -> i_prevout x = o -> (i < 2 ^ 32)%Z ->
  (forall j y h, output t j y -> (j < 2 ^ 32)%Z -> List.length h = 32 -> commitment h (o_scriptPubKey y) ->
     let w := Witness P (Seal P o n) (TxInProof P i (TxProof P t)) (TxOutProof P j (TxProof P t)) in
     object ct (p_bwit P) w /\ outcome ct btc_verify w = Ok tt /\ outcome ct (btc_verify_hash h) w = Ok tt) /\
  (forall w t1 t1' h, object ct (p_bwit P) w -> closing P w o t1 t1' -> same_txid t t1 ->
     outcome ct btc_verify w = Ok tt -> outcome ct (btc_verify_hash h) w = Ok tt ->
     List.length h = 32 /\ ((exists j y, output t j y /\ commitment h (o_scriptPubKey y)) \/ tx_collision t t1 \/ tx_collision t1 t1')).
Proof.
  intros ct P o n t i x C Wo Ln Wt X Ex Li. split.
  - intros j y h Y Lj Lh K. exact (output_witness ct P C o n t i x j y h Wo Ln Wt X Ex Y Li Lj Lh K).
  - intros w t1 t1' h. exact (committed_output ct P C w o t t1 t1' h Wt).
Qed.
Print Assumptions C40_exactly_the_committed_partial.

(** So there are at most as many as outputs, unless there is a collision. *)
Theorem C40_at_most_the_outputs_partial : forall ct P o t hs, is_chain ct P -> wf_tx t -> NoDup hs ->
  (forall h, In h hs -> exists w t1 t1', object ct (p_bwit P) w /\ closing P w o t1 t1' /\ same_txid t t1 /\
     outcome ct btc_verify w = Ok tt /\ outcome ct (btc_verify_hash h) w = Ok tt) ->
  List.length hs <= List.length (t_vout t) \/ (exists h1 h2, In h1 hs /\ In h2 hs /\ collision Hash160 h1 h2) \/
  (exists w t1 t1', object ct (p_bwit P) w /\ closing P w o t1 t1' /\ (tx_collision t t1 \/ tx_collision t1 t1')).
Proof. intros ct P o t hs C. exact (count_digests ct P C o t hs). Qed.
Print Assumptions C40_at_most_the_outputs_partial.

(** The bound is reached: two outputs, two digests. *)
Definition two_tx := close_tx [outpoint1] [out_return; out_other].
Lemma two_wf : wf_tx two_tx.
Proof. apply close_tx_wf; [repeat constructor; apply outpoint1_wf| |cbn; lia..]. pose proof outs_wf as H. rewrite Forall_forall in *. intros x Hx. apply H. cbn in *. tauto. Qed.
Example C40_outputs_instance : wf_tx two_tx /\ wf_outpoint outpoint1 /\ (exists x, input two_tx 0 x /\ i_prevout x = outpoint1) /\ NoDup [digest1; digest2] /\
  (forall h, In h [digest1; digest2] -> exists w t1 t1', object ledger (p_bwit chain1) w /\ closing chain1 w outpoint1 t1 t1' /\ same_txid two_tx t1 /\
     outcome ledger btc_verify w = Ok tt /\ outcome ledger (btc_verify_hash h) w = Ok tt) /\ List.length (t_vout two_tx) = 2.
Proof.
  split; [exact two_wf|]. split; [exact outpoint1_wf|]. split; [eexists; split; [split; [lia|reflexivity]|reflexivity]|].
  split; [repeat constructor; cbn; [intros [E|[]]|tauto]; apply (f_equal (fun l => bytes_eqb l digest1)) in E; vm_compute in E; discriminate E|].
  split; [|reflexivity].
  intros h [<-|[<-|[]]]; [exists (witness two_tx 0 0)|exists (witness two_tx 0 1)]; exists two_tx, two_tx;
    (split; [apply witness_ok; [exact two_wf|lia..]|]); (split; [eexists _, _, _; reflexivity|]); (split; [eexists; split; vm_compute; reflexivity|]);
    split; vm_compute; reflexivity.
Qed.

(** Maps closed on a chain: if no outpoint is spent twice, only one output of each confirmed transaction commits to something, and every
    witness was verified, two maps with the same seal agree wherever both are defined, or there is a collision.  Missing, as for
    C46_agreement_partial: that verify() of the map checks the witnesses, all nodes and the places of the keys. *)
Theorem C46_ledger_agreement_partial : forall ct P G confirmed m1 m2 k x1 x2 h, is_chain ct P -> is_gumap ct P G -> wf_table ct -> wf_tags ct ->
  g_wit G = p_bwit P -> g_verify G = btc_verify_hash ->
  no_double_spend confirmed -> (forall t, confirmed t -> commits_once t) ->
  object ct (g_base G) m1 -> object ct (g_base G) m2 -> all_verified ct P G m1 -> all_verified ct P G m2 -> placed G m1 -> placed G m2 ->
  all_on_chain ct P G confirmed m1 -> all_on_chain ct P G confirmed m2 ->
  seal_id ct G m1 h -> seal_id ct G m2 h -> contains G m1 k x1 -> contains G m2 k x2 ->
  same ct (g_value G) x1 x2 \/ map_collision ct G m1 m2 \/
  (seal_collision ct G m1 m2 \/ digest_collision ct G m1 m2 \/ witness_collision P G m1 \/ witness_collision P G m2).
Proof.
  intros ct P G confirmed m1 m2 k x1 x2 h C D W T GW GV ND CO O1 O2 V1 V2 P1 P2 A1 A2 S1 S2.
  apply (unique_ledger ct P C G D W T GW GV confirmed m1 m2 k x1 x2); eauto.
Qed.
Print Assumptions C46_ledger_agreement_partial.

(** A map whose root is closed by a transaction, seen with and without its right half. *)
Definition half := Unused intmap [true] (FakeSeal chain1 (leaf_id (2 ^ 31) 6)).
Definition root_tx := close_tx [outpoint1] [mkTxOut 0 ([x6a; x20] ++ get_ok [] (inner_hash ledger intmap left_leaf right_leaf)); mkTxOut 5000 [x51]].
Definition root_map (r : val) := Inner intmap [] (witness root_tx 0 0) left_leaf r.
Lemma root_wf : wf_tx root_tx.
Proof.
  apply close_tx_wf; [repeat constructor; apply outpoint1_wf| |cbn; lia..].
  repeat constructor; cbn [o_nValue o_scriptPubKey]; try lia; vm_compute; discriminate.
Qed.
Lemma root_object r : object ledger GUMAP r -> object ledger GUMAP (root_map r).
Proof.
  intros O. apply inner_object; [right; apply witness_ok; [exact root_wf|lia..]| |exact O].
  unfold left_leaf, fake_leaf. objects.
Qed.
Lemma root_commits : commits_once root_tx.
Proof.
  intros j1 j2 x1 x2 h1 h2 (J1 & X1) (J2 & X2) L1 L2 K1 K2.
  assert (F : forall j x h, nth_error (t_vout root_tx) (Z.to_nat j) = Some x -> (0 <= j)%Z -> commitment h (o_scriptPubKey x) -> j = 0%Z).
  { clear. intros j x h X J K. destruct (Z.to_nat j) as [|[|n]] eqn:E; [lia| |destruct n; discriminate X].
    injection X as <-. cbn [o_scriptPubKey] in K. exfalso. unfold commitment in K.
    destruct K as [K|[K|K]]; discriminate K. }
  rewrite (F _ _ _ X1 J1 K1), (F _ _ _ X2 J2 K2). reflexivity.
Qed.

Example C46_ledger_instance : let confirmed t := t = root_tx in
  no_double_spend confirmed /\ (forall t, confirmed t -> commits_once t) /\ wf_tags ledger /\
  object ledger GUMAP (root_map right_leaf) /\ object ledger GUMAP (root_map half) /\
  all_verified ledger chain1 intmap (root_map right_leaf) /\ all_verified ledger chain1 intmap (root_map half) /\
  placed intmap (root_map right_leaf) /\ placed intmap (root_map half) /\
  all_on_chain ledger chain1 intmap confirmed (root_map right_leaf) /\ all_on_chain ledger chain1 intmap confirmed (root_map half) /\
  (exists h, seal_id ledger intmap (root_map right_leaf) h /\ seal_id ledger intmap (root_map half) h) /\
  contains intmap (root_map right_leaf) (int 0) (int 5) /\ contains intmap (root_map half) (int 0) (int 5).
Proof.
  intros confirmed. split; [intros ? ? ? ? ? ? -> -> _ _ _; reflexivity|]. split; [intros ? ->; exact root_commits|]. split; [exact ledger_tags|].
  split; [apply root_object; unfold right_leaf, fake_leaf; objects|]. split; [apply root_object; unfold half; objects|].
  split; [intros p n H; walk H; vm_compute; reflexivity|]. split; [intros p n H; walk H; vm_compute; reflexivity|].
  assert (PL : forall r, (forall p' w' l' r', r <> Inner intmap p' w' l' r') -> (r = right_leaf \/ r = half) -> placed intmap (root_map r)).
  { intros r Nr Hr p w k x H. remember (Leaf intmap w k x) as n eqn:E. apply two_levels in H; [|discriminate|exact Nr].
    destruct H as [(-> & ->)|[(-> & ->)|(-> & ->)]]; [discriminate E| |destruct Hr as [-> | ->]; [|discriminate E]]; injection E as _ <- _;
      (eexists; split; [vm_compute; reflexivity|]); eexists; cbn [app]; reflexivity. }
  split; [apply PL; [discriminate|auto]|]. split; [apply PL; [discriminate|auto]|].
  assert (OC : forall r, (forall p' w' l' r', r <> Inner intmap p' w' l' r') -> (r = right_leaf \/ r = half) -> all_on_chain ledger chain1 intmap confirmed (root_map r)).
  { intros r Nr Hr p n w H K. apply two_levels in H; [|discriminate|exact Nr].
    destruct H as [(-> & ->)|[(-> & ->)|(-> & ->)]].
    - destruct K as [(? & ? & K)|(? & ? & ? & K)]; [discriminate K|]. injection K as _ <- _ _. right. split; [vm_compute; reflexivity|].
      exists outpoint1, root_tx, root_tx. split; [eexists _, _, _; reflexivity|reflexivity].
    - destruct K as [(? & ? & K)|(? & ? & ? & K)]; [|discriminate K]. injection K as <- _ _. left. eexists. reflexivity.
    - destruct Hr as [-> | ->]; destruct K as [(? & ? & K)|(? & ? & ? & K)]; try discriminate K. injection K as <- _ _. left. eexists. reflexivity. }
  split; [apply OC; [discriminate|auto]|]. split; [apply OC; [discriminate|auto]|].
  split; [eexists; split; (eexists; split; [apply HS_inner; reflexivity|vm_compute; reflexivity])|].
  split; (eexists _, _; apply N_left, N_here).
Qed.
