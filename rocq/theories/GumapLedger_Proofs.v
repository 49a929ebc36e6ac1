(** Proofs: how many digests a seal can be closed over; maps whose seals are closed on a chain without double spends. *)
From Verif Require Import Base Sha256 Ripemd160 Serialize_Model Serialize_Spec Tx_Model Tx_Spec Tx_Proofs Proof_Model Proof_Spec ProofHash_Proofs ProofMain_Proofs
  Chain_Model Chain_Spec Chain_Proofs ChainPipe_Proofs Gumap_Model Gumap_Spec Gumap_Proofs GumapLedger_Spec.
From Coq Require Import ZifyBool ZifyNat ZifyN.
Local Open Scope string_scope.
Local Open Scope list_scope.

Section Ledger.
Context (ct : ctable) (P : chain) (C : is_chain ct P).

Lemma closing_wf w o t t' : object ct (p_bwit P) w -> closing P w o t t' -> wf_tx t /\ wf_tx t'.
Proof.
  intros O (n & i & j & ->). destruct (witness_shape ct P C _ O) as [(s & a & b & E & _ & Oa & Ob)|(dh & E & _)]; [|discriminate]. inversion E; subst.
  destruct (txin_shape ct P C _ Oa) as [(? & p & E2 & _ & Op)|(? & E2 & _)]; [|discriminate]. inversion E2; subst.
  destruct (txout_shape ct P C _ Ob) as [(? & q & E3 & _ & Oq)|(? & E3 & _)]; [|discriminate]. inversion E3; subst.
  destruct (tx_shape ct P C _ Op) as [(? & E4 & W1)|(? & E4 & _)]; [|discriminate]. destruct (tx_shape ct P C _ Oq) as [(? & E5 & W2)|(? & E5 & _)]; [|discriminate].
  inversion E4; inversion E5; subst. auto.
Qed.

(** What a verified witness for [h] gives: an output of the transaction that spends the outpoint. *)
Lemma verified_output w o t t' h : object ct (p_bwit P) w -> closing P w o t t' -> outcome ct btc_verify w = Ok tt -> outcome ct (btc_verify_hash h) w = Ok tt ->
  List.length h = 32 /\ (exists i x, input t i x /\ i_prevout x = o) /\
  ((exists j y, output t j y /\ commitment h (o_scriptPubKey y)) \/ tx_collision t t').
Proof.
  intros O K V H. destruct (closing_wf _ _ _ _ O K) as (W & W'). destruct K as (n & i & j & ->).
  apply (proj1 (btc_verify_exact ct P C _ O)) in V. destruct V as (o' & n' & i' & u & j' & u' & x & E & X & Ex & S). inversion E; subst o' n' i' u j' u'. clear E.
  apply (btc_verify_hash_exact ct P C _ _ O) in H. destruct H as (L & s & a & j' & u & y & E & Y & K). inversion E; subst s a j' u. clear E.
  split; [exact L|]. split; [exists i, x; auto|]. destruct (same_txid_binds _ _ W W' S) as [<-|Q]; [left; eauto|right; exact Q].
Qed.

(** An output that commits makes a witness. *)
Lemma output_witness o n t i x j y h : wf_outpoint o -> List.length n = 16 -> wf_tx t -> input t i x -> i_prevout x = o -> output t j y ->
  (i < 2 ^ 32)%Z -> (j < 2 ^ 32)%Z -> List.length h = 32 -> commitment h (o_scriptPubKey y) ->
  let w := Witness P (Seal P o n) (TxInProof P i (TxProof P t)) (TxOutProof P j (TxProof P t)) in
  object ct (p_bwit P) w /\ outcome ct btc_verify w = Ok tt /\ outcome ct (btc_verify_hash h) w = Ok tt.
Proof.
  intros Wo Ln Wt X Ex Y Li Lj Lh K w. pose proof (proj1 X). pose proof (proj1 Y).
  assert (O : object ct (p_bwit P) w).
  { apply (witness_object ct P C); [apply (seal_object ct P C); assumption|apply (txin_object ct P C); [lia|]|apply (txout_object ct P C); [lia|]]; apply (tx_object ct P C), Wt. }
  split; [exact O|]. split.
  - apply (proj1 (btc_verify_exact ct P C w O)). exists o, n, i, t, j, t, x. split; [reflexivity|]. split; [exact X|]. split; [exact Ex|].
    destruct (tx_codec t Wt) as (enc & E & _). exists (Hash enc). unfold tx_GetHash. rewrite E. split; reflexivity.
  - apply (btc_verify_hash_exact ct P C w h O). split; [exact Lh|]. eexists _, _, _, _, _. split; [reflexivity|]. split; [exact Y|exact K].
Qed.

(** The same txid, up to a collision, is the same transaction. *)
Lemma committed_output w o t t1 t1' h : wf_tx t -> object ct (p_bwit P) w -> closing P w o t1 t1' -> same_txid t t1 ->
  outcome ct btc_verify w = Ok tt -> outcome ct (btc_verify_hash h) w = Ok tt ->
  List.length h = 32 /\ ((exists j y, output t j y /\ commitment h (o_scriptPubKey y)) \/ tx_collision t t1 \/ tx_collision t1 t1').
Proof.
  intros Wt O K S V H. destruct (closing_wf _ _ _ _ O K) as (W1 & _). destruct (verified_output _ _ _ _ _ O K V H) as (L & _ & D). split; [exact L|].
  destruct (same_txid_binds _ _ Wt W1 S) as [<-|Q]; [|auto]. destruct D; auto.
Qed.

(** Counting. *)
Definition commits_at (t : tx) (h : bytes) (j : nat) : Prop := List.length h = 32 /\ exists y, nth_error (t_vout t) j = Some y /\ commitment h (o_scriptPubKey y).

Lemma count_outputs t hs js : NoDup hs -> Forall2 (commits_at t) hs js ->
  List.length hs <= List.length (t_vout t) \/ exists h1 h2, In h1 hs /\ In h2 hs /\ collision Hash160 h1 h2.
Proof.
  intros N F.
  assert (D : NoDup js \/ exists h1 h2, In h1 hs /\ In h2 hs /\ collision Hash160 h1 h2).
  { induction F as [|h j hs js (L & y & Y & K) F IH]; [left; constructor|]. inversion N as [|? ? NI N']; subst.
    destruct (IH N') as [IHN|(h1 & h2 & I1 & I2 & Q)]; [|right; exists h1, h2; cbn; auto].
    destruct (in_dec Nat.eq_dec j js) as [I|I]; [|left; constructor; assumption]. right.
    assert (exists h', In h' hs /\ commits_at t h' j) as (h' & I' & (L' & y' & Y' & K')).
    { clear - F I. induction F as [|h j' hs js A F IH]; [destruct I|]. destruct I as [->|I]; [exists h; cbn; auto|]. destruct (IH I) as (h' & ? & ?). exists h'. cbn. auto. }
    exists h, h'. cbn. split; [auto|]. split; [auto|]. rewrite Y in Y'. injection Y' as <-.
    destruct (commitment_binds _ _ _ L L' K K') as [<-|Q]; [contradiction|exact Q]. }
  destruct D as [D|D]; [left|right; exact D].
  assert (LE : List.length hs = List.length js) by (clear - F; induction F; cbn; congruence).
  rewrite LE, <- (seq_length (List.length (t_vout t)) 0). apply NoDup_incl_length; [exact D|].
  intros j I. apply in_seq. split; [lia|]. cbn.
  assert (exists h, commits_at t h j) as (h & _ & y & Y & _).
  { clear - F I. induction F as [|h j' hs js A F IH]; [destruct I|]. destruct I as [->|I]; eauto. }
  apply nth_error_Some. congruence.
Qed.

Lemma count_digests o t hs : wf_tx t -> NoDup hs ->
  (forall h, In h hs -> exists w t1 t1', object ct (p_bwit P) w /\ closing P w o t1 t1' /\ same_txid t t1 /\
     outcome ct btc_verify w = Ok tt /\ outcome ct (btc_verify_hash h) w = Ok tt) ->
  List.length hs <= List.length (t_vout t) \/ (exists h1 h2, In h1 hs /\ In h2 hs /\ collision Hash160 h1 h2) \/
  (exists w t1 t1', object ct (p_bwit P) w /\ closing P w o t1 t1' /\ (tx_collision t t1 \/ tx_collision t1 t1')).
Proof.
  intros Wt N H.
  assert (D : (exists js, Forall2 (commits_at t) hs js) \/ (exists w t1 t1', object ct (p_bwit P) w /\ closing P w o t1 t1' /\ (tx_collision t t1 \/ tx_collision t1 t1'))).
  { clear N. induction hs as [|h hs IH]; [left; exists []; constructor|].
    destruct (H h (or_introl eq_refl)) as (w & t1 & t1' & O & K & S & V & Vh).
    destruct (committed_output _ _ _ _ _ _ Wt O K S V Vh) as (L & [(j & y & (J & Y) & Cm)|Q]); [|right; exists w, t1, t1'; auto].
    destruct IH as [(js & F)|Q]; [intros h' I; apply H; right; exact I| |right; exact Q].
    left. exists (Z.to_nat j :: js). constructor; [|exact F]. split; [exact L|]. exists y. auto. }
  destruct D as [(js & F)|Q]; [|auto]. destruct (count_outputs t hs js N F); auto.
Qed.

Context (G : gumap) (D : is_gumap ct P G) (W : wf_table ct) (T : wf_tags ct).
Context (GW : g_wit G = p_bwit P) (GS : g_seal G = p_bseal P) (GV : g_verify G = btc_verify_hash).

(** Seals of different classes have different tags. *)
Lemma seal_tags a b : uuid "e5690d73-16e3-4f8f-bd4f-148c32d37baf" ++ a <> uuid "b59093bf-527f-4d2a-9a51-3c2e3d2f0c25" ++ b.
Proof.
  intros E. apply app_inj_len in E; [|vm_compute; reflexivity]. destruct E as (E & _).
  apply (f_equal (fun l => bytes_eqb l (uuid "b59093bf-527f-4d2a-9a51-3c2e3d2f0c25"))) in E. vm_compute in E. discriminate E.
Qed.
Lemma other_class_seals d o n h : phash ct (FakeSeal P d) = Ok h -> phash ct (Seal P o n) = Ok h -> hash_collision ct (FakeSeal P d) (Seal P o n).
Proof.
  intros H1 H2. pose proof (proj2 (proj2 (d_fseal ct P C))) as T1. pose proof (proj2 (proj2 (d_bseal ct P C))) as T2. unfold tag in T1, T2.
  pose proof (seal_tags) as N. set (u := uuid "e5690d73-16e3-4f8f-bd4f-148c32d37baf") in *. set (v := uuid "b59093bf-527f-4d2a-9a51-3c2e3d2f0c25") in *. clearbody u v.
  destruct (proj1 (phash_tag ct (FakeSeal P d) _ _ h eq_refl T1 I) H1) as (d1 & E1 & Q1). destruct (proj1 (phash_tag ct (Seal P o n) _ _ h eq_refl T2 I) H2) as (d2 & E2 & Q2).
  exists (u ++ d1), (v ++ d2). split; [eapply H_tag; [reflexivity|exact T1|exact E1]|]. split; [eapply H_tag; [reflexivity|exact T2|exact E2]|]. split; [apply N|congruence].
Qed.

Lemma same_seal o1 n1 o2 n2 h : object ct (p_bseal P) (Seal P o1 n1) -> object ct (p_bseal P) (Seal P o2 n2) ->
  phash ct (Seal P o1 n1) = Ok h -> phash ct (Seal P o2 n2) = Ok h -> o1 = o2 \/ hash_collision ct (Seal P o1 n1) (Seal P o2 n2).
Proof.
  intros O1 O2 H1 H2.
  destruct (same_class_binding ct (p_bseal P) (p_bseal P) (p_bseal P) _ _ h W T (fits_holds _ _ _ O1) (fits_holds _ _ _ O2) eq_refl eq_refl H1 H2) as [(_ & E)|K]; [left|right; exact K].
  assert (X : Seal P o1 n1 = Seal P o2 n2) by (apply E; repeat constructor). inversion X. reflexivity.
Qed.

(** A closed node of a map whose witnesses are on the chain. *)
Lemma closed_kind confirmed m p nd w d : object ct (g_base G) m -> node G m p nd -> all_on_chain ct P G confirmed m -> sealed ct G nd w d ->
  vouches ct P G w (sha256 d) ->
  (w = FakeWitness P (FakeSeal P (sha256 d)) /\ (forall s, has_seal ct G nd s -> s = FakeSeal P (sha256 d))) \/
  (exists o n i t j t' x, w = Witness P (Seal P o n) (TxInProof P i (TxProof P t)) (TxOutProof P j (TxProof P t')) /\ object ct (p_bwit P) w /\
     object ct (p_bseal P) (Seal P o n) /\
     (forall s, has_seal ct G nd s -> s = Seal P o n) /\ confirmed t /\ input t i x /\ i_prevout x = o /\ closed_with G nd w /\ closing P w o t t' /\
     ((exists y, output t j y /\ commitment (sha256 d) (o_scriptPubKey y)) \/ tx_collision t t')).
Proof.
  intros O N A S V. assert (K : closed_with G nd w) by (inversion S; subst; [left|right]; eauto).
  assert (HS : forall s, has_seal ct G nd s -> attr ct w "seal" s) by (intros s H; inversion S; subst; inversion H; subst; assumption).
  destruct (A _ _ _ N K) as [(s & ->)|(VW & o0 & u0 & u0' & CL0 & Cf)].
  - left. apply (fake_vouches ct P G D) in V. subst s. split; [reflexivity|]. intros s H. apply HS in H.
    unfold attr, FakeWitness in H. rewrite (peek_full _ _ _ _ _ (A_fwit ct P C)) in H. cbn in H. congruence.
  - right. destruct (closed_witness ct P G D nd w (node_object ct P G D _ _ _ O N) K) as [OF|OW].
    + exfalso. apply (fwit_class ct P C) in OF. destruct CL0 as (c0 & a0 & b0 & ->). cbn in OF. injection OF as E. apply (proj2 (gd_distinct _ _ _ D)). congruence.
    + rewrite GW in OW. pose proof (witness_vouches ct P G C D w _ OW GW GV V) as VH.
      apply (proj1 (btc_verify_exact ct P C _ OW)) in VW. destruct VW as (o & n & i & t & j & t' & x & -> & X & Ex & S').
      exists o, n, i, t, j, t', x. split; [reflexivity|]. split; [exact OW|].
      assert (CL : closing P (Witness P (Seal P o n) (TxInProof P i (TxProof P t)) (TxOutProof P j (TxProof P t'))) o t t') by (exists n, i, j; reflexivity).
      split; [destruct (witness_shape ct P C _ OW) as [(s & a & b & E & Os & _)|(dh & E & _)]; [|discriminate]; inversion E; subst; exact Os|].
      split; [intros s H; apply HS in H; unfold attr, Witness in H; rewrite (peek_full _ _ _ _ _ (A_bwit ct P C)) in H; cbn in H; congruence|].
      split; [destruct CL0 as (c0 & a0 & b0 & E0); inversion E0; subst; exact Cf|]. split; [exact X|]. split; [exact Ex|]. split; [exact K|]. split; [exact CL|].
      destruct (closing_wf _ _ _ _ OW CL) as (Wt & Wt'). apply (btc_verify_hash_exact ct P C _ _ OW) in VH.
      destruct VH as (L & s & a & j' & u & y & E & Y & Cm). inversion E; subst s a j' u.
      destruct (same_txid_binds _ _ Wt Wt' S') as [<-|Q]; [left; eauto|right; exact Q].
Qed.

Lemma unique_ledger confirmed m1 m2 k x1 x2 : no_double_spend confirmed -> (forall t, confirmed t -> commits_once t) ->
  object ct (g_base G) m1 -> object ct (g_base G) m2 -> all_verified ct P G m1 -> all_verified ct P G m2 -> placed G m1 -> placed G m2 ->
  all_on_chain ct P G confirmed m1 -> all_on_chain ct P G confirmed m2 ->
  (exists h, seal_id ct G m1 h /\ seal_id ct G m2 h) -> contains G m1 k x1 -> contains G m2 k x2 ->
  same ct (g_value G) x1 x2 \/ map_collision ct G m1 m2 \/
  (seal_collision ct G m1 m2 \/ digest_collision ct G m1 m2 \/ witness_collision P G m1 \/ witness_collision P G m2).
Proof.
  intros ND CO O1 O2 V1 V2 P1 P2 A1 A2 HR K1 K2. apply (unique_or ct P G C D W _ m1 m2 k x1 x2); auto.
  intros p1 p2 n1 n2 h w1 w2 d1 d2 N1 N2 (s1 & B1 & H1) (s2 & B2 & H2) S1 S2 F1 F2.
  destruct (closed_kind confirmed m1 p1 n1 w1 d1 O1 N1 A1 S1 F1) as [(E1 & Q1)|(o1 & c1 & i1 & t1 & j1 & t1' & y1 & E1 & OW1 & OS1 & Q1 & Cf1 & X1 & Ex1 & L1 & CL1 & Z1)];
  destruct (closed_kind confirmed m2 p2 n2 w2 d2 O2 N2 A2 S2 F2) as [(E2 & Q2)|(o2 & c2 & i2 & t2 & j2 & t2' & y2 & E2 & OW2 & OS2 & Q2 & Cf2 & X2 & Ex2 & L2 & CL2 & Z2)];
  pose proof (Q1 _ B1) as ->; pose proof (Q2 _ B2) as ->.
  - destruct (fake_binds ct P C _ _ _ W T (sha256_length _) (sha256_length _) H1 H2) as [E|K]; [left; exact E|].
    right; left. eexists p1, p2, n1, n2, _, _. eauto 8.
  - right; left. eexists p1, p2, n1, n2, _, _. do 4 (split; [eassumption|]). exact (other_class_seals _ _ _ _ H1 H2).
  - right; left. eexists p1, p2, n1, n2, _, _. do 4 (split; [eassumption|]). destruct (other_class_seals _ _ _ _ H2 H1) as (a & b & Ha & Hb & Nab & Eab).
    exists b, a. split; [exact Hb|]. split; [exact Ha|]. split; congruence.
  - destruct (same_seal _ _ _ _ _ OS1 OS2 H1 H2) as [<-|K]; [|right; left; eexists p1, p2, n1, n2, _, _; eauto 8].
    assert (t2 = t1) by (eapply ND; [exact Cf2|exact Cf1|exact X2|exact X1|congruence]). subst t2.
    destruct Z1 as [(z1 & Y1 & M1)|Q]; [|right; right; right; left; exists p1, n1, w1, o1, t1, t1'; auto].
    destruct Z2 as [(z2 & Y2 & M2)|Q]; [|right; right; right; right; exists p2, n2, w2, o1, t1, t2'; auto].
    pose proof (CO _ Cf1 _ _ _ _ _ _ Y1 Y2 (sha256_length _) (sha256_length _) M1 M2) as <-.
    destruct Y1 as (_ & Y1), Y2 as (_ & Y2). rewrite Y1 in Y2. injection Y2 as <-.
    destruct (commitment_binds _ _ _ (sha256_length _) (sha256_length _) M1 M2) as [E|Q]; [left; exact E|].
    right; right; left. exists p1, p2, n1, n2, w1, w2, d1, d2. auto 8.
Qed.
End Ledger.
