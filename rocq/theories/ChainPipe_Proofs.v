(** Proofs about Chain_Model.v: digests of a seal, fake seals and the sus-tool commands. *)
From Verif Require Import Base PySlice Sha256 Ripemd160 Serialize_Model Serialize_Spec Serialize_Proofs Tx_Model Tx_Spec Tx_Proofs
  Script_Model Proof_Model Proof_Spec Proof_Proofs ProofHash_Proofs ProofView_Proofs ProofReplay_Proofs ProofMain_Proofs ProofArrive_Proofs MerbinnerHash_Proofs
  Hex_Model Chain_Model Chain_Spec Chain_Proofs.
From Coq Require DecimalZ DecimalPos DecimalString.
From Coq Require Import ZifyBool ZifyNat ZifyN.
Ltac Zify.zify_post_hook ::= Z.div_mod_to_equations.
Local Open Scope string_scope.
Local Open Scope list_scope.

(** ** Hex *)

Lemma hexdigit_back n : (n < 16)%N -> hex_digit (hexdigit n) = Some n.
Proof.
  intros H. assert (E : forallb (fun k => match hex_digit (hexdigit (N.of_nat k)) with Some m => (m =? N.of_nat k)%N | None => false end) (seq 0 16) = true) by (vm_compute; reflexivity).
  rewrite forallb_forall in E. specialize (E (N.to_nat n)). rewrite N2Nat.id in E. specialize (E ltac:(apply in_seq; lia)).
  destruct (hex_digit _); [|discriminate]. f_equal. lia.
Qed.

Lemma nibbles b : Nb (bN b / 16 * 16 + bN b mod 16) = b.
Proof. rewrite <- (Nb_bN b) at 3. f_equal. lia. Qed.

Lemma x_b2x b : x_hex (b2x b) = Ok b.
Proof.
  unfold b2x. induction b as [|y b IH]; [reflexivity|]. cbn [to_hex x_hex]. pose proof (bN_lt y).
  rewrite !hexdigit_back by lia. rewrite IH. cbn [bind]. rewrite nibbles. reflexivity.
Qed.
Lemma lx_b2lx b : lx (b2lx b) = Ok b.
Proof. unfold lx, b2lx. fold (b2x (rev b)). rewrite x_b2x. cbn [bind]. rewrite rev_involutive. reflexivity. Qed.

Lemma NoDup_app_intro' {A} (l : list A) x : NoDup l -> ~ In x l -> NoDup (l ++ [x]).
Proof.
  intros N H. apply (NoDup_Add (Add_app x l [])). rewrite app_nil_r. auto.
Qed.

Section Chain.
Context (ct : ctable) (P : chain) (C : is_chain ct P).

(** ** C40 *)

Lemma one_digest o n1 n2 i1 i2 t1 t2 j1 j2 t1' t2' h1 h2 :
  let w1 := Witness P (Seal P o n1) (TxInProof P i1 (TxProof P t1)) (TxOutProof P j1 (TxProof P t1')) in
  let w2 := Witness P (Seal P o n2) (TxInProof P i2 (TxProof P t2)) (TxOutProof P j2 (TxProof P t2')) in
  object ct (p_bwit P) w1 -> object ct (p_bwit P) w2 -> outcome ct btc_verify w1 = Ok tt -> outcome ct btc_verify w2 = Ok tt ->
  same_txid t1 t2 -> outcome ct (btc_verify_hash h1) w1 = Ok tt -> outcome ct (btc_verify_hash h2) w2 = Ok tt ->
  j1 = j2 \/ List.length (t_vout t1) = 1 ->
  h1 = h2 \/ collision Hash160 h1 h2 \/ tx_collision t1 t2 \/ tx_collision t1 t1' \/ tx_collision t2 t2'.
Proof.
  intros w1 w2 O1 O2 V1 V2 S H1 H2 J.
  apply (proj1 (btc_verify_exact ct P C _ O1)) in V1. apply (proj1 (btc_verify_exact ct P C _ O2)) in V2.
  destruct V1 as (o' & n' & i' & t' & j' & u' & x' & E & _ & _ & S1). inversion E; subst o' n' i' t' j' u'. clear E.
  destruct V2 as (o' & n' & i' & t' & j' & u' & y' & E & _ & _ & S2). inversion E; subst o' n' i' t' j' u'. clear E.
  apply (btc_verify_hash_exact ct P C _ _ O1) in H1. apply (btc_verify_hash_exact ct P C _ _ O2) in H2.
  destruct H1 as (L1 & s & a & j & t & x & E & (R1 & X) & K1). inversion E; subst s a j t. clear E.
  destruct H2 as (L2 & s & a & j & t & y & E & (R2 & Y) & K2). inversion E; subst s a j t. clear E.
  assert (Wt : forall w t' u' k i j, object ct (p_bwit P) w -> w = Witness P (Seal P o k) (TxInProof P i (TxProof P t')) (TxOutProof P j (TxProof P u')) -> wf_tx t' /\ wf_tx u').
  { clear - C. intros w t' u' k i j O ->. destruct (witness_shape ct P C _ O) as [(s & a & b & E & _ & Oa & Ob)|(dh & E & _)]; [|discriminate]. inversion E; subst.
    destruct (txin_shape ct P C _ Oa) as [(? & p & E2 & _ & Op)|(? & E2 & _)]; [|discriminate]. inversion E2; subst.
    destruct (txout_shape ct P C _ Ob) as [(? & q & E3 & _ & Oq)|(? & E3 & _)]; [|discriminate]. inversion E3; subst.
    destruct (tx_shape ct P C _ Op) as [(? & E4 & W1)|(? & E4 & _)]; [|discriminate]. destruct (tx_shape ct P C _ Oq) as [(? & E5 & W2)|(? & E5 & _)]; [|discriminate].
    inversion E4; inversion E5; subst. auto. }
  destruct (Wt _ _ _ _ _ _ O1 eq_refl) as (W1 & W1'). destruct (Wt _ _ _ _ _ _ O2 eq_refl) as (W2 & W2').
  destruct (same_txid_binds _ _ W1 W2 S) as [<-|K]; [|tauto]. destruct (same_txid_binds _ _ W1 W1' S1) as [<-|K]; [|tauto].
  destruct (same_txid_binds _ _ W1 W2' S2) as [<-|K]; [|tauto].
  assert (j1 = j2) as <-. { destruct J as [J|J]; [exact J|]. apply nth_error_Some_bound in X, Y. lia. }
  rewrite X in Y. inversion Y; subst y. destruct (commitment_binds h1 h2 _ L1 L2 K1 K2); tauto.
Qed.

(** ** C41 *)

Lemma fake_verify_exact w h : object ct (p_fwit P) w ->
  (outcome ct (fake_verify_hash h) w = Ok tt <-> w = FakeWitness P (FakeSeal P h)).
Proof.
  intros O. rewrite (outcome_eval ct any_bits _ _ _ O). unfold fake_verify_hash, value_at. cbn [eval].
  destruct (fwit_shape ct P C _ O) as [(s & -> & Os)|(dh & -> & _)].
  - destruct (fseal_shape ct P C _ Os) as [(k & -> & L)|(dh & -> & _)].
    + cbn [look]. unfold FakeWitness. rewrite (peek_full ct _ _ _ _ (A_fwit ct P C)). cbn. unfold FakeSeal. rewrite (peek_full ct _ _ _ _ (A_fseal ct P C)).
      cbn. unfold assert. destruct (bytes_eqb k h) eqn:E.
      * apply bytes_eqb_eq in E. subst. split; reflexivity.
      * apply bytes_eqb_neq in E. split; [discriminate|]. intros X. inversion X. contradiction.
    + cbn [look]. unfold FakeWitness. rewrite (peek_full ct _ _ _ _ (A_fwit ct P C)). cbn. rewrite (peek_hash ct _ _ _ _ (A_fseal ct P C)). cbn.
      split; discriminate.
  - cbn [look]. rewrite (peek_hash ct _ _ _ _ (A_fwit ct P C)). cbn. split; discriminate.
Qed.

Lemma fake_from_hash_exact h : fake_from_hash ct P h = if (blen h =? 32)%N then Ok (FakeWitness P (FakeSeal P h)) else Err SerializerValueError.
Proof.
  unfold fake_from_hash, construct. rewrite (A_fseal ct P C). cbn. destruct (blen h =? 32)%N; cbn; [|reflexivity].
  rewrite (A_fwit ct P C). cbn. destruct (d_fseal ct P C) as (_ & -> & _). reflexivity.
Qed.

Lemma fake_binds h1 h2 k : wf_table ct -> wf_tags ct -> List.length h1 = 32 -> List.length h2 = 32 ->
  phash ct (FakeSeal P h1) = Ok k -> phash ct (FakeSeal P h2) = Ok k -> h1 = h2 \/ hash_collision ct (FakeSeal P h1) (FakeSeal P h2).
Proof.
  intros W T L1 L2 H1 H2. pose proof (fseal_object ct P C h1 L1) as O1. pose proof (fseal_object ct P C h2 L2) as O2.
  destruct (same_class_binding ct (p_fseal P) (p_fseal P) (p_fseal P) _ _ k W T (fits_holds _ _ _ O1) (fits_holds _ _ _ O2) eq_refl eq_refl H1 H2) as [(_ & E)|K]; [left|right; exact K].
  assert (X : FakeSeal P h1 = FakeSeal P h2) by (apply E; repeat constructor). inversion X. reflexivity.
Qed.

(** ** Files: objects survive serialization *)

Lemma fits_declares Q c a h fs : declares ct c a h -> fits_all ct Q a fs -> fits ct Q (SerProof c) (PFull c fs).
Proof. intros (<- & K & _) F. apply F_full; [|exact F]. unfold declared. rewrite K. reflexivity. Qed.
Lemma fits_declares_hash Q c a h dh : declares ct c a h -> List.length dh = 32 -> fits ct Q (SerProof c) (PHash c dh).
Proof. intros (_ & K & _) F. apply F_hash; [|exact F]. unfold declared. rewrite K. reflexivity. Qed.

Lemma tx_any Q v : object ct (p_tx P) v -> fits ct Q (SerProof (p_tx P)) v.
Proof.
  intros O. destruct (tx_shape ct P C v O) as [(t & -> & W)|(dh & -> & L)]; [|eapply fits_declares_hash; [exact (d_tx ct P C)|exact L]].
  eapply fits_declares; [exact (d_tx ct P C)|]. repeat constructor; apply W.
Qed.
Lemma txin_any Q v : object ct (p_txin P) v -> fits ct Q (SerProof (p_txin P)) v.
Proof.
  intros O. destruct (txin_shape ct P C v O) as [(i & p & -> & R & Op)|(dh & -> & L)]; [|eapply fits_declares_hash; [exact (d_txin ct P C)|exact L]].
  eapply fits_declares; [exact (d_txin ct P C)|]. repeat constructor; cbn; try lia. apply tx_any, Op.
Qed.
Lemma txout_any Q v : object ct (p_txout P) v -> fits ct Q (SerProof (p_txout P)) v.
Proof.
  intros O. destruct (txout_shape ct P C v O) as [(i & p & -> & R & Op)|(dh & -> & L)]; [|eapply fits_declares_hash; [exact (d_txout ct P C)|exact L]].
  eapply fits_declares; [exact (d_txout ct P C)|]. repeat constructor; cbn; try lia. apply tx_any, Op.
Qed.
Lemma seal_any Q v : object ct (p_bseal P) v -> fits ct Q (SerProof (p_bseal P)) v.
Proof.
  intros O. destruct (seal_shape ct P C v O) as [(o & n & -> & R & L)|(dh & -> & L)]; [|eapply fits_declares_hash; [exact (d_bseal ct P C)|exact L]].
  eapply fits_declares; [exact (d_bseal ct P C)|]. repeat constructor; try apply R. exact L.
Qed.
Lemma witness_any Q v : object ct (p_bwit P) v -> fits ct Q (SerProof (p_bwit P)) v.
Proof.
  intros O. destruct (witness_shape ct P C v O) as [(s & i & o & -> & Os & Oi & Oo)|(dh & -> & L)]; [|eapply fits_declares_hash; [exact (d_bwit ct P C)|exact L]].
  eapply fits_declares; [exact (d_bwit ct P C)|]. repeat constructor; [apply seal_any|apply txin_any|apply txout_any]; assumption.
Qed.

Lemma file_roundtrip c v : wf_table ct -> fits ct any_bits (SerProof c) v -> fits ct bits_survive (SerProof c) v ->
  exists enc, ser_proof ct v = Ok enc /\ deserialize ct c enc = Ok v.
Proof.
  intros W F S. destruct (proof_roundtrip ct c v W F) as (enc & E & D & _). exists enc. split; [exact E|].
  unfold deserialize. specialize (D S []). rewrite app_nil_r in D. rewrite D. reflexivity.
Qed.

Lemma seal_file_roundtrip v : wf_table ct -> object ct (p_bseal P) v -> exists enc, ser_proof ct v = Ok enc /\ deserialize ct (p_bseal P) enc = Ok v.
Proof. intros W O. apply file_roundtrip; [exact W|exact O|apply seal_any, O]. Qed.
Lemma witness_file_roundtrip v : wf_table ct -> object ct (p_bwit P) v -> exists enc, ser_proof ct v = Ok enc /\ deserialize ct (p_bwit P) enc = Ok v.
Proof. intros W O. apply file_roundtrip; [exact W|exact O|apply witness_any, O]. Qed.

(** ** mkwitness and verifywitness *)

Lemma seal_outpoint_ok o n : seal_outpoint ct (Seal P o n) = Ok o.
Proof. unfold seal_outpoint, Seal. rewrite (peek_full ct _ _ _ _ (A_bseal ct P C)). reflexivity. Qed.

Lemma find_input_ok o n : wf_outpoint o -> forall vin k, Forall wf_txin vin -> (exists x, In x vin /\ i_prevout x = o) ->
  exists i x, find_input ct (Seal P o n) k vin = Ok (Some i) /\ (k <= i < k + Z.of_nat (List.length vin))%Z /\
    nth_error vin (Z.to_nat (i - k)) = Some x /\ i_prevout x = o.
Proof.
  intros Wo. induction vin as [|y vin IH]; intros k F (x & Hx & E); [destruct Hx|]. inversion F as [|? ? Fy Fv]; subst. cbn [find_input]. rewrite seal_outpoint_ok. cbn [bind].
  destruct (outpoint_eq_ok (i_prevout y) (i_prevout x) (proj1 Fy) Wo) as (r & -> & Hr). cbn [bind]. destruct r.
  - exists k, y. split; [reflexivity|]. split; [cbn [List.length]; lia|]. rewrite Z.sub_diag. split; [reflexivity|]. apply Hr. reflexivity.
  - assert (N : i_prevout y <> i_prevout x) by (intros X; apply Hr in X; discriminate). destruct Hx as [->|Hx]; [contradiction|].
    destruct (IH (k + 1)%Z Fv (ex_intro _ x (conj Hx eq_refl))) as (i & z & A & R & B & D). exists i, z. split; [exact A|]. cbn [List.length]. split; [lia|].
    split; [|exact D]. replace (Z.to_nat (i - k)) with (S (Z.to_nat (i - (k + 1)))) by lia. exact B.
Qed.
Lemma find_input_none o n : wf_outpoint o -> forall vin k, Forall wf_txin vin -> (forall x, In x vin -> i_prevout x <> o) ->
  find_input ct (Seal P o n) k vin = Ok None.
Proof.
  intros Wo. induction vin as [|y vin IH]; intros k F N; [reflexivity|]. inversion F as [|? ? Fy Fv]; subst. cbn [find_input]. rewrite seal_outpoint_ok. cbn [bind].
  destruct (outpoint_eq_ok (i_prevout y) o (proj1 Fy) Wo) as (r & -> & Hr). cbn [bind]. destruct r; [exfalso; apply (N y (or_introl eq_refl)), Hr; reflexivity|].
  apply IH; [exact Fv|]. intros x Hx. apply N. right. exact Hx.
Qed.

Lemma construct_tx t : construct ct (p_tx P) [("tx", VTx t)] = Ok (TxProof P t).
Proof. unfold construct. rewrite (A_tx ct P C). reflexivity. Qed.
Lemma construct_witness s a b : is_proof s = true -> is_proof a = true -> is_proof b = true ->
  construct ct (p_bwit P) [("seal", s); ("txinproof", a); ("txoutproof", b)] = Ok (Witness P s a b).
Proof.
  intros Hs Ha Hb. unfold construct. rewrite (A_bwit ct P C). cbn [construct_loop assoc String.eqb Ascii.eqb Bool.eqb andb bind check].
  destruct (d_bseal ct P C) as (_ & -> & _). destruct (d_txin ct P C) as (_ & -> & _). destruct (d_txout ct P C) as (_ & -> & _). rewrite Hs, Ha, Hb. reflexivity.
Qed.

Lemma verifywitness_ok w enc d : object ct (p_bwit P) w -> deserialize ct (p_bwit P) enc = Ok w -> outcome ct btc_verify w = Ok tt ->
  match d with Some h => outcome ct (btc_verify_hash h) w = Ok tt | None => True end -> cmd_verifywitness ct P enc d = Ok tt.
Proof.
  intros O D V H. unfold cmd_verifywitness. rewrite D. cbn [bind]. rewrite (outcome_eval ct any_bits _ _ _ O) in V. rewrite (run_eval ct any_bits btc_verify _ w O), V. cbn [bind].
  destruct d as [h|]; [exact H|reflexivity].
Qed.

Lemma verifywitness_exact enc d : wf_table ct -> variant_table ct ->
  (cmd_verifywitness ct P enc d = Ok tt <-> exists w, deserialize ct (p_bwit P) enc = Ok w /\ outcome ct btc_verify w = Ok tt /\
    match d with Some h => outcome ct (btc_verify_hash h) w = Ok tt | None => True end).
Proof.
  intros W V. split.
  - unfold cmd_verifywitness. destruct (deserialize ct (p_bwit P) enc) as [w|] eqn:D; cbn [bind]; [|discriminate]. intros H. exists w. split; [reflexivity|].
    pose proof (deserialize_fits ct _ _ _ W V (proj1 (proj2 (d_bwit ct P C))) D) as O. rewrite (outcome_eval ct any_bits _ _ _ O). rewrite (run_eval ct any_bits btc_verify _ w O) in H.
    destruct (eval ct btc_verify w) as [[]|]; cbn [bind] in H; [|discriminate]. split; [reflexivity|]. destruct d as [h|]; [exact H|exact Logic.I].
  - intros (w & D & A & B). eapply verifywitness_ok; eauto. exact (deserialize_fits ct _ _ _ W V (proj1 (proj2 (d_bwit ct P C))) D).
Qed.

Lemma seal_wf o n : object ct (p_bseal P) (Seal P o n) -> wf_outpoint o /\ List.length n = 16.
Proof.
  intros O. destruct (seal_shape ct P C _ O) as [(o' & n' & E & Wo & L)|(dh & E & _)]; [|discriminate E]. inversion E; subst. split; [exact Wo|unfold blen in L; lia].
Qed.

Lemma witness_for_ok t f o n y digest : wf_table ct -> wf_tx t -> (Z.of_nat (List.length (t_vin t)) <= 2 ^ 32)%Z ->
  object ct (p_bseal P) (Seal P o n) -> deserialize ct (p_bseal P) f = Ok (Seal P o n) -> (exists x, In x (t_vin t) /\ i_prevout x = o) ->
  output t 0 y -> commitment digest (o_scriptPubKey y) -> List.length digest = 32 ->
  exists w i x, witness_for ct P t (TxProof P t) f = Ok w /\ input t i x /\ i_prevout x = o /\
    deserialize ct (p_bwit P) w = Ok (Witness P (Seal P o n) (TxInProof P i (TxProof P t)) (TxOutProof P 0 (TxProof P t))) /\
    cmd_verifywitness ct P w (Some digest) = Ok tt.
Proof.
  intros W Wt L Os D Hx Y K Ld. destruct (seal_wf o n Os) as (Wo & Ln). unfold witness_for. rewrite D. cbn [bind].
  destruct (find_input_ok o n Wo (t_vin t) 0 (proj1 Wt) Hx) as (i & x & -> & R & X & E). cbn [bind]. rewrite Z.sub_0_r in X.
  rewrite (txin_construct ct P C i (TxProof P t) eq_refl). destruct (_ && _)%Z eqn:Ri; [|lia]. cbn [bind].
  rewrite (txout_construct ct P C 0 (TxProof P t) eq_refl). cbn [andb Z.leb Z.compare]. destruct (0 <=? 2 ^ 32 - 1)%Z eqn:R0; [|lia]. cbn [bind].
  rewrite construct_witness by reflexivity. cbn [bind]. set (w := Witness P _ _ _).
  assert (O : object ct (p_bwit P) w).
  { apply (witness_object ct P C); [exact Os|apply (txin_object ct P C); [lia|]|apply (txout_object ct P C); [lia|]]; apply (tx_object ct P C), Wt. }
  destruct (witness_file_roundtrip w W O) as (enc & Ee & De). rewrite Ee. exists enc, i, x. split; [reflexivity|]. split; [split; [lia|exact X]|]. split; [exact E|].
  split; [exact De|]. apply (verifywitness_ok w enc (Some digest) O De).
  - apply (proj1 (btc_verify_exact ct P C w O)). exists o, n, i, t, 0%Z, t, x. split; [reflexivity|]. split; [split; [lia|exact X]|]. split; [exact E|].
    destruct (tx_GetHash_wf t Wt) as (h & Eh). exists h. auto.
  - apply (btc_verify_hash_exact ct P C w digest O). split; [exact Ld|]. do 5 eexists. split; [reflexivity|]. split; [exact Y|exact K].
Qed.

Lemma tx_file t : wf_tx t -> exists enc, tx_ser t = Ok enc /\ bdeserialize tx_de false enc = Ok t.
Proof.
  intros W. destruct (tx_codec t W) as (enc & E & D). exists enc. split; [exact E|]. unfold bdeserialize. specialize (D []). rewrite app_nil_r in D. rewrite D. reflexivity.
Qed.

Lemma mkwitness_ok t enc files os y digest : wf_table ct -> variant_table ct -> wf_tx t -> (Z.of_nat (List.length (t_vin t)) <= 2 ^ 32)%Z -> tx_ser t = Ok enc ->
  Forall2 (seal_file ct P) files os -> (forall o, In o os -> exists x, In x (t_vin t) /\ i_prevout x = o) ->
  output t 0 y -> commitment digest (o_scriptPubKey y) -> List.length digest = 32 ->
  exists ws, cmd_mkwitness ct P enc files = Ok ws /\ Forall2 (witnesses ct P t digest) files ws.
Proof.
  intros W V Wt L E F Hos Y K Ld. unfold cmd_mkwitness. destruct (tx_file t Wt) as (enc' & E' & D). rewrite E in E'. injection E' as <-. rewrite D. cbn [bind].
  rewrite construct_tx. cbn [bind]. induction F as [|f o files os (n & Df) F IH]; [exists []; split; [reflexivity|constructor]|].
  destruct IH as (ws & Ews & Fws); [intros o' H; apply Hos; right; exact H|].
  pose proof (deserialize_fits ct _ _ _ W V (proj1 (proj2 (d_bseal ct P C))) Df) as Os.
  destruct (witness_for_ok t f o n y digest W Wt L Os Df (Hos o (or_introl eq_refl)) Y K Ld) as (w & i & x & A & I1 & I2 & Dw & Vw).
  cbn [witnesses_for]. rewrite A. cbn [bind]. rewrite Ews. cbn [bind]. exists (w :: ws). split; [reflexivity|]. constructor; [|exact Fws]. exists o, n, i, x. auto.
Qed.

Lemma mkwitness_unspent t enc files os : wf_table ct -> variant_table ct -> wf_tx t -> (Z.of_nat (List.length (t_vin t)) <= 2 ^ 32)%Z -> tx_ser t = Ok enc ->
  Forall2 (seal_file ct P) files os -> (exists o, In o os /\ forall x, In x (t_vin t) -> i_prevout x <> o) -> cmd_mkwitness ct P enc files = Err SystemExit.
Proof.
  intros W V Wt L E F Hos. unfold cmd_mkwitness. destruct (tx_file t Wt) as (enc' & E' & D). rewrite E in E'. injection E' as <-. rewrite D. cbn [bind].
  rewrite construct_tx. cbn [bind]. induction F as [|f o files os (n & Df) F IH]; [destruct Hos as (? & [] & _)|].
  pose proof (deserialize_fits ct _ _ _ W V (proj1 (proj2 (d_bseal ct P C))) Df) as Os. destruct (seal_wf o n Os) as (Wo & Ln).
  cbn [witnesses_for].
  destruct (Exists_dec (fun x => i_prevout x = o) (t_vin t)) as [Ex|Nx].
  { intros x. destruct (i_prevout x) as [h k], o as [h' k']. destruct (bytes_eq_dec h h') as [->|N]; [|right; congruence]. destruct (Z.eq_dec k k') as [->|N]; [left; reflexivity|right; congruence]. }
  - apply Exists_exists in Ex. unfold witness_for. rewrite Df. cbn [bind].
    destruct (find_input_ok o n Wo (t_vin t) 0 (proj1 Wt) Ex) as (i & x & -> & R & X & Ep). cbn [bind].
    rewrite (txin_construct ct P C i (TxProof P t) eq_refl). destruct (_ && _)%Z eqn:Ri; [|lia]. cbn [bind].
    rewrite (txout_construct ct P C 0 (TxProof P t) eq_refl). cbn [andb Z.leb Z.compare]. destruct (0 <=? 2 ^ 32 - 1)%Z eqn:R0; [|lia]. cbn [bind].
    rewrite construct_witness by reflexivity. cbn [bind]. set (w := Witness P _ _ _).
    assert (O : object ct (p_bwit P) w).
    { apply (witness_object ct P C); [exact Os|apply (txin_object ct P C); [lia|]|apply (txout_object ct P C); [lia|]]; apply (tx_object ct P C), Wt. }
    destruct (witness_file_roundtrip w W O) as (e & -> & _). cbn [bind]. rewrite IH; [reflexivity|].
    destruct Hos as (o' & [<-|Ho'] & N); [|eauto]. destruct Ex as (z & Hz & Ez). exfalso. exact (N z Hz Ez).
  - unfold witness_for. rewrite Df. cbn [bind]. rewrite (find_input_none o n Wo (t_vin t) 0 (proj1 Wt)); [reflexivity|].
    intros x Hx Ex. apply Nx. apply Exists_exists. eauto.
Qed.

(** ** mkclosetx *)

Lemma close_txout_ok digest meth dust : List.length digest = 32 -> method meth -> (- 2 ^ 63 <= dust < 2 ^ 63)%Z ->
  exists x, close_txout digest meth dust = Ok (Some x) /\ wf_txout x /\ commitment digest (o_scriptPubKey x) /\
    o_nValue x = (if String.eqb meth "op_return" then 0 else dust)%Z.
Proof.
  intros L M D. pose proof (Hash160_length digest) as L20. unfold close_txout, wf_txout, wf_script, commitment, blen.
  destruct M as [-> | [-> | ->]]; cbn [String.eqb Ascii.eqb Bool.eqb andb].
  - rewrite (script_op_return_bytes digest L). cbn [bind]. eexists. split; [reflexivity|]. cbn [o_nValue o_scriptPubKey]. split; [|split; [tauto|reflexivity]].
    split; [lia|]. rewrite app_length, L. vm_compute. discriminate.
  - rewrite (script_p2sh_bytes digest). cbn [bind]. eexists. split; [reflexivity|]. cbn [o_nValue o_scriptPubKey]. split; [|split; [tauto|reflexivity]].
    split; [lia|]. rewrite !app_length, L20. vm_compute. discriminate.
  - rewrite (script_p2pkh_bytes digest). cbn [bind]. eexists. split; [reflexivity|]. cbn [o_nValue o_scriptPubKey]. split; [|split; [tauto|reflexivity]].
    split; [lia|]. rewrite !app_length, L20. vm_compute. discriminate.
Qed.

Definition close_input (o : outpoint) : txin := mkTxIn o [] 0xffffffff.

Lemma close_txins_ok ons : close_txins ct (map (fun on => Seal P (fst on) (snd on)) ons) = Ok (map (fun on => close_input (fst on)) ons).
Proof.
  induction ons as [|[o n] ons IH]; [reflexivity|]. cbn [map close_txins fst snd]. rewrite seal_outpoint_ok. cbn [bind]. unfold txin_new. cbn [negb andb Z.leb Z.compare Pos.compare Pos.compare_cont].
  rewrite IH. reflexivity.
Qed.

Lemma template_ok digest ons meth dust : List.length digest = 32 -> method meth -> (- 2 ^ 63 <= dust < 2 ^ 63)%Z ->
  Forall (fun on => wf_outpoint (fst on)) ons -> (Z.of_nat (List.length ons) < 2 ^ 64)%Z ->
  exists t x, make_close_seal_tx_template ct digest (map (fun on => Seal P (fst on) (snd on)) ons) meth dust = Ok t /\ wf_tx t /\
    t_vin t = map (fun on => mkTxIn (fst on) [] 0xffffffff) ons /\ t_vout t = [x] /\ o_nValue x = (if String.eqb meth "op_return" then 0 else dust)%Z /\
    commitment digest (o_scriptPubKey x).
Proof.
  intros L M D F N. destruct (close_txout_ok digest meth dust L M D) as (x & E & Wx & K & Vx). unfold make_close_seal_tx_template. rewrite E. cbn [bind].
  rewrite close_txins_ok. cbn [bind]. unfold tx_new. cbn [negb andb Z.leb Z.compare]. eexists _, x. split; [reflexivity|]. cbn [t_vin t_vout]. split; [|auto].
  unfold wf_tx. cbn [t_vin t_vout t_nLockTime t_nVersion]. split; [|split; [|split; [|split; [|split]]]]; try lia.
  - rewrite Forall_forall in *. intros i Hi. apply in_map_iff in Hi. destruct Hi as (on & <- & Hon). specialize (F on Hon).
    unfold close_input, wf_txin, wf_script. cbn [i_prevout i_scriptSig i_nSequence]. split; [exact F|]. split; [vm_compute; discriminate|lia].
  - constructor; [exact Wx|constructor].
  - rewrite map_length. exact N.
  - cbn [List.length]. lia.
Qed.

Lemma seal_hash_ok s : wf_table ct -> object ct (p_bseal P) s -> exists h, phash ct s = Ok h.
Proof.
  intros W O. destruct (phash_holds ct W s (p_bseal P) (fits_holds _ _ _ O)) as [H|H]; [exact H|]. exfalso.
  destruct (seal_shape ct P C s O) as [(o & n & -> & Wo & L)|(dh & -> & L)].
  - unfold phash in H. unfold Seal in H. rewrite hashes_full in H. cbn [snd] in H. unfold tagged in H. destruct (d_bseal ct P C) as (Ea & _ & Et). rewrite Ea, Et in H. unfold tag in H.
    cbn [hash_fields ser_leaf to_py prim_ser] in H. destruct (outpoint_codec o Wo) as (e & Ee & _). rewrite Ee in H. cbn [ser_prefixed bind] in H. discriminate H.
  - unfold phash in H. cbn [hashes snd] in H. unfold tagged in H. destruct (d_bseal ct P C) as (_ & _ & Et). rewrite Et in H. unfold tag in H. discriminate H.
Qed.

Lemma seal_among_ok s seals : wf_table ct -> object ct (p_bseal P) s -> Forall (object ct (p_bseal P)) seals ->
  exists b, seal_among ct s seals = Ok b /\ (b = true <-> exists s', In s' seals /\ phash ct s = phash ct s').
Proof.
  intros W O F. destruct (seal_hash_ok s W O) as (h & Eh). induction F as [|s' seals Os' F IH].
  - exists false. split; [reflexivity|]. split; [discriminate|]. intros (? & [] & _).
  - cbn [seal_among]. destruct (seal_hash_ok s' W Os') as (h' & Eh'). destruct IH as (b & Eb & Hb). unfold proof_eq. rewrite Eh, Eh'. cbn [bind].
    destruct (bytes_eqb h h') eqn:E.
    + apply bytes_eqb_eq in E. subst h'. exists true. split; [reflexivity|]. split; [intros _|reflexivity]. exists s'. split; [left; reflexivity|congruence].
    + apply bytes_eqb_neq in E. exists b. split; [exact Eb|]. rewrite Hb. split.
      * intros (x & Hx & Ex). exists x. split; [right; exact Hx|congruence].
      * intros (x & [<-|Hx] & Ex); [exfalso; congruence|]. exists x. split; [exact Hx|congruence].
Qed.

Lemma collect_ok : wf_table ct -> forall files ons acc, Forall2 (fun f on => deserialize ct (p_bseal P) f = Ok (Seal P (fst on) (snd on))) files ons ->
  Forall (fun on => object ct (p_bseal P) (Seal P (fst on) (snd on))) ons -> Forall (object ct (p_bseal P)) acc ->
  let seals := acc ++ map (fun on => Seal P (fst on) (snd on)) ons in
  (collect_seals ct P files acc = Ok seals \/ collect_seals ct P files acc = Err SystemExit) /\
  (NoDup (map (phash ct) acc) -> (collect_seals ct P files acc = Ok seals <-> NoDup (map (phash ct) seals))).
Proof.
  intros W. induction files as [|f files IH]; intros ons acc F Oo Oa seals; inversion F as [|? on ? ons' Df F']; subst.
  - unfold seals. cbn [map]. rewrite app_nil_r. cbn [collect_seals]. split; [auto|]. intros N. split; [intros _; exact N|reflexivity].
  - inversion Oo as [|? ? O1 Oo']; subst. cbn [collect_seals]. rewrite Df. cbn [bind]. destruct (seal_hash_ok _ W O1) as (h & Eh). rewrite Eh. cbn [bind].
    destruct (seal_among_ok _ acc W O1 Oa) as (b & -> & Hb). cbn [bind]. destruct b.
    + split; [auto|]. intros N. split; [discriminate|]. intros N'. exfalso. destruct Hb as (Hb & _). destruct (Hb eq_refl) as (s' & Hs & Es).
      unfold seals in N'. cbn [map] in N'. rewrite map_app in N'. cbn [map] in N'. apply NoDup_remove_2 in N'. apply N'. apply in_or_app. left. rewrite Es. apply in_map, Hs.
    + rewrite seal_outpoint_ok. cbn [bind]. assert (Ns : ~ In (phash ct (Seal P (fst on) (snd on))) (map (phash ct) acc)).
      { intros X. apply in_map_iff in X. destruct X as (s' & Es & Hs). destruct Hb as (_ & Hb). discriminate Hb. exists s'. auto. }
      destruct (IH ons' (acc ++ [Seal P (fst on) (snd on)]) F' Oo' ltac:(apply Forall_app; auto)) as (A & B).
      assert (E : (acc ++ [Seal P (fst on) (snd on)]) ++ map (fun on => Seal P (fst on) (snd on)) ons' = seals) by (rewrite <- app_assoc; reflexivity).
      cbv zeta in A, B. rewrite E in A, B. split; [exact A|]. intros N. apply B. rewrite map_app. cbn [map].
      apply NoDup_app_intro'; assumption.
Qed.

(** The seals in some files. *)
Lemma seal_files_objects files ons : wf_table ct -> variant_table ct ->
  Forall2 (fun f on => deserialize ct (p_bseal P) f = Ok (Seal P (fst on) (snd on))) files ons ->
  Forall (fun on => object ct (p_bseal P) (Seal P (fst on) (snd on))) ons /\ Forall2 (seal_file ct P) files (map fst ons).
Proof.
  intros W V F. induction F as [|f on files ons D F (IH1 & IH2)]; [split; constructor|]. split; cbn [map]; constructor; auto.
  - exact (deserialize_fits ct _ _ _ W V (proj1 (proj2 (d_bseal ct P C))) D).
  - exists (snd on). exact D.
Qed.

Lemma result_dec : forall a b : result bytes, {a = b} + {a <> b}.
Proof. intros [a|e] [b|e']; try (right; discriminate); [destruct (bytes_eq_dec a b); [left|right]; congruence|]. assert ({e = e'} + {e <> e'}) as [E|E] by decide equality; [left|right]; congruence. Qed.

(** Not pairwise different hashes: the first pair. *)
Lemma dup_pair {A B} (f : A -> B) (l : list A) : (forall a b : B, {a = b} + {a <> b}) -> ~ NoDup (map f l) -> NoDup l ->
  exists a b, In a l /\ In b l /\ a <> b /\ f a = f b.
Proof.
  intros dec. induction l as [|a l IH]; intros N D; [exfalso; apply N; constructor|]. inversion D as [|? ? Na D']; subst. cbn [map] in N.
  destruct (in_dec dec (f a) (map f l)) as [H|H].
  - apply in_map_iff in H. destruct H as (b & E & Hb). exists a, b. split; [left; reflexivity|]. split; [right; exact Hb|]. split; [intros ->; contradiction|congruence].
  - destruct IH as (x & y & Hx & Hy & Nx & E); [|exact D'|exists x, y; cbn; auto]. intros X. apply N. constructor; assumption.
Qed.

Lemma closetx_ok digest files ons meth : wf_table ct -> variant_table ct -> wf_tags ct ->
  Forall2 (fun f on => deserialize ct (p_bseal P) f = Ok (Seal P (fst on) (snd on))) files ons ->
  List.length digest = 32 -> method meth -> (Z.of_nat (List.length files) <= 2 ^ 32)%Z -> NoDup ons ->
  (exists t raw ws, cmd_mkclosetx ct P digest files meth = Ok (b2x raw) /\ x_hex (b2x raw) = Ok raw /\ tx_ser t = Ok raw /\
     map i_prevout (t_vin t) = map fst ons /\ cmd_mkwitness ct P raw files = Ok ws /\ Forall2 (witnesses ct P t digest) files ws) \/
  (exists a b, In a ons /\ In b ons /\ a <> b /\ hash_collision ct (Seal P (fst a) (snd a)) (Seal P (fst b) (snd b))).
Proof.
  intros W V T F L M N D. destruct (seal_files_objects files ons W V F) as (Oo & Sf). assert (Lf : List.length files = List.length ons) by (clear - F; induction F; cbn; congruence).
  set (seals := map (fun on => Seal P (fst on) (snd on)) ons).
  destruct (ListDec.NoDup_dec result_dec (map (phash ct) seals)) as [Nd|Nd].
  - left. destruct (collect_ok W files ons [] F Oo (Forall_nil _)) as (_ & B). cbn [map app] in B. specialize (B (NoDup_nil _)). apply B in Nd. fold seals in Nd.
    assert (Wo : Forall (fun on => wf_outpoint (fst on)) ons).
    { rewrite Forall_forall in *. intros on Hon. apply (seal_wf (fst on) (snd on)), Oo, Hon. }
    destruct (template_ok digest ons meth 600 L M ltac:(lia) Wo ltac:(lia)) as (t & x & E & Wt & Ei & Eo & _ & K). fold seals in E.
    destruct (tx_file t Wt) as (raw & Er & _). exists t, raw.
    assert (Lt : (Z.of_nat (List.length (t_vin t)) <= 2 ^ 32)%Z) by (rewrite Ei, map_length; lia).
    destruct (mkwitness_ok t raw files (map fst ons) x digest W V Wt Lt Er Sf) as (ws & Ew & Fw).
    + intros o Ho. apply in_map_iff in Ho. destruct Ho as (on & <- & Hon). eexists. split; [rewrite Ei; apply in_map_iff; exists on; split; [reflexivity|exact Hon]|reflexivity].
    + split; [lia|]. rewrite Eo. reflexivity.
    + exact K.
    + exact L.
    + exists ws. unfold cmd_mkclosetx. rewrite Nd. cbn [bind]. rewrite E. cbn [bind]. rewrite Er. cbn [bind]. split; [reflexivity|]. split; [apply x_b2x|]. split; [reflexivity|].
      split; [|auto]. rewrite Ei, map_map. reflexivity.
  - right. destruct (dup_pair (phash ct) seals result_dec Nd) as (a & b & Ha & Hb & Nab & E).
    { unfold seals. apply FinFun.Injective_map_NoDup; [|exact D]. intros [o n] [o' n'] X. cbn in X. inversion X. reflexivity. }
    apply in_map_iff in Ha, Hb. destruct Ha as (x & <- & Hx), Hb as (y & <- & Hy). exists x, y. split; [exact Hx|]. split; [exact Hy|]. split; [congruence|].
    rewrite Forall_forall in Oo. pose proof (Oo x Hx) as Ox. pose proof (Oo y Hy) as Oy. destruct (seal_hash_ok _ W Ox) as (h & Eh). rewrite Eh in E. symmetry in E.
    destruct (same_class_binding ct (p_bseal P) (p_bseal P) (p_bseal P) _ _ h W T (fits_holds _ _ _ Ox) (fits_holds _ _ _ Oy) eq_refl eq_refl Eh E) as [(_ & K)|K]; [|exact K].
    exfalso. apply Nab, K; repeat constructor.
Qed.

Lemma closetx_duplicate digest files ons meth : wf_table ct -> variant_table ct ->
  Forall2 (fun f on => deserialize ct (p_bseal P) f = Ok (Seal P (fst on) (snd on))) files ons -> ~ NoDup ons ->
  cmd_mkclosetx ct P digest files meth = Err SystemExit.
Proof.
  intros W V F D. destruct (seal_files_objects files ons W V F) as (Oo & _).
  destruct (collect_ok W files ons [] F Oo (Forall_nil _)) as ([A|A] & B); cbn [map app] in *.
  - exfalso. apply (B (NoDup_nil _)) in A. apply D. rewrite map_map in A. eapply NoDup_map_inv, A.
  - unfold cmd_mkclosetx. rewrite A. reflexivity.
Qed.

(** ** The library's own template, any dust *)
Lemma template_witness digest (ons : list (outpoint * bytes)) meth dust : wf_table ct -> List.length digest = 32 -> method meth -> (- 2 ^ 63 <= dust < 2 ^ 63)%Z ->
  Forall (fun on => wf_outpoint (fst on) /\ List.length (snd on) = 16) ons -> (Z.of_nat (List.length ons) <= 2 ^ 32)%Z ->
  exists t, make_close_seal_tx_template ct digest (map (fun on => Seal P (fst on) (snd on)) ons) meth dust = Ok t /\ wf_tx t /\
    map i_prevout (t_vin t) = map fst ons /\ (exists x, t_vout t = [x] /\ o_nValue x = if String.eqb meth "op_return" then 0%Z else dust) /\
    forall k o n, nth_error ons k = Some (o, n) ->
      let w := Witness P (Seal P o n) (TxInProof P (Z.of_nat k) (TxProof P t)) (TxOutProof P 0 (TxProof P t)) in
      outcome ct btc_verify w = Ok tt /\ outcome ct (btc_verify_hash digest) w = Ok tt /\
      exists f, ser_proof ct w = Ok f /\ deserialize ct (p_bwit P) f = Ok w.
Proof.
  intros W L M D F N.
  assert (Fo : Forall (fun on => wf_outpoint (fst on)) ons) by (rewrite Forall_forall in *; intros on Hon; apply F, Hon).
  destruct (template_ok digest ons meth dust L M D Fo ltac:(lia)) as (t & x & E & Wt & Ei & Eo & Vx & K).
  exists t. split; [exact E|]. split; [exact Wt|]. split; [rewrite Ei, map_map; reflexivity|]. split; [exists x; auto|].
  intros k o n Hk w. pose proof (nth_error_In _ _ Hk) as Hin. rewrite Forall_forall in F. destruct (F _ Hin) as (Wo & Ln). cbn [fst snd] in *.
  assert (Rk : (0 <= Z.of_nat k < 2 ^ 32)%Z) by (apply nth_error_Some_bound in Hk; lia).
  assert (O : object ct (p_bwit P) w).
  { apply (witness_object ct P C); [apply (seal_object ct P C); assumption|apply (txin_object ct P C); [lia|]|apply (txout_object ct P C); [lia|]]; apply (tx_object ct P C), Wt. }
  split; [|split].
  - apply (proj1 (btc_verify_exact ct P C w O)). exists o, n, (Z.of_nat k), t, 0%Z, t, (mkTxIn o [] 0xffffffff). split; [reflexivity|].
    split; [split; [lia|]|]. { rewrite Ei, Nat2Z.id. rewrite nth_error_map, Hk. reflexivity. }
    split; [reflexivity|]. destruct (tx_GetHash_wf t Wt) as (h & Eh). exists h. auto.
  - apply (btc_verify_hash_exact ct P C w digest O). split; [exact L|]. do 4 eexists. exists x. split; [reflexivity|]. split; [|exact K]. split; [lia|]. rewrite Eo. reflexivity.
  - destruct (witness_file_roundtrip w W O) as (enc & Ee & De). eauto.
Qed.

(** ** mkseal *)

Lemma mkseal_fails o : cmd_mkseal ct P o = Err KeyError.
Proof. unfold cmd_mkseal, construct. rewrite (A_bseal ct P C). reflexivity. Qed.

Lemma seal_constructed o n : construct ct (p_bseal P) [("outpoint", VOut o); ("nonce", VPrim (PyBytes n))] =
  if (blen n =? 16)%N then Ok (Seal P o n) else Err SerializerValueError.
Proof.
  unfold construct. rewrite (A_bseal ct P C). cbn [construct_loop assoc String.eqb Ascii.eqb Bool.eqb andb bind check to_py prim_check].
  destruct (blen n =? 16)%N; reflexivity.
Qed.

Lemma sealinfo_ok f o n : wf_table ct -> object ct (p_bseal P) (Seal P o n) -> deserialize ct (p_bseal P) f = Ok (Seal P o n) ->
  exists h, phash ct (Seal P o n) = Ok h /\ cmd_sealinfo ct P f = Ok (b2x h, show_outpoint (b2lx (o_hash o)) (o_n o)).
Proof.
  intros W O D. destruct (seal_hash_ok _ W O) as (h & Eh). exists h. split; [exact Eh|]. unfold cmd_sealinfo. rewrite D. cbn [bind]. rewrite Eh. cbn [bind].
  rewrite seal_outpoint_ok. reflexivity.
Qed.

Lemma mkseal_with_nonce o n : wf_table ct -> wf_outpoint o -> List.length n = 16 ->
  exists s f h, construct ct (p_bseal P) [("outpoint", VOut o); ("nonce", VPrim (PyBytes n))] = Ok s /\ ser_proof ct s = Ok f /\ seal_file ct P f o /\
    phash ct s = Ok h /\ cmd_sealinfo ct P f = Ok (b2x h, show_outpoint (b2lx (o_hash o)) (o_n o)) /\
    forall digest meth, List.length digest = 32 -> method meth -> exists printed, cmd_mkclosetx ct P digest [f] meth = Ok printed.
Proof.
  intros W Wo L. rewrite seal_constructed. assert ((blen n =? 16)%N = true) as -> by (unfold blen; lia). pose proof (seal_object ct P C o n Wo L) as O.
  destruct (seal_file_roundtrip _ W O) as (f & Ef & Df). destruct (sealinfo_ok f o n W O Df) as (h & Eh & Si).
  exists (Seal P o n), f, h. split; [reflexivity|]. split; [exact Ef|]. split; [exists n; exact Df|]. split; [exact Eh|]. split; [exact Si|].
  intros digest meth Ld M. unfold cmd_mkclosetx. cbn [collect_seals]. rewrite Df. cbn [bind]. rewrite Eh. cbn [bind seal_among]. rewrite seal_outpoint_ok. cbn [bind app collect_seals].
  destruct (template_ok digest [(o, n)] meth 600 Ld M ltac:(lia) ltac:(repeat constructor; apply Wo) ltac:(cbn [List.length]; lia)) as (t & x & E & Wt & _). cbn [map fst snd] in E.
  rewrite E. cbn [bind]. destruct (tx_file t Wt) as (raw & -> & _). cbn [bind]. eauto.
Qed.

(** ** The texts of outpoints *)

Lemma witnessinfo_ok f o n i t b : wf_table ct -> object ct (p_bwit P) (Witness P (Seal P o n) (TxInProof P i (TxProof P t)) b) ->
  deserialize ct (p_bwit P) f = Ok (Witness P (Seal P o n) (TxInProof P i (TxProof P t)) b) ->
  forall r, cmd_witnessinfo ct P f = Ok r -> exists h id sh, r = (b2x h, b2lx id, b2x sh, show_outpoint (b2x (o_hash o)) (o_n o)) /\
    phash ct (Witness P (Seal P o n) (TxInProof P i (TxProof P t)) b) = Ok h /\ tx_GetHash t = Ok id /\ phash ct (Seal P o n) = Ok sh.
Proof.
  intros W O D r. unfold cmd_witnessinfo. rewrite D. cbn [bind]. destruct (phash ct (Witness _ _ _ _)) as [h|] eqn:Eh; cbn [bind]; [|discriminate].
  unfold Witness at 1. rewrite (peek_full ct _ _ _ _ (A_bwit ct P C)). cbn [attr_index String.eqb Ascii.eqb Bool.eqb andb option_map nth_error bind].
  unfold TxInProof at 1. rewrite (peek_full ct _ _ _ _ (A_txin ct P C)). cbn [attr_index String.eqb Ascii.eqb Bool.eqb andb option_map nth_error bind].
  rewrite (txhash_is_txid ct P C). destruct (tx_GetHash t) as [id|] eqn:Ei; cbn [bind]; [|discriminate].
  unfold Witness. rewrite (peek_full ct _ _ _ _ (A_bwit ct P C)). cbn [attr_index String.eqb Ascii.eqb Bool.eqb andb option_map nth_error bind].
  destruct (phash ct (Seal P o n)) as [sh|] eqn:Es; cbn [bind]; [|discriminate]. rewrite seal_outpoint_ok. cbn [bind]. intros E. inversion E; subst.
  exists h, id, sh. auto.
Qed.
End Chain.

(** ** Parsing what is printed *)

Lemma colons_app s s' : colons (String.append s s') = colons s + colons s'.
Proof. induction s as [|c s IH]; [reflexivity|]. cbn [String.append colons]. rewrite IH. lia. Qed.

Lemma split_colon_app s s' : colons s = 0 -> split_colon (String.append s (String ":" s')) = (s, s').
Proof.
  induction s as [|c s IH]; intros H; [reflexivity|]. cbn [String.append split_colon colons] in *. destruct (Ascii.eqb c ":"); [lia|]. rewrite IH by lia. reflexivity.
Qed.

Lemma hexdigit_colon n : (n < 16)%N -> Ascii.eqb (hexdigit n) ":" = false.
Proof.
  intros H. assert (E : forallb (fun k => negb (Ascii.eqb (hexdigit (N.of_nat k)) ":")) (seq 0 16) = true) by (vm_compute; reflexivity).
  rewrite forallb_forall in E. specialize (E (N.to_nat n)). rewrite N2Nat.id in E. specialize (E ltac:(apply in_seq; lia)). destruct (Ascii.eqb _ _); [discriminate|reflexivity].
Qed.
Lemma to_hex_colons b : colons (to_hex b) = 0.
Proof. induction b as [|y b IH]; [reflexivity|]. cbn [to_hex colons]. pose proof (bN_lt y). rewrite !hexdigit_colon by lia. rewrite IH. reflexivity. Qed.

Lemma digits_plain d : let s := DecimalString.NilEmpty.string_of_uint d in colons s = 0 /\ lstrip s = s /\
  (forall c s', s = String c s' -> Ascii.eqb c "-" = false /\ Ascii.eqb c "+" = false).
Proof.
  induction d; cbn [DecimalString.NilEmpty.string_of_uint]; cbv zeta in *; try destruct IHd as (A & B & D); (split; [|split]); try reflexivity;
    try (cbn [colons Ascii.eqb Bool.eqb andb]; exact A); intros c s' E; inversion E; subst; split; reflexivity.
Qed.

Lemma srev_app s : forall acc, srev s acc = String.append (srev s "") acc.
Proof.
  induction s as [|c s IH]; intros acc; [reflexivity|]. cbn [srev]. rewrite IH, (IH (String c "")). 
  assert (X : forall a b d, String.append (String.append a b) d = String.append a (String.append b d)) by (induction a; intros; cbn; congruence). rewrite X. reflexivity.
Qed.
Lemma srev_srev s : forall acc, srev (srev s acc) "" = srev acc s.
Proof. induction s as [|c s IH]; intros acc; [reflexivity|]. cbn [srev]. rewrite IH. reflexivity. Qed.

(** No character of [s] is a space. *)
Fixpoint no_space (s : string) : bool := match s with EmptyString => true | String c s' => negb (is_space c) && no_space s' end.
Lemma no_space_lstrip s : no_space s = true -> lstrip s = s.
Proof. destruct s as [|c s]; [reflexivity|]. cbn [no_space lstrip]. destruct (is_space c); [discriminate|reflexivity]. Qed.
Lemma no_space_srev s : forall acc, no_space (srev s acc) = no_space s && no_space acc.
Proof. induction s as [|c s IH]; intros acc; [reflexivity|]. cbn [srev no_space]. rewrite IH. cbn [no_space]. destruct (negb (is_space c)), (no_space s), (no_space acc); reflexivity. Qed.
Lemma no_space_strip s : no_space s = true -> strip s = s.
Proof.
  intros H. unfold strip. rewrite (no_space_lstrip s H). rewrite no_space_lstrip by (rewrite no_space_srev, H; reflexivity). rewrite srev_srev. reflexivity.
Qed.
Lemma digits_no_space d : no_space (DecimalString.NilEmpty.string_of_uint d) = true.
Proof. induction d; cbn [DecimalString.NilEmpty.string_of_uint no_space]; try reflexivity; rewrite IHd; reflexivity. Qed.

Lemma digit_step b acc c s : ((48 <=? N_of_ascii c) && (N_of_ascii c <=? 57))%N = true -> py_digits b acc (String c s) = py_digits false (10 * acc + (N_of_ascii c - 48)) s.
Proof. intros E. cbn [py_digits]. rewrite E. reflexivity. Qed.
Ltac digit_value := match goal with |- context [(N_of_ascii ?c - 48)%N] => let k := eval vm_compute in (N_of_ascii c - 48)%N in change (N_of_ascii c - 48)%N with k end.
Lemma digits_acc d : forall p, py_digits false (N.pos p) (DecimalString.NilEmpty.string_of_uint d) = Ok (N.pos (Pos.of_uint_acc d p)).
Proof.
  induction d; intros p; cbn [DecimalString.NilEmpty.string_of_uint Pos.of_uint_acc]; [reflexivity|..];
    (rewrite digit_step by reflexivity); digit_value; rewrite <- IHd; f_equal; lia.
Qed.
Lemma digits_read d b : d <> Decimal.Nil \/ b = false -> py_digits b 0 (DecimalString.NilEmpty.string_of_uint d) = Ok (N.of_uint d).
Proof.
  revert b. induction d; intros b H; cbn [DecimalString.NilEmpty.string_of_uint]; [destruct H as [H| ->]; [congruence|reflexivity]|..];
    (rewrite digit_step by reflexivity); digit_value.
  - apply (IHd false). right. reflexivity.
  - apply (digits_acc d 1).
  - apply (digits_acc d 2).
  - apply (digits_acc d 3).
  - apply (digits_acc d 4).
  - apply (digits_acc d 5).
  - apply (digits_acc d 6).
  - apply (digits_acc d 7).
  - apply (digits_acc d 8).
  - apply (digits_acc d 9).
Qed.
Lemma decimal_back z : (0 <= z)%Z -> colons (py_decimal z) = 0 /\ py_int (py_decimal z) = Ok z.
Proof.
  intros H. unfold py_decimal. destruct (Z.to_int z) as [d|d] eqn:E; [|exfalso; destruct z; [discriminate E|discriminate E|lia]].
  cbn [DecimalString.NilEmpty.string_of_int]. destruct (digits_plain d) as (A & _ & S). split; [exact A|]. unfold py_int. rewrite (no_space_strip _ (digits_no_space d)).
  destruct (DecimalString.NilEmpty.string_of_uint d) as [|c s] eqn:Es.
  - exfalso. assert (d = Decimal.Nil) as -> by (destruct d; [reflexivity|discriminate Es..]). destruct z as [|p|p]; cbn in E; try discriminate E.
    inversion E as [X]. pose proof (DecimalPos.Unsigned.of_to p) as Q. rewrite X in Q. discriminate Q.
  - destruct (S c s eq_refl) as (-> & ->). rewrite <- Es. rewrite digits_read by (left; intros ->; discriminate Es). cbn [bind].
    f_equal. rewrite <- (DecimalZ.of_to z), E. reflexivity.
Qed.

Lemma parse_shown o : wf_outpoint o -> parse_outpoint (show_outpoint (b2lx (o_hash o)) (o_n o)) = Ok o.
Proof.
  intros (L & R). unfold parse_outpoint, show_outpoint. destruct (decimal_back (o_n o) ltac:(lia)) as (Cd & Pd).
  rewrite colons_app. cbn [colons]. unfold b2lx at 1. rewrite to_hex_colons, Cd. cbn [Ascii.eqb Bool.eqb andb Nat.add Nat.eqb negb].
  rewrite split_colon_app by (unfold b2lx; apply to_hex_colons). rewrite lx_b2lx. cbn [bind]. rewrite Pd. cbn [bind]. unfold outpoint_new.
  assert ((blen (o_hash o) =? 32)%N = true) as -> by (unfold blen; lia). cbn [negb]. destruct (_ && _)%Z eqn:E; [|lia]. cbn [negb or_exit]. destruct o. reflexivity.
Qed.
Lemma parse_shown_reversed o : wf_outpoint o -> parse_outpoint (show_outpoint (b2x (o_hash o)) (o_n o)) = Ok (mkOutPoint (rev (o_hash o)) (o_n o)).
Proof.
  intros (L & R). assert (W : wf_outpoint (mkOutPoint (rev (o_hash o)) (o_n o))) by (split; cbn; [rewrite rev_length|]; assumption).
  pose proof (parse_shown _ W) as E. cbn [o_hash o_n] in E. unfold b2lx in E. rewrite rev_involutive in E. exact E.
Qed.

Lemma fromhex_back b : fromhex (b2x b) = Ok b.
Proof.
  unfold b2x. induction b as [|y b IH]; [reflexivity|]. cbn [to_hex fromhex]. pose proof (bN_lt y).
  assert (S : forall n, (n < 16)%N -> is_space (hexdigit n) = false).
  { intros n H'. assert (E : forallb (fun k => negb (is_space (hexdigit (N.of_nat k)))) (seq 0 16) = true) by (vm_compute; reflexivity).
    rewrite forallb_forall in E. specialize (E (N.to_nat n)). rewrite N2Nat.id in E. specialize (E ltac:(apply in_seq; lia)). destruct (is_space _); [discriminate|reflexivity]. }
  rewrite S by lia. rewrite !hexdigit_back by lia. rewrite IH. cbn [bind]. rewrite nibbles. reflexivity.
Qed.
Lemma parse_digest_exact s d : parse_digest s = Ok d <-> fromhex s = Ok d /\ List.length d = 32.
Proof.
  unfold parse_digest. destruct (fromhex s) as [b|e]; cbn [bind].
  - destruct (blen b =? 32)%N eqn:E; cbn [negb or_exit]; unfold blen in E; split; try discriminate.
    + intros H. inversion H; subst. split; [reflexivity|lia].
    + intros (H & _). exact H.
    + intros (H & L). inversion H; subst. lia.
  - split; [destruct e; discriminate|]. intros (H & _). discriminate H.
Qed.
