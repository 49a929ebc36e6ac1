(** Proofs for Fund_Spec.v. *)
From Verif Require Import Base PySlice Sha256 Ripemd160 Serialize_Model Serialize_Spec Serialize_Proofs Tx_Model Tx_Spec Tx_Proofs
  Script_Model Proof_Model Proof_Spec Proof_Proofs ProofHash_Proofs ProofView_Proofs ProofReplay_Proofs ProofMain_Proofs ProofArrive_Proofs
  Hex_Model Chain_Model Chain_Spec Chain_Proofs ChainPipe_Proofs Fund_Spec.
From Coq Require Import ZifyBool ZifyNat ZifyN.
Local Open Scope string_scope.
Local Open Scope list_scope.

Section Fund.
Context (ct : ctable) (P : chain) (C : is_chain ct P).

Lemma witness_for_any t f o n : wf_table ct -> wf_tx t -> (Z.of_nat (List.length (t_vin t)) <= 2 ^ 32)%Z ->
  object ct (p_bseal P) (Seal P o n) -> deserialize ct (p_bseal P) f = Ok (Seal P o n) -> (exists x, In x (t_vin t) /\ i_prevout x = o) ->
  exists w i x, witness_for ct P t (TxProof P t) f = Ok w /\ input t i x /\ i_prevout x = o /\
    object ct (p_bwit P) (Witness P (Seal P o n) (TxInProof P i (TxProof P t)) (TxOutProof P 0 (TxProof P t))) /\
    deserialize ct (p_bwit P) w = Ok (Witness P (Seal P o n) (TxInProof P i (TxProof P t)) (TxOutProof P 0 (TxProof P t))).
Proof.
  intros W Wt L Os D Hx. destruct (seal_wf ct P C o n Os) as (Wo & Ln). unfold witness_for. rewrite D. cbn [bind].
  destruct (find_input_ok ct P C o n Wo (t_vin t) 0 (proj1 Wt) Hx) as (i & x & -> & R & X & E). cbn [bind]. rewrite Z.sub_0_r in X.
  rewrite (txin_construct ct P C i (TxProof P t) eq_refl). destruct (_ && _)%Z eqn:Ri; [|lia]. cbn [bind].
  rewrite (txout_construct ct P C 0 (TxProof P t) eq_refl). cbn [andb Z.leb Z.compare]. destruct (0 <=? 2 ^ 32 - 1)%Z eqn:R0; [|lia]. cbn [bind].
  rewrite (construct_witness ct P C) by reflexivity. cbn [bind]. set (w := Witness P _ _ _).
  assert (O : object ct (p_bwit P) w).
  { apply (witness_object ct P C); [exact Os|apply (txin_object ct P C); [lia|]|apply (txout_object ct P C); [lia|]]; apply (tx_object ct P C), Wt. }
  destruct (witness_file_roundtrip ct P C w W O) as (enc & Ee & De). rewrite Ee. exists enc, i, x. split; [reflexivity|]. split; [split; [lia|exact X]|]. auto.
Qed.

Lemma verify_of_witness t i x j o n : wf_tx t -> input t i x -> i_prevout x = o ->
  object ct (p_bwit P) (Witness P (Seal P o n) (TxInProof P i (TxProof P t)) (TxOutProof P j (TxProof P t))) ->
  outcome ct btc_verify (Witness P (Seal P o n) (TxInProof P i (TxProof P t)) (TxOutProof P j (TxProof P t))) = Ok tt.
Proof.
  intros Wt X E O. apply (proj1 (btc_verify_exact ct P C _ O)). exists o, n, i, t, j, t, x. split; [reflexivity|]. split; [exact X|]. split; [exact E|].
  destruct (tx_GetHash_wf t Wt) as (h & Eh). exists h. auto.
Qed.

(** mkwitness of a transaction that spends the seals; the first output decides. *)
Lemma mkwitness_any t raw files ons : wf_table ct -> variant_table ct -> wf_tx t -> (Z.of_nat (List.length (t_vin t)) <= 2 ^ 32)%Z -> tx_ser t = Ok raw ->
  seal_files ct P files ons -> incl (map fst ons) (map i_prevout (t_vin t)) ->
  exists ws, cmd_mkwitness ct P raw files = Ok ws /\ List.length ws = List.length files /\
    Forall (fun w => cmd_verifywitness ct P w None = Ok tt) ws /\
    forall w, In w ws -> forall digest, cmd_verifywitness ct P w (Some digest) = Ok tt <->
      List.length digest = 32 /\ exists y, output t 0 y /\ commitment digest (o_scriptPubKey y).
Proof.
  intros W V Wt L E F Hos. unfold cmd_mkwitness. destruct (tx_file t Wt) as (enc' & E' & D). rewrite E in E'. injection E' as <-. rewrite D. cbn [bind].
  rewrite (construct_tx ct P C). cbn [bind]. induction F as [|f on files ons Df F IH].
  { exists []. split; [reflexivity|]. split; [reflexivity|]. split; [constructor|]. intros w []. }
  destruct IH as (ws & Ews & Lws & Fws & Hws); [intros o' H; apply Hos; right; exact H|].
  pose proof (deserialize_fits ct _ _ _ W V (proj1 (proj2 (d_bseal ct P C))) Df) as Os.
  assert (Hx : exists x, In x (t_vin t) /\ i_prevout x = fst on).
  { specialize (Hos (fst on) (or_introl eq_refl)). apply in_map_iff in Hos. destruct Hos as (x & Ex & Hx). eauto. }
  destruct (witness_for_any t f (fst on) (snd on) W Wt L Os Df Hx) as (w & i & x & A & I1 & I2 & O & Dw).
  pose proof (verify_of_witness t i x 0 (fst on) (snd on) Wt I1 I2 O) as Vw.
  cbn [witnesses_for]. rewrite A. cbn [bind]. rewrite Ews. cbn [bind]. exists (w :: ws). split; [reflexivity|]. split; [cbn; congruence|].
  split. { constructor; [|exact Fws]. apply (verifywitness_ok ct P _ _ None O Dw Vw). exact Logic.I. }
  intros w' [<-|Hw]; [|exact (Hws w' Hw)]. intros digest. rewrite (verifywitness_exact ct P C w (Some digest) W V). rewrite Dw. split.
  - intros (w' & Ew & _ & Hh). injection Ew as <-. apply (btc_verify_hash_exact ct P C _ digest O) in Hh. destruct Hh as (Ld & s & a & j & t0 & y & Ew & Y & K).
    inversion Ew; subst. split; [exact Ld|]. exists y. auto.
  - intros (Ld & y & Y & K). eexists. split; [reflexivity|]. split; [exact Vw|]. apply (btc_verify_hash_exact ct P C _ digest O). split; [exact Ld|]. do 5 eexists. split; [reflexivity|]. split; [exact Y|exact K].
Qed.

(** What mkclosetx prints. *)
Lemma printed_shape digest files ons meth t : wf_table ct -> variant_table ct -> seal_files ct P files ons -> List.length digest = 32 -> method meth ->
  (Z.of_nat (List.length files) < 2 ^ 64)%Z -> printed ct P digest files meth t ->
  wf_tx t /\ map i_prevout (t_vin t) = map fst ons /\ exists x, t_vout t = [x] /\ commitment digest (o_scriptPubKey x).
Proof.
  intros W V F L M N (raw & E & D). destruct (seal_files_objects ct P C files ons W V F) as (Oo & Sf).
  assert (Lf : List.length files = List.length ons) by (clear - F; induction F; cbn; congruence).
  destruct (collect_ok ct P C W files ons [] F Oo (Forall_nil _)) as ([A|A] & _); unfold cmd_mkclosetx in E; rewrite A in E; cbn [bind] in E; [|discriminate]. cbn [app] in E.
  assert (Wo : Forall (fun on => wf_outpoint (fst on)) ons).
  { rewrite Forall_forall in *. intros on Hon. apply (seal_wf ct P C (fst on) (snd on)), Oo, Hon. }
  destruct (template_ok ct P C digest ons meth 600 L M ltac:(lia) Wo ltac:(lia)) as (t0 & x & Et & Wt & Ei & Eo & _ & K). rewrite Et in E. cbn [bind] in E.
  destruct (tx_file t0 Wt) as (raw0 & Er & Dr). rewrite Er in E. cbn [bind] in E.
  assert (raw0 = raw) as <-. { pose proof (x_b2x raw0) as X. pose proof (x_b2x raw) as Y. assert (Eb : b2x raw0 = b2x raw) by congruence. rewrite Eb, Y in X. congruence. }
  rewrite Dr in D. injection D as <-. split; [exact Wt|]. split; [rewrite Ei, map_map; reflexivity|]. exists x. auto.
Qed.

Lemma seal_files_length files ons : seal_files ct P files ons -> List.length files = List.length ons.
Proof. intros F. induction F; cbn; congruence. Qed.

(** Everything but the first output may change. *)
Lemma funded_first digest files ons meth t t' raw : wf_table ct -> variant_table ct -> seal_files ct P files ons -> List.length digest = 32 -> method meth ->
  (Z.of_nat (List.length files) < 2 ^ 64)%Z -> printed ct P digest files meth t -> funded t t' -> tx_ser t' = Ok raw ->
  hd_error (t_vout t') = hd_error (t_vout t) -> witnessed ct P raw files digest.
Proof.
  intros W V F L M N Pr (Wt & L1 & L2 & I1 & I2) E H. destruct (printed_shape _ _ _ _ _ W V F L M N Pr) as (_ & Ei & x & Eo & K). rewrite Ei in I1.
  destruct (mkwitness_any t' raw files ons W V Wt L1 E F I1) as (ws & Ew & Lw & _ & Hw). exists ws. split; [exact Ew|]. split; [exact Lw|].
  apply Forall_forall. intros w Hin. apply (Hw w Hin digest). split; [exact L|]. exists x. split; [|exact K]. split; [lia|]. rewrite Eo in H. destruct (t_vout t'); [discriminate|]. cbn in H. cbn. congruence.
Qed.

(** Exactly which funded transactions are witnessed. *)
Lemma funded_exact digest files ons meth t t' raw : wf_table ct -> variant_table ct -> seal_files ct P files ons -> files <> [] -> List.length digest = 32 -> method meth ->
  (Z.of_nat (List.length files) < 2 ^ 64)%Z -> printed ct P digest files meth t -> funded t t' -> tx_ser t' = Ok raw ->
  (exists ws, cmd_mkwitness ct P raw files = Ok ws /\ List.length ws = List.length files /\ Forall (fun w => cmd_verifywitness ct P w None = Ok tt) ws) /\
  (witnessed ct P raw files digest <-> exists y, output t' 0 y /\ commitment digest (o_scriptPubKey y)).
Proof.
  intros W V F Ne L M N Pr (Wt & L1 & L2 & I1 & I2) E. destruct (printed_shape _ _ _ _ _ W V F L M N Pr) as (_ & Ei & x & Eo & K). rewrite Ei in I1.
  destruct (mkwitness_any t' raw files ons W V Wt L1 E F I1) as (ws & Ew & Lw & Vw & Hw). split; [eauto|]. split.
  - intros (ws' & Ew' & _ & Fw). rewrite Ew in Ew'. injection Ew' as <-. destruct ws as [|w ws]; [destruct files; [congruence|discriminate Lw]|].
    inversion Fw as [|? ? H _]; subst. apply (Hw w (or_introl eq_refl) digest) in H. apply H.
  - intros Y. exists ws. split; [exact Ew|]. split; [exact Lw|]. apply Forall_forall. intros w Hin. apply (Hw w Hin digest). auto.
Qed.

(** The library has a witness for every funded transaction. *)
Lemma funded_library digest files ons meth t t' : wf_table ct -> variant_table ct -> seal_files ct P files ons -> List.length digest = 32 -> method meth ->
  (Z.of_nat (List.length files) < 2 ^ 64)%Z -> printed ct P digest files meth t -> funded t t' ->
  exists j, forall o n, In (o, n) ons -> exists i w f, w = Witness P (Seal P o n) (TxInProof P i (TxProof P t')) (TxOutProof P j (TxProof P t')) /\
    ser_proof ct w = Ok f /\ deserialize ct (p_bwit P) f = Ok w /\ cmd_verifywitness ct P f (Some digest) = Ok tt.
Proof.
  intros W V F L M N Pr (Wt & L1 & L2 & I1 & I2). destruct (printed_shape _ _ _ _ _ W V F L M N Pr) as (_ & Ei & x & Eo & K). rewrite Ei in I1.
  destruct (seal_files_objects ct P C files ons W V F) as (Oo & _). rewrite Forall_forall in Oo.
  assert (Hx : In x (t_vout t')) by (apply I2; rewrite Eo; left; reflexivity). apply In_nth_error in Hx. destruct Hx as (j & Hj).
  exists (Z.of_nat j). intros o n Hon. specialize (Oo _ Hon). cbn [fst snd] in Oo.
  assert (Ho : In o (map i_prevout (t_vin t'))) by (apply I1, in_map_iff; exists (o, n); auto). apply in_map_iff in Ho. destruct Ho as (y & Ey & Hy).
  apply In_nth_error in Hy. destruct Hy as (i & Hi). exists (Z.of_nat i). pose proof (nth_error_Some_bound _ _ _ Hi) as Bi. pose proof (nth_error_Some_bound _ _ _ Hj) as Bj.
  assert (O : object ct (p_bwit P) (Witness P (Seal P o n) (TxInProof P (Z.of_nat i) (TxProof P t')) (TxOutProof P (Z.of_nat j) (TxProof P t')))).
  { apply (witness_object ct P C); [exact Oo|apply (txin_object ct P C); [lia|]|apply (txout_object ct P C); [lia|]]; apply (tx_object ct P C), Wt. }
  destruct (witness_file_roundtrip ct P C _ W O) as (f & Ef & Df). eexists _, f. split; [reflexivity|]. split; [exact Ef|]. split; [exact Df|].
  assert (Hi' : input t' (Z.of_nat i) y) by (split; [lia|]; rewrite Nat2Z.id; exact Hi).
  apply (verifywitness_ok ct P _ _ (Some digest) O Df (verify_of_witness t' _ y _ o n Wt Hi' Ey O)).
  apply (btc_verify_hash_exact ct P C _ digest O). split; [exact L|]. do 4 eexists. exists x. split; [reflexivity|]. split; [|exact K]. split; [lia|]. rewrite Nat2Z.id. exact Hj.
Qed.
End Fund.
