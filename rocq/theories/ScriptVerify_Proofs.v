(** VerifyScript and VerifySignature mean what ScriptVerify_Spec says. *)
From Verif Require Import Base Sha256 Sha1 Ripemd160 Tx_Model Tx_Spec Tx_Proofs Script_Model Script_Spec Script_Proofs Base58_Spec Base58_Proofs
  SigHash_Model SigHash_Spec SigHash_Proofs ScriptEval_Model ScriptEval_Spec ScriptEval_Proofs ScriptEffect_Proofs ScriptSig_Proofs ScriptRun_Proofs
  ScriptVerify_Spec.
From Coq Require Import ZifyBool ZifyNat ZifyN.

(** ** Limits *)

Definition size (m : mach) : Z := (Z.of_nat (List.length (main m)) + Z.of_nat (List.length (side m)))%Z.

Lemma steps_size ecdsa t i rest o m m' : steps ecdsa t i rest o m m' -> (size m' <= Z.max 1000 (size m + 1))%Z.
Proof. intros S. destruct S; unfold size, room in *; cbn [main side List.length] in *; lia. Qed.

Lemma runs_size ecdsa t i ops m m' : runs ecdsa t i ops m m' -> (size m' <= Z.max 1000 (size m) + Z.of_nat (List.length ops))%Z.
Proof. induction 1 as [|o rest m m1 m2 S R IH]; cbn [List.length]; [lia|]. apply steps_size in S. lia. Qed.

Lemma runs_small ecdsa t i B ops m m' : (520 <= B < 2 ^ 32)%N -> runs ecdsa t i ops m m' -> (Z.of_nat (List.length ops) <= 10000)%Z ->
  fits B (List.length ops) m -> small_mach B m'.
Proof.
  intros HB R. induction R as [|o rest m m1 m2 S R IH]; intros L F; cbn [List.length] in *; [exact (proj1 F)|].
  apply IH; [lia|]. eapply fits_step; [exact HB|lia|exact S|exact F].
Qed.

Lemma evaluates_small ecdsa t i B st s st' : (520 <= B < 2 ^ 32)%N -> evaluates ecdsa t i st s st' -> small_els B st -> (Z.of_nat (List.length st) < 2 ^ 31)%Z ->
  small_els B st' /\ (Z.of_nat (List.length st') <= Z.max 1000 (Z.of_nat (List.length st)) + 10000)%Z.
Proof.
  intros HB (L & ops & si & co & n & [F E] & R) FB LS.
  assert (LO : (Z.of_nat (List.length ops) <= 10000)%Z) by (pose proof (text_ge ops F); rewrite <- E in H; unfold blen in L; lia).
  split.
  - eapply runs_small in R; [apply R|exact HB|exact LO|]. split; [split; [exact FB|constructor]|]. cbn [main side List.length]. lia.
  - apply runs_size in R. unfold size in R. cbn [main side List.length] in R. lia.
Qed.

Lemma runs_app ecdsa t i a b m m' : runs ecdsa t i (a ++ b) m m' -> exists m1, runs ecdsa t i b m1 m'.
Proof.
  revert m. induction a as [|o a IH]; intros m H; [eauto|]. inversion H; subst. eauto.
Qed.

Lemma evaluates_last ecdsa t i st s st' ops o : evaluates ecdsa t i st s st' -> reads_as s (ops ++ [o]) -> op_data o = None ->
  (Z.of_nat (List.length st') <= 1000)%Z.
Proof.
  intros (_ & ops' & si & co & n & RA & R) RA' N. assert (ops' = ops ++ [o]) as -> by (eapply reads_unique; eassumption).
  apply runs_app in R. destruct R as [m1 R]. inversion R as [|? ? ? ? ? S R1]; subst. inversion R1; subst.
  inversion S; subst; try discriminate; unfold room in *; cbn [main side] in *; lia.
Qed.

(** ** The number of operations *)

Definition costs (o : operation) : Z := if (0x60 <? op_code o)%N then 1 else 0.
Definition total_cost (ops : list operation) : Z := fold_right (fun o n => costs o + n)%Z 0%Z ops.

Lemma counts_cost op m m' : counts op m m' -> spent m' = (spent m + if (0x60 <? op)%N then 1 else 0)%Z /\ ((spent m <= 201)%Z -> (spent m' <= 201)%Z).
Proof. unfold counts. destruct (96 <? op)%N; [intros [L ->]|intros ->]; cbn [spent]; lia. Qed.

Lemma acts_cost ecdsa t i rest op m m' : acts ecdsa t i rest op m m' -> (spent m <= spent m')%Z /\ ((spent m <= 201)%Z -> (spent m' <= 201)%Z).
Proof. intros A. destruct A; cbn [spent]; lia. Qed.

Lemma steps_cost ecdsa t i rest o m m' : spelled o -> steps ecdsa t i rest o m m' -> (spent m + costs o <= spent m')%Z /\ ((spent m <= 201)%Z -> (spent m' <= 201)%Z).
Proof.
  intros SP S. destruct S; unfold costs; cbn [op_code spent].
  1, 2: pose proof (push_code _ _ SP eq_refl) as P; cbn [op_code] in P; destruct (96 <? op)%N eqn:E; lia.
  - apply counts_cost in H0. apply acts_cost in H2. lia.
  - apply counts_cost in H0. lia.
Qed.

Lemma runs_cost ecdsa t i ops m m' : runs ecdsa t i ops m m' -> Forall spelled ops -> (spent m + total_cost ops <= spent m')%Z /\ ((spent m <= 201)%Z -> (spent m' <= 201)%Z).
Proof.
  induction 1 as [|o rest m m1 m2 S R IH]; intros F; unfold total_cost in *; cbn [fold_right]; [lia|]. inversion F; subst.
  apply steps_cost in S; [|assumption]. destruct IH; [assumption|]. lia.
Qed.

Lemma evaluates_cost ecdsa t i st s st' ops : evaluates ecdsa t i st s st' -> reads_as s ops -> (total_cost ops <= 201)%Z.
Proof.
  intros (_ & ops' & si & co & n & RA & R) RA'. assert (ops' = ops) as -> by (eapply reads_unique; eassumption).
  apply runs_cost in R; [|apply RA]. cbn [spent] in R. lia.
Qed.

(** ** VerifyScript *)

Lemma small0 B : small_els B [].
Proof. constructor. Qed.

Lemma pushes_only_iff s : is_push_only s = true <-> pushes_only s.
Proof.
  unfold is_push_only, pushes_only. destruct (raw_iter s) as [l e] eqn:R. split.
  - intros H. apply andb_prop in H as [H1 H2]. destruct e; [discriminate|].
    assert (X : snd (raw_iter s) = None) by (rewrite R; reflexivity). apply reads_exists in X. destruct X as [ops RA]. exists ops. split; [exact RA|].
    destruct RA as [F E]. change (raw_iter s) with (raw_from 0 s) in R. rewrite E, raw_items in R by exact F.
    assert (l = items_of 0 ops) as -> by congruence. clear -H1. revert H1. generalize 0. induction ops as [|o ops IH]; intros k H; [constructor|].
    cbn [items_of forallb fst] in H. apply andb_prop in H as [H1 H2]. constructor; [lia|]. eapply IH, H2.
  - intros (ops & RA & FP). assert (X : snd (raw_iter s) = None) by (apply reads_exists; eauto). rewrite R in X. cbn [snd] in X. subst e. rewrite andb_true_r.
    destruct RA as [F E]. change (raw_iter s) with (raw_from 0 s) in R. rewrite E, raw_items in R by exact F.
    assert (l = items_of 0 ops) as -> by congruence. clear -FP. generalize 0. induction FP as [|o ops P FP IH]; intros k; [reflexivity|].
    cbn [items_of forallb fst]. rewrite IH. destruct (op_code o <=? 96)%N eqn:E; [reflexivity|lia].
Qed.

Lemma accepting_iff st : (match st with [] => Err VerifyScriptError | v :: _ => if CastToBool v then Ok tt else Err VerifyScriptError end) = Ok tt <-> accepting st.
Proof.
  unfold accepting. destruct st as [|v st]; [split; [discriminate|intros (a & r & E & _); discriminate]|]. destruct (CastToBool v) eqn:C.
  - split; [|reflexivity]. intros _. exists v, st. split; [reflexivity|]. apply CastToBool_iff, C.
  - split; [discriminate|]. intros (a & r & E & T). injection E as -> ->. apply CastToBool_iff in T. congruence.
Qed.

Lemma accept_cases st : (match st with [] => Err VerifyScriptError | v :: _ => if CastToBool v then Ok tt else Err VerifyScriptError end) = Ok tt \/
  (match st with [] => Err VerifyScriptError | v :: _ => if CastToBool v then Ok tt else Err VerifyScriptError end) = Err VerifyScriptError.
Proof. destruct st as [|v st]; [auto|]. destruct (CastToBool v); auto. Qed.

Section Verify.
Context (ecdsa : bytes -> bytes -> bytes -> bool) (t : tx) (i : nat) (W : wf_tx t) (I : i < List.length (t_vin t)).

Lemma Eval0 s st : EvalScript ecdsa [] s t (Z.of_nat i) = Ok st <-> evaluates ecdsa t i [] s st.
Proof. apply (EvalScript_iff _ _ _ 520); [exact W|exact I|lia|constructor|cbn [List.length]; lia]. Qed.

Lemma Eval1 s0 st0 s st : evaluates ecdsa t i [] s0 st0 -> EvalScript ecdsa st0 s t (Z.of_nat i) = Ok st <-> evaluates ecdsa t i st0 s st.
Proof.
  intros E. apply (evaluates_small _ _ _ 520) in E; [|lia|constructor|cbn [List.length]; lia]. destruct E as [F L]. cbn [List.length] in L.
  apply (EvalScript_iff _ _ _ 520); [exact W|exact I|lia|exact F|lia].
Qed.

Lemma Eval2 s0 x st0 s st : evaluates ecdsa t i [] s0 (x :: st0) -> EvalScript ecdsa st0 s t (Z.of_nat i) = Ok st <-> evaluates ecdsa t i st0 s st.
Proof.
  intros E. apply (evaluates_small _ _ _ 520) in E; [|lia|constructor|cbn [List.length]; lia]. destruct E as [F L]. cbn [List.length] in L.
  apply (EvalScript_iff _ _ _ 520); [exact W|exact I|lia|inversion F; assumption|lia].
Qed.

Lemma evaluates_fun0 s a b : evaluates ecdsa t i [] s a -> evaluates ecdsa t i [] s b -> a = b.
Proof. intros A B. apply Eval0 in A, B. congruence. Qed.

Lemma flag_in flags : existsb (flag_eqb EvalP2SH) flags = true <-> In EvalP2SH flags.
Proof.
  rewrite existsb_exists. split; [intros (x & J & E); destruct x; try discriminate; exact J|]. intros J. exists EvalP2SH. split; [exact J|reflexivity].
Qed.

Lemma VerifyScript_iff ss sc flags : VerifyScript ecdsa ss sc t (Z.of_nat i) flags = Ok tt <->
  unlocks ecdsa t i ss sc /\ (In EvalP2SH flags -> redeems ecdsa t i ss sc).
Proof.
  unfold VerifyScript. destruct (EvalScript ecdsa [] ss t (Z.of_nat i)) as [st1|e1] eqn:E1; cbn [bind].
  2:{ split; [discriminate|]. intros [(st1 & st2 & A & _) _]. apply Eval0 in A. congruence. }
  apply Eval0 in E1. destruct (EvalScript ecdsa st1 sc t (Z.of_nat i)) as [st2|e2] eqn:E2; cbn [bind].
  2:{ split; [discriminate|]. intros [(st1' & st2 & A & B & _) _]. rewrite (evaluates_fun0 _ _ _ A E1) in B. apply (Eval1 _ _ _ _ E1) in B. congruence. }
  apply (Eval1 _ _ _ _ E1) in E2.
  assert (U : unlocks ecdsa t i ss sc <-> accepting st2).
  { split; [|intros A; exists st1, st2; auto]. intros (st1' & st2' & A & B & C). rewrite (evaluates_fun0 _ _ _ A E1) in B.
    apply (Eval1 _ _ _ _ E1) in B, E2. assert (st2' = st2) as <- by congruence. exact C. }
  rewrite U, <- accepting_iff. destruct (accept_cases st2) as [A|A]; rewrite A; cbn [bind].
  2:{ split; [discriminate|]. intros [H _]. discriminate. }
  destruct (existsb (flag_eqb EvalP2SH) flags) eqn:EF; cbn [andb].
  2:{ split; [|reflexivity]. intros _. split; [reflexivity|]. intros J. apply flag_in in J. congruence. }
  apply flag_in in EF. destruct (is_p2sh sc) eqn:EP.
  2:{ split; [|reflexivity]. intros _. split; [reflexivity|]. intros _ h L ->. exfalso.
      assert (X : is_p2sh (p2sh_script h) = true) by (apply is_p2sh_iff; eauto). congruence. }
  apply is_p2sh_iff in EP. destruct EP as (h & -> & L).
  destruct (is_push_only ss) eqn:PO; cbn [bind].
  2:{ split; [discriminate|]. intros [_ H]. specialize (H EF h L eq_refl) as [H _]. apply pushes_only_iff in H. congruence. }
  destruct st1 as [|inner rest]; cbn [bind].
  { split; [discriminate|]. intros [_ H]. specialize (H EF h L eq_refl) as [_ (inner & rest & st & X & _)]. pose proof (evaluates_fun0 _ _ _ X E1). discriminate. }
  destruct (EvalScript ecdsa rest inner t (Z.of_nat i)) as [st3|e3] eqn:E3; cbn [bind].
  - apply (Eval2 _ _ _ _ _ E1) in E3. rewrite accepting_iff. split.
    + intros A3. split; [reflexivity|]. intros _ h' L' _. split; [apply pushes_only_iff, PO|]. exists inner, rest, st3. auto.
    + intros [_ H]. specialize (H EF h L eq_refl) as [_ (inner' & rest' & st & X & Y & Z)]. pose proof (evaluates_fun0 _ _ _ X E1) as Q. injection Q as -> ->.
      apply (Eval2 _ _ _ _ _ E1) in Y, E3. assert (st = st3) as <- by congruence. exact Z.
  - split; [discriminate|]. intros [_ H]. specialize (H EF h L eq_refl) as [_ (inner' & rest' & st & X & Y & Z)]. pose proof (evaluates_fun0 _ _ _ X E1) as Q. injection Q as -> ->.
    apply (Eval2 _ _ _ _ _ E1) in Y. congruence.
Qed.
End Verify.

Lemma VerifySignature_iff ecdsa txFrom t i : wf_tx t -> VerifySignature ecdsa txFrom t (Z.of_nat i) = Ok tt <->
  exists ss sc, names_output t i txFrom ss sc /\ unlocks ecdsa t i ss sc.
Proof.
  intros W. unfold VerifySignature. destruct (Z.of_nat i <? 0)%Z eqn:E0; [lia|]. cbn [bind].
  destruct (Z.of_nat (List.length (t_vin t)) <=? Z.of_nat i)%Z eqn:E1; cbn [bind].
  { split; [discriminate|]. intros (ss & sc & (inp & out & id & N & _) & _). assert (nth_error (t_vin t) i <> None) by congruence. apply nth_error_Some in H. lia. }
  assert (I : i < List.length (t_vin t)) by lia. rewrite Nat2Z.id.
  destruct (nth_error (t_vin t) i) as [inp|] eqn:N; [|apply nth_error_None in N; lia]. cbn [bind].
  destruct (o_n (i_prevout inp) <? 0)%Z eqn:E2; cbn [bind].
  { split; [discriminate|]. intros (ss & sc & (inp' & out & id & N' & _ & _ & _ & P & _) & _). rewrite N in N'. injection N' as <-. lia. }
  destruct (Z.of_nat (List.length (t_vout txFrom)) <=? o_n (i_prevout inp))%Z eqn:E3; cbn [bind].
  { split; [discriminate|]. intros (ss & sc & (inp' & out & id & N' & _ & _ & _ & P & NO & _) & _). rewrite N in N'. injection N' as <-.
    assert (nth_error (t_vout txFrom) (Z.to_nat (o_n (i_prevout inp))) <> None) by congruence. apply nth_error_Some in H. lia. }
  destruct (nth_error (t_vout txFrom) (Z.to_nat (o_n (i_prevout inp)))) as [out|] eqn:NO; [|apply nth_error_None in NO; lia]. cbn [bind].
  destruct (tx_GetHash txFrom) as [id|e] eqn:H; cbn [bind].
  2:{ split; [discriminate|]. intros (ss & sc & (inp' & out' & id & _ & _ & G & _) & _). congruence. }
  destruct (bytes_eqb (o_hash (i_prevout inp)) id) eqn:EH; cbn [negb bind].
  - apply bytes_eqb_eq in EH. rewrite (VerifyScript_iff ecdsa t i W I). split.
    + intros [U _]. exists (i_scriptSig inp), (o_scriptPubKey out). split; [|exact U]. exists inp, out, id. repeat split; auto. lia.
    + intros (ss & sc & (inp' & out' & id' & N' & <- & _ & _ & _ & NO' & <-) & U). rewrite N in N'. injection N' as <-. rewrite NO in NO'. injection NO' as <-.
      split; [exact U|]. intros J. destruct J.
  - split; [discriminate|]. intros (ss & sc & (inp' & out' & id' & N' & _ & G & EQ & _) & _). rewrite N in N'. injection N' as <-. apply bytes_eqb_neq in EH. congruence.
Qed.
