(** The script machine of ScriptEval_Model runs as ScriptEval_Spec says. *)
From Verif Require Import Base Sha256 Sha1 Ripemd160 Tx_Model Tx_Spec Tx_Proofs Script_Model Script_Spec Script_Proofs
  SigHash_Model SigHash_Spec SigHash_Proofs ScriptEval_Model ScriptEval_Spec ScriptEval_Proofs ScriptEffect_Proofs ScriptSig_Proofs.
From Coq Require Import ZifyBool ZifyNat ZifyN.

Lemma live_iff fl : CheckExec fl = true <-> live fl.
Proof. unfold CheckExec, live. rewrite forallb_forall. reflexivity. Qed.
Lemma live_false fl : CheckExec fl = false <-> ~ live fl.
Proof. rewrite <- live_iff. destruct (CheckExec fl); split; congruence. Qed.

Lemma forbidden_iff op : disabled_opcode op = true <-> forbidden op.
Proof.
  unfold disabled_opcode, forbidden. rewrite existsb_exists. split.
  - intros (x & I & E). apply N.eqb_eq in E. subst. exact I.
  - intros I. exists op. split; [exact I|apply N.eqb_refl].
Qed.

(** ** Sizes *)

Section Size.
Context (B : N) (HB : (520 <= B)%N).
Definition small_els (l : list bytes) : Prop := Forall (fun a => (blen a <= B)%N) l.

Lemma number_len z b : (Z.abs z < 2 ^ 40)%Z -> number z b -> (blen b <= B)%N.
Proof.
  intros H N. apply number_iff in N; [|apply small_log, H]. destruct (Z.eq_dec z 0) as [->|Z0].
  - assert (b = []) as -> by (cbn in N; congruence). unfold blen. cbn. lia.
  - pose proof (bn2vch_len z b N Z0) as L. assert (Z.log2 (Z.abs z) < 40)%Z by (apply Z.log2_lt_pow2; lia). unfold blen. lia.
Qed.

Lemma verdict_len P v : verdict P v -> (blen v <= B)%N.
Proof. intros [[_ ->]|[_ ->]]; unfold blen; cbn; lia. Qed.

Lemma hashing_len op h a : In (op, h) hashing -> (blen (h a) <= B)%N.
Proof.
  intros H. cbn [hashing In] in H.
  repeat (destruct H as [H|H]; [inversion H; subst; unfold blen; rewrite ?sha256_length, ?sha1_length, ?ripemd160_length; lia|]). contradiction.
Qed.

Lemma Forall_laid f names P : Forall P (laid_out f names) <-> forall c, In c (list_ascii_of_string names) -> P (f c).
Proof.
  unfold laid_out. rewrite Forall_forall. split.
  - intros H c I. apply H. rewrite <- in_rev. apply in_map, I.
  - intros H x I. rewrite <- in_rev in I. apply in_map_iff in I. destruct I as (c & <- & I). auto.
Qed.

Lemma shuffle_letters op before after c : In (op, (before, after)) shuffle -> In c (list_ascii_of_string after) -> In c (list_ascii_of_string before).
Proof.
  intros H. cbn [shuffle In] in H.
  repeat (destruct H as [H|H]; [injection H as <- <- <-; cbn [list_ascii_of_string In]; tauto|]). contradiction.
Qed.

Lemma effect_small op st st' : (Z.of_nat (List.length st) < 2 ^ 32)%Z -> (B < 2 ^ 32)%N -> effect op st st' -> small_els st -> small_els st'.
Proof.
  intros L HB2 E F. unfold small_els in *. destruct E;
    repeat match goal with H : Forall _ (_ :: _) |- _ => inversion H; subst; clear H end;
    repeat match goal with |- Forall _ (_ :: _) => constructor end; auto; try (eapply verdict_len; eassumption); try (eapply number_len; [|eassumption]).
  - unfold constant in H. destruct (_ =? _)%N; [inversion H; lia|]. destruct (_ && _) eqn:E; [inversion H; lia|discriminate].
  - eapply unary_range; [eassumption|]. eapply operand_bound; eauto.
  - eapply binary_range; [eassumption| |]; eapply operand_bound; eauto.
  - apply Forall_app in F. destruct F as [F1 F2]. apply Forall_app. split; [|exact F2]. rewrite Forall_laid in *. intros c I.
    apply F1. eapply shuffle_letters; eauto.
  - eapply hashing_len; eauto.
  - lia.
  - unfold blen in *. lia.
  - apply Forall_app in H3. destruct H3 as [_ H3]. inversion H3; assumption.
  - apply Forall_app in H3. destruct H3 as [_ H3]. inversion H3; assumption.
  - apply Forall_app in H3. destruct H3 as [H1 H3]. inversion H3; subst. apply Forall_app. auto.
Qed.

Section Acts.
Context (ecdsa : bytes -> bytes -> bytes -> bool) (t : tx) (i : nat).

Definition small_mach (m : mach) : Prop := small_els (main m) /\ small_els (side m).

Lemma multisig_small st sigs keys st' : multisig_args st sigs keys st' -> small_els st -> small_els sigs /\ small_els st'.
Proof.
  intros (n & k & e & -> & _) F. unfold small_els in *. inversion F; subst. apply Forall_app in H2. destruct H2 as [_ H2]. inversion H2; subst.
  apply Forall_app in H4. destruct H4 as [H4 H5]. inversion H5; auto.
Qed.

Lemma acts_small rest op m m' : (Z.of_nat (List.length (main m)) < 2 ^ 32)%Z -> (B < 2 ^ 32)%N -> acts ecdsa t i rest op m m' -> small_mach m -> small_mach m'.
Proof.
  intros L HB2 A [F1 F2]. unfold small_mach. destruct A; cbn [main side] in *.
  1:{ split; [eapply effect_small; eauto|exact F2]. }
  all: unfold small_els in *; repeat match goal with H : Forall _ (_ :: _) |- _ => inversion H; subst; clear H end.
  all: try match goal with A : multisig_args _ _ _ _ |- _ => apply multisig_small in A; [destruct A as [_ A]|assumption] end.
  all: split; try assumption; unfold small_els in *; repeat (constructor; [solve [assumption|eapply verdict_len; eassumption]|]); assumption.
Qed.

Lemma steps_small rest o m m' : (Z.of_nat (List.length (main m)) < 2 ^ 32)%Z -> (B < 2 ^ 32)%N -> steps ecdsa t i rest o m m' -> small_mach m -> small_mach m'.
Proof.
  intros L HB2 S F. destruct S.
  - destruct F. split; cbn [main side]; [constructor; [lia|assumption]|assumption].
  - exact F.
  - eapply acts_small in H2; [exact H2| |exact HB2|]; unfold counts in H0; destruct (96 <? op)%N; [destruct H0 as [_ ->]| |destruct H0 as [_ ->]|];
      subst; first [exact L|exact F].
  - unfold counts in H0. destruct (96 <? op)%N; [destruct H0 as [_ ->]; exact F|subst; exact F].
Qed.
End Acts.
End Size.

(** ** Both machines side by side *)

Section Machine.
Context (ecdsa : bytes -> bytes -> bytes -> bool) (t : tx) (i : nat) (W : wf_tx t) (I : i < List.length (t_vin t)).
Context (s : bytes) (HS : (blen s <= 10000)%N).

Definition abs (m : vm) (co : list operation) : mach := Mach (v_stack m) (v_alt m) (v_exec m) co (v_ops m).
(** The code that signatures cover is the script from [v_begin] on. *)
Definition tail (m : vm) (co : list operation) : Prop := Forall spelled co /\ exists co0, tail_of co0 co /\ skipn (v_begin m) s = text_of co0.

Lemma tail_wf m co : tail m co -> wf_script (text_of co).
Proof.
  intros (_ & co0 & T & E). unfold wf_script, blen, MAX_SIZE in *.
  assert (List.length (text_of co) <= List.length (text_of co0)) by (destruct T as [->| ->]; [apply le_n|unfold text_of; cbn [map concat]; rewrite app_length; lia]).
  rewrite <- E, skipn_length in H. lia.
Qed.

Lemma checksig_ok m co sig pk : tail m co -> (blen sig < 2 ^ 32)%N -> exists b,
  (do p <- cscript [IData sig]; do tmp <- FindAndDelete (skipn (v_begin m) s) p; CheckSig ecdsa sig pk tmp t (Z.of_nat i)) = Ok b /\
  (b = true <-> signed_by ecdsa t i (text_of (filter (keep [sig]) co)) pk sig) /\ signed_script [sig] co (text_of (filter (keep [sig]) co)).
Proof.
  intros T B. pose proof (tail_wf _ _ T) as Ws. destruct T as (F & co0 & T & E). rewrite E. rewrite cscript_enc by exact B. cbn [bind].
  assert (F0 : Forall spelled co0) by (destruct T as [->| ->]; [exact F|constructor; [apply sep_spelled|exact F]]).
  rewrite delete_one by assumption. cbn [bind].
  assert (FB : Forall (fun a => (blen a < 2 ^ 32)%N) [sig]) by (constructor; [exact B|constructor]).
  destruct (CheckSig_tail ecdsa t i W I (filter (keep [sig]) co0) (filter (keep [sig]) co) sig pk) as [C1 C2].
  - apply filter_spelled, F.
  - unfold wf_script, blen in *. pose proof (text_filter_len (keep [sig]) co). lia.
  - apply (tail_filter ecdsa t i I); assumption.
  - eexists. split; [exact C1|]. split; [exact C2|]. apply signed_script_iff; [exact FB|reflexivity].
Qed.

Lemma verdict_of (b : bool) P : (b = true <-> P) -> verdict P (of_bool b).
Proof. intros H. apply (verdict_bool b P); [exact H|reflexivity]. Qed.

Ltac drop3 H := match type of H with (if ?c then _ else _) = _ => destruct c eqn:?C end.

Lemma sigs_small st sigs keys st' : smalls st -> multisig_args st sigs keys st' -> Forall (fun a => (blen a < 2 ^ 32)%N) sigs.
Proof.
  intros [_ SM] (n & k & e & -> & _). inversion SM; subst. apply Forall_app in H2. destruct H2 as [_ H2]. inversion H2; subst.
  apply Forall_app in H4. tauto.
Qed.

Lemma exec_sound op pc rest m m' co :
  smalls (v_stack m) -> tail m co -> Forall spelled rest -> (op = 0xab%N -> skipn pc s = text_of (sep :: rest)) ->
  exec_op ecdsa s t (Z.of_nat i) (CheckExec (v_exec m)) op pc m = Ok m' ->
  exists co', acts ecdsa t i rest op (abs m co) (abs m' co') /\ tail m' co'.
Proof.
  intros SM T FR HP H. unfold exec_op in H. destruct (stack_op op (v_stack m)) as [r|] eqn:SO.
  { destruct r as [st|]; [|discriminate]. cbn [bind] in H. inversion H; subst m'. exists co. split; [|exact T].
    apply act_effect. apply stack_op_iff; assumption. }
  clear SO. drop3 H.
  { (* CHECKMULTISIG *)
    destruct (CheckMultiSig _ _ _ _ _ _ _) as [[st nn]|] eqn:CM; [|discriminate]. cbn [bind] in H. inversion H; subst m'. clear H.
    exists co. split; [|exact T]. destruct (CheckMultiSig_args _ _ _ I _ _ _ _ _ CM) as (sigs & keys & r & A).
    pose proof (tail_wf _ _ T) as Ws. destruct T as (F & co0 & TT & E). rewrite E in CM. unfold abs. cbn [v_stack v_alt v_exec v_ops].
    destruct m as [stk alt ex bg ops]. cbn [v_stack v_alt v_exec v_ops v_begin] in *.
    assert (FS : Forall (fun a => (blen a < 2 ^ 32)%N) sigs).
    { eapply sigs_small; [exact SM|exact A]. }
    pose proof A as A'. destruct A as (n & k & e & -> & N & K & L).
    rewrite (CheckMultiSig_shape ecdsa t i W I op co0 co n keys k sigs e r ops F Ws TT N K L FS) in CM. cbv zeta in CM.
    destruct (201 <? _)%Z eqn:E2; [discriminate|].
    assert (Ws2 : wf_script (text_of (filter (keep sigs) co))) by (unfold wf_script, blen in *; pose proof (text_filter_len (keep sigs) co); lia).
    pose proof (quorum_iff ecdsa t i W I (filter (keep sigs) co) sigs keys (filter_spelled _ _ F) Ws2) as Q.
    destruct (greedy _ _ _) eqn:G; cbn [negb andb] in CM.
    - destruct (op =? 174)%N eqn:EO.
      + assert (op = 0xae%N) as -> by lia. inversion CM; subst. eapply act_checkmultisig; [exact A'|lia|apply signed_script_iff; [exact FS|reflexivity]|].
        apply (verdict_of true). tauto.
      + assert (op = 0xaf%N) as -> by lia. inversion CM; subst. eapply act_checkmultisigverify; [exact A'|lia|apply signed_script_iff; [exact FS|reflexivity]|tauto].
    - destruct (op =? 175)%N eqn:EO; [discriminate|]. assert (op = 0xae%N) as -> by lia. cbn [N.eqb Pos.eqb] in CM. inversion CM; subst.
      eapply act_checkmultisig; [exact A'|lia|apply signed_script_iff; [exact FS|reflexivity]|]. apply (verdict_of false). tauto. }
  clear C. drop3 H.
  { destruct m as [stk alt ex bg ops]. cbn [v_stack v_alt v_exec v_ops v_begin] in *.
    destruct stk as [|pk [|sig st]]; try discriminate. cbn [check_args List.length Nat.ltb Nat.leb bind sget nth_error Nat.sub spop] in H.
    assert (BS : (blen sig < 2 ^ 32)%N) by (destruct SM as [_ SM]; inversion SM; subst; inversion H3; assumption).
    destruct (checksig_ok _ co sig pk T BS) as (b & E & Bb & SS). cbn [v_begin] in E. rewrite cscript_enc in * by exact BS. cbn [bind] in E, H.
    destruct (FindAndDelete (skipn bg s) (enc sig)) as [tmp|]; [|discriminate]. cbn [bind] in E, H. rewrite E in H. cbn [bind] in H.
    destruct (negb b && (op =? 173)%N) eqn:E1; [discriminate|]. inversion H; subst m'. clear H. exists co. split; [|exact T].
    unfold abs. cbn [v_stack v_alt v_exec v_ops]. destruct b.
    - destruct (op =? 173)%N eqn:E2.
      + assert (op = 0xad%N) as -> by lia. cbn [negb]. eapply act_checksigverify; [exact SS|apply Bb; reflexivity].
      + assert (op = 0xac%N) as -> by lia. cbn [negb]. eapply act_checksig; [exact SS|apply (verdict_of true), Bb].
    - cbn [negb andb] in E1. assert (op = 0xac%N) as -> by lia. eapply act_checksig; [exact SS|apply (verdict_of false), Bb]. }
  clear C. destruct m as [stk alt ex bg ops]. unfold abs in *. cbn [v_stack v_alt v_exec v_ops v_begin] in *. drop3 H.
  { apply N.eqb_eq in C. subst op. inversion H; subst m'. exists rest. cbn [v_stack v_alt v_exec v_ops]. split; [constructor|].
    split; [exact FR|]. exists (sep :: rest). split; [right; reflexivity|apply HP; reflexivity]. }
  clear C. exists co. assert (T' : forall stk' alt' ex' ops', tail (VM stk' alt' ex' bg ops') co) by (intros; exact T).
  drop3 H.
  { apply N.eqb_eq in C. subst op. destruct ex as [|b ex]; [discriminate|]. inversion H; subst m'. split; [constructor|apply T']. }
  clear C. drop3 H.
  { apply N.eqb_eq in C. subst op. destruct ex as [|b ex]; [discriminate|]. inversion H; subst m'. split; [constructor|apply T']. }
  clear C. drop3 H.
  { apply N.eqb_eq in C. subst op. destruct alt as [|b alt]; [discriminate|]. inversion H; subst m'. split; [constructor|apply T']. }
  clear C. drop3 H.
  { destruct (CheckExec ex) eqn:CE.
    - destruct stk as [|a st]; [discriminate|]. cbn [check_args List.length Nat.ltb Nat.leb bind spop] in H. inversion H; subst m'. split; [|apply T'].
      cbn [v_stack v_alt v_exec v_ops]. apply live_iff in CE. destruct (op =? 100)%N eqn:E.
      + assert (op = 0x64%N) as -> by lia. apply act_notif; [exact CE|]. rewrite <- CastToBool_false. destruct (CastToBool a); cbn [negb]; split; congruence.
      + assert (op = 0x63%N) as -> by lia. apply act_if; [exact CE|]. apply CastToBool_iff.
    - inversion H; subst m'. split; [|apply T']. apply act_if_dead; [lia|]. apply live_false, CE. }
  clear C. drop3 H; [|discriminate].
  apply N.eqb_eq in C. subst op. destruct stk as [|a st]; [discriminate|]. inversion H; subst m'. split; [constructor|apply T'].
Qed.

Lemma exec_complete op pc rest m M' co :
  smalls (v_stack m) -> tail m co -> Forall spelled rest -> (op = 0xab%N -> skipn pc s = text_of (sep :: rest)) ->
  acts ecdsa t i rest op (abs m co) M' ->
  exists m' co', exec_op ecdsa s t (Z.of_nat i) (CheckExec (v_exec m)) op pc m = Ok m' /\ M' = abs m' co' /\ tail m' co'.
Proof.
  intros SM T FR HP A. remember (abs m co) as M eqn:EM. destruct m as [stk alt ex bg ops]. unfold abs in EM. cbn [v_stack v_alt v_exec v_ops v_begin] in *.
  assert (T' : forall stk' alt' ex' ops', tail (VM stk' alt' ex' bg ops') co) by (intros; exact T).
  destruct A; injection EM as ? ? ? ? ?; subst; unfold exec_op; cbn [v_stack v_alt v_exec v_ops v_begin].
  - apply stack_op_iff in H; [|exact SM]. rewrite H. cbn [bind]. do 2 eexists. split; [reflexivity|]. split; [reflexivity|apply T'].
  - cbn -[Z.of_nat]. do 2 eexists. split; [reflexivity|]. split; [reflexivity|apply T'].
  - cbn -[Z.of_nat]. do 2 eexists. split; [reflexivity|]. split; [reflexivity|apply T'].
  - cbn -[Z.of_nat]. exists (VM stk alt ex pc ops), rest. split; [reflexivity|]. split; [reflexivity|].
    split; [exact FR|]. exists (sep :: rest). split; [right; reflexivity|apply HP; reflexivity].
  - assert (BS : (blen sig < 2 ^ 32)%N) by (destruct SM as [_ SM]; inversion SM; subst; inversion H4; assumption).
    destruct (checksig_ok _ co sig pk T BS) as (b & E & Bb & SS). cbn [v_begin] in E.
    assert (FS : Forall (fun a => (blen a < 2 ^ 32)%N) [sig]) by (constructor; [exact BS|constructor]).
    apply signed_script_iff in H; [|exact FS]. subst s0. apply (verdict_bool b) in H0; [|exact Bb]. subst v.
    change (stack_op 0xac (pk :: sig :: st)) with (@None (result (list bytes))). cbn [N.eqb Pos.eqb orb check_args List.length Nat.ltb Nat.leb bind sget nth_error Nat.sub spop].
    rewrite cscript_enc in * by exact BS. cbn [bind] in E |- *. destruct (FindAndDelete (skipn bg s) (enc sig)) as [tmp|]; [|discriminate]. cbn [bind] in E |- *. rewrite E.
    cbn [bind]. rewrite andb_false_r. do 2 eexists. split; [reflexivity|]. split; [|apply T']. destruct b; reflexivity.
  - assert (BS : (blen sig < 2 ^ 32)%N) by (destruct SM as [_ SM]; inversion SM; subst; inversion H4; assumption).
    destruct (checksig_ok _ co sig pk T BS) as (b & E & Bb & SS). cbn [v_begin] in E.
    assert (FS : Forall (fun a => (blen a < 2 ^ 32)%N) [sig]) by (constructor; [exact BS|constructor]).
    apply signed_script_iff in H; [|exact FS]. subst s0. apply Bb in H0. subst b.
    change (stack_op 0xad (pk :: sig :: st)) with (@None (result (list bytes))). cbn [N.eqb Pos.eqb orb check_args List.length Nat.ltb Nat.leb bind sget nth_error Nat.sub spop].
    rewrite cscript_enc in * by exact BS. cbn [bind] in E |- *. destruct (FindAndDelete (skipn bg s) (enc sig)) as [tmp|]; [|discriminate]. cbn [bind] in E |- *. rewrite E.
    cbn [bind negb andb]. do 2 eexists. split; [reflexivity|]. split; [|apply T']. reflexivity.
  - change (stack_op 0xae stk) with (@None (result (list bytes))). cbn [N.eqb Pos.eqb orb].
    assert (FS : Forall (fun a => (blen a < 2 ^ 32)%N) sigs).
    { eapply sigs_small; [exact SM|exact H]. }
    pose proof (tail_wf _ _ T) as Ws. destruct T as (F & co0 & TT & E). cbn [v_begin] in E. rewrite E. pose proof H as (nn & k & e & -> & N & K & L).
    rewrite (CheckMultiSig_shape ecdsa t i W I _ co0 co nn keys k sigs e st' ops F Ws TT N K L FS). cbv zeta.
    destruct (201 <? _)%Z eqn:E2; [lia|].
    assert (Ws2 : wf_script (text_of (filter (keep sigs) co))) by (unfold wf_script, blen in *; pose proof (text_filter_len (keep sigs) co); lia).
    pose proof (quorum_iff ecdsa t i W I (filter (keep sigs) co) sigs keys (filter_spelled _ _ F) Ws2) as Q.
    apply signed_script_iff in H1; [|exact FS]. subst s0. pose proof (verdict_bool _ _ v Q) as V. apply V in H2. subst v. clear V.
    destruct (greedy _ _ _) eqn:G; cbn [negb andb N.eqb Pos.eqb bind]; do 2 eexists; (split; [reflexivity|]); (split; [reflexivity|apply T']).
  - change (stack_op 0xaf stk) with (@None (result (list bytes))). cbn [N.eqb Pos.eqb orb].
    assert (FS : Forall (fun a => (blen a < 2 ^ 32)%N) sigs).
    { eapply sigs_small; [exact SM|exact H]. }
    pose proof (tail_wf _ _ T) as Ws. destruct T as (F & co0 & TT & E). cbn [v_begin] in E. rewrite E. pose proof H as (nn & k & e & -> & N & K & L).
    rewrite (CheckMultiSig_shape ecdsa t i W I _ co0 co nn keys k sigs e st' ops F Ws TT N K L FS). cbv zeta.
    destruct (201 <? _)%Z eqn:E2; [lia|].
    assert (Ws2 : wf_script (text_of (filter (keep sigs) co))) by (unfold wf_script, blen in *; pose proof (text_filter_len (keep sigs) co); lia).
    pose proof (quorum_iff ecdsa t i W I (filter (keep sigs) co) sigs keys (filter_spelled _ _ F) Ws2) as Q.
    apply signed_script_iff in H1; [|exact FS]. subst s0. apply Q in H2. rewrite H2.
    cbn [negb andb N.eqb Pos.eqb bind]. do 2 eexists. split; [reflexivity|]. split; [reflexivity|apply T'].
  - change (stack_op 0x63 (a :: st)) with (@None (result (list bytes))). apply live_iff in H. rewrite H. cbn [N.eqb Pos.eqb orb check_args List.length Nat.ltb Nat.leb bind spop].
    assert (b = CastToBool a) as -> by (apply eq_true_iff_eq; rewrite CastToBool_iff; exact H0).
    do 2 eexists. split; [reflexivity|]. split; [reflexivity|apply T'].
  - change (stack_op 0x64 (a :: st)) with (@None (result (list bytes))). apply live_iff in H. rewrite H. cbn [N.eqb Pos.eqb orb check_args List.length Nat.ltb Nat.leb bind spop].
    assert (b = negb (CastToBool a)) as -> by (apply eq_true_iff_eq; rewrite negb_true_iff, CastToBool_false; exact H0).
    do 2 eexists. split; [reflexivity|]. split; [reflexivity|apply T'].
  - assert (stack_op op stk = None) as -> by (destruct H as [->| ->]; reflexivity). apply live_false in H0. rewrite H0.
    destruct H as [->| ->]; cbn [N.eqb Pos.eqb orb]; do 2 eexists; (split; [reflexivity|]); (split; [reflexivity|apply T']).
  - cbn -[Z.of_nat]. do 2 eexists. split; [reflexivity|]. split; [reflexivity|apply T'].
  - cbn -[Z.of_nat]. do 2 eexists. split; [reflexivity|]. split; [reflexivity|apply T'].
Qed.

Definition item (o : operation) (pc : nat) := (op_code o, op_data o, pc).

Lemma push_code o d : spelled o -> op_data o = Some d -> (op_code o <= 0x4e)%N.
Proof. clear. intros S E. destruct o as [c od x]. cbn [op_data op_code] in *. subst. destruct (spelled_size _ _ _ S []) as (b & hdr & h & _ & _ & L & _). exact L. Qed.

Lemma push_not_forbidden c : (c <= 0x4e)%N -> disabled_opcode c = false.
Proof. clear. intros L. unfold disabled_opcode. apply not_true_iff_false. rewrite existsb_exists. intros (x & J & E). apply N.eqb_eq in E. subst x.
  cbn [In] in J. repeat (destruct J as [J|J]; [lia|]). contradiction. Qed.

Lemma size_limit_iff m m' co : size_limit m = Ok m' <-> room (abs m co) /\ m' = m.
Proof.
  clear. unfold size_limit, room. cbn [abs main side]. destruct (_ <? _)%Z eqn:E; split; try discriminate.
  - intros [H _]. apply Z.ltb_lt in E. lia.
  - intros H. apply Z.ltb_ge in E. assert (m' = m) as -> by congruence. split; [exact E|reflexivity].
  - intros [_ ->]. reflexivity.
Qed.

Definition counted_vm (op : N) (m : vm) : vm := if (0x60 <? op)%N then VM (v_stack m) (v_alt m) (v_exec m) (v_begin m) (v_ops m + 1)%Z else m.

Lemma counts_iff op m co M : counts op (abs m co) M <-> ((0x60 <? op)%N && (201 <? v_ops (counted_vm op m))%Z = false) /\ M = abs (counted_vm op m) co.
Proof.
  clear. unfold counts, counted_vm, abs. destruct (96 <? op)%N; cbn [spent main side flow code v_ops v_stack v_alt v_exec andb].
  - split; intros [A B]; (split; [lia|exact B]).
  - split; [intros ->; auto|intros [_ H]; exact H].
Qed.

Lemma counted_tail op m co : tail m co -> tail (counted_vm op m) co.
Proof. unfold tail, counted_vm. destruct (96 <? op)%N; auto. Qed.
Lemma counted_stack op m : v_stack (counted_vm op m) = v_stack m.
Proof. unfold counted_vm. destruct (96 <? op)%N; reflexivity. Qed.
Lemma counted_exec op m : v_exec (counted_vm op m) = v_exec m.
Proof. unfold counted_vm. destruct (96 <? op)%N; reflexivity. Qed.

Lemma eval_item_eq op pc m : eval_item ecdsa s t (Z.of_nat i) (op, None, pc) m =
  if disabled_opcode op then Err EvalScriptError
  else if (0x60 <? op)%N && (201 <? v_ops (counted_vm op m))%Z then Err MaxOpCountError
  else do m1 <- (if CheckExec (v_exec m) || ((0x63 <=? op) && (op <=? 0x68))%N
                 then exec_op ecdsa s t (Z.of_nat i) (CheckExec (v_exec m)) op pc (counted_vm op m) else Ok (counted_vm op m)); size_limit m1.
Proof. unfold eval_item. fold (counted_vm op m). destruct (disabled_opcode op); [reflexivity|]. cbn [bind]. destruct (_ && _); reflexivity. Qed.

Lemma eval_push_eq op d pc m : (op <= 0x4e)%N -> eval_item ecdsa s t (Z.of_nat i) (op, Some d, pc) m =
  if (520 <? blen d)%N then Err EvalScriptError
  else if CheckExec (v_exec m) then Ok (VM (d :: v_stack m) (v_alt m) (v_exec m) (v_begin m) (v_ops m)) else size_limit m.
Proof. clear W I HS. intros L. unfold eval_item. rewrite push_not_forbidden by exact L. cbn [bind]. destruct (96 <? op)%N eqn:E; [lia|]. reflexivity. Qed.

Lemma item_sound o pc rest m m' co :
  spelled o -> smalls (v_stack m) -> tail m co -> Forall spelled rest -> skipn pc s = text_of (o :: rest) ->
  eval_item ecdsa s t (Z.of_nat i) (item o pc) m = Ok m' ->
  exists co', steps ecdsa t i rest o (abs m co) (abs m' co') /\ tail m' co'.
Proof.
  intros S SM T FR HP H. destruct o as [op [d|] x]; unfold item in H; cbn [op_code op_data] in H.
  - rewrite eval_push_eq in H by (exact (push_code _ _ S eq_refl)). destruct (520 <? blen d)%N eqn:E; [discriminate|].
    exists co. destruct (CheckExec (v_exec m)) eqn:CE.
    + inversion H; subst m'. split; [|exact T]. apply (step_push ecdsa t i rest op d x (abs m co)); [lia|]. apply live_iff, CE.
    + apply (size_limit_iff _ _ co) in H. destruct H as [R ->]. split; [|exact T]. apply step_push_dead; [lia|apply live_false, CE|exact R].
  - rewrite eval_item_eq in H. destruct (disabled_opcode op) eqn:D; [discriminate|]. destruct ((0x60 <? op)%N && _) eqn:EC; [discriminate|].
    assert (NF : ~ forbidden op) by (rewrite <- forbidden_iff; congruence).
    assert (CO : counts op (abs m co) (abs (counted_vm op m) co)) by (apply counts_iff; auto).
    destruct (CheckExec (v_exec m) || _) eqn:EX.
    + destruct (exec_op _ _ _ _ _ _ _ _) as [m1|] eqn:E; [|discriminate]. cbn [bind] in H.
      rewrite <- (counted_exec op m) in E. apply (exec_sound _ _ rest _ _ co) in E; [|rewrite counted_stack; exact SM|apply counted_tail, T|exact FR|].
      2:{ intros ->. rewrite HP. destruct (spelled_none _ _ S) as (b & -> & B & _).
          assert (b = xab) as -> by (apply bN_inj; exact B). reflexivity. }
      destruct E as (co' & A & T'). apply (size_limit_iff _ _ co') in H. destruct H as [R ->]. exists co'. split; [|exact T'].
      eapply step_op; [exact NF|exact CO| |exact A|exact R]. apply orb_true_iff in EX. destruct EX as [EX|EX]; [left; apply live_iff, EX|right; unfold controls; lia].
    + cbn [bind] in H. apply (size_limit_iff _ _ co) in H. destruct H as [R ->]. exists co. split; [|apply counted_tail, T].
      apply orb_false_iff in EX. destruct EX as [E1 E2]. eapply step_op_dead; [exact NF|exact CO|apply live_false, E1|unfold controls; lia|exact R].
Qed.

Lemma item_complete o pc rest m M' co :
  spelled o -> smalls (v_stack m) -> tail m co -> Forall spelled rest -> skipn pc s = text_of (o :: rest) ->
  steps ecdsa t i rest o (abs m co) M' ->
  exists m' co', eval_item ecdsa s t (Z.of_nat i) (item o pc) m = Ok m' /\ M' = abs m' co' /\ tail m' co'.
Proof.
  intros S SM T FR HP H. remember (abs m co) as M eqn:EM. destruct H; subst m0; unfold item; cbn [op_code op_data].
  - rewrite eval_push_eq by (exact (push_code _ _ S eq_refl)). destruct (520 <? blen d)%N eqn:E; [lia|].
    apply live_iff in H0. cbn [abs flow] in H0. rewrite H0. do 2 eexists. split; [reflexivity|]. split; [|exact T]. reflexivity.
  - rewrite eval_push_eq by (exact (push_code _ _ S eq_refl)). destruct (520 <? blen d)%N eqn:E; [lia|].
    apply live_false in H0. cbn [abs flow] in H0. rewrite H0. exists m, co. split; [|split; [reflexivity|exact T]]. apply (size_limit_iff _ _ co). auto.
  - rewrite eval_item_eq. destruct (disabled_opcode op) eqn:D; [apply forbidden_iff in D; contradiction|].
    apply counts_iff in H0. destruct H0 as [EC ->]. rewrite EC.
    assert (EX : CheckExec (v_exec m) || ((0x63 <=? op) && (op <=? 0x68))%N = true).
    { apply orb_true_iff. destruct H1 as [H1|H1]; [left; apply live_iff in H1; exact H1|right; unfold controls in H1; lia]. }
    rewrite EX. apply (exec_complete _ pc) in H2; [|rewrite counted_stack; exact SM|apply counted_tail, T|exact FR|].
    2:{ intros ->. rewrite HP. destruct (spelled_none _ _ S) as (b & -> & B & _). assert (b = xab) as -> by (apply bN_inj; exact B). reflexivity. }
    destruct H2 as (m1 & co' & E & -> & T'). rewrite counted_exec in E. rewrite E. cbn [bind]. exists m1, co'. split; [|auto]. apply (size_limit_iff _ _ co'). auto.
  - rewrite eval_item_eq. destruct (disabled_opcode op) eqn:D; [apply forbidden_iff in D; contradiction|].
    apply counts_iff in H0. destruct H0 as [EC ->]. rewrite EC.
    assert (EX : CheckExec (v_exec m) || ((0x63 <=? op) && (op <=? 0x68))%N = false).
    { apply orb_false_iff. split; [apply live_false in H1; exact H1|unfold controls in H2; lia]. }
    rewrite EX. cbn [bind]. exists (counted_vm op m), co. split; [|split; [reflexivity|apply counted_tail, T]]. apply (size_limit_iff _ _ co). auto.
Qed.

(** What is needed of the stacks for their sizes to be representable, with [n] operations to come. *)
Definition fits (B : N) (n : nat) (m : mach) : Prop :=
  small_mach B m /\ (Z.of_nat (List.length (main m)) + Z.of_nat (List.length (side m)) + Z.of_nat n < 2 ^ 32)%Z.

Lemma fits_step B o rest m m' : (520 <= B < 2 ^ 32)%N -> (Z.of_nat (List.length rest) <= 10000)%Z ->
  steps ecdsa t i rest o m m' -> fits B (Datatypes.S (List.length rest)) m -> fits B (List.length rest) m'.
Proof.
  clear W I HS. intros HB LR S [F L]. split.
  - eapply steps_small in S; [exact S|lia|lia|lia|exact F].
  - destruct S; cbn [main side List.length] in *; unfold room in *; lia.
Qed.

Lemma fits_smalls B n m co : (B < 2 ^ 32)%N -> fits B n (abs m co) -> smalls (v_stack m).
Proof.
  intros HB [[F _] L]. cbn [abs main side] in *. split; [lia|]. eapply Forall_impl; [|exact F]. cbn beta. intros; lia.
Qed.

Lemma skipn_text pc o rest : skipn pc s = text_of (o :: rest) -> skipn (pc + List.length (op_text o)) s = text_of rest.
Proof.
  intros H. rewrite Nat.add_comm, <- skipn_twice, H. unfold text_of. cbn [map concat]. rewrite skipn_app, skipn_all, Nat.sub_diag. reflexivity.
Qed.

Lemma items_sound B : (520 <= B < 2 ^ 32)%N -> forall ops pc m m' co,
  Forall spelled ops -> (Z.of_nat (List.length ops) <= 10000)%Z -> fits B (List.length ops) (abs m co) -> tail m co -> skipn pc s = text_of ops ->
  eval_items ecdsa s t (Z.of_nat i) (items_of pc ops) m = Ok m' ->
  exists co', runs ecdsa t i ops (abs m co) (abs m' co') /\ tail m' co'.
Proof.
  intros HB. induction ops as [|o ops IH]; intros pc m m' co FS LO FT T HP H; cbn [items_of eval_items] in H.
  - inversion H; subst. exists co. split; [constructor|exact T].
  - inversion FS; subst. destruct (eval_item _ _ _ _ _ _) as [m1|] eqn:E; [|discriminate]. cbn [bind] in H.
    cbn [List.length] in LO. fold (item o pc) in E. apply (item_sound _ _ ops _ _ co) in E; [|assumption|eapply fits_smalls; [|exact FT]; lia|assumption..].
    destruct E as (co1 & S & T1). apply (IH _ _ _ co1) in H; [|assumption|lia|eapply fits_step; [exact HB|lia|exact S|exact FT]|exact T1|apply skipn_text, HP].
    destruct H as (co2 & R & T2). exists co2. split; [|exact T2]. econstructor; eassumption.
Qed.

Lemma items_complete B : (520 <= B < 2 ^ 32)%N -> forall ops pc m M' co,
  Forall spelled ops -> (Z.of_nat (List.length ops) <= 10000)%Z -> fits B (List.length ops) (abs m co) -> tail m co -> skipn pc s = text_of ops ->
  runs ecdsa t i ops (abs m co) M' ->
  exists m' co', eval_items ecdsa s t (Z.of_nat i) (items_of pc ops) m = Ok m' /\ M' = abs m' co'.
Proof.
  intros HB. induction ops as [|o ops IH]; intros pc m M' co FS LO FT T HP H; cbn [items_of eval_items].
  - inversion H; subst. exists m, co. split; reflexivity.
  - inversion FS; subst. inversion H as [|? ? ? ? ? ST RR]; subst. cbn [List.length] in LO. fold (item o pc). pose proof ST as H5.
    apply (item_complete _ pc) in H5; [|assumption|eapply fits_smalls; [|exact FT]; lia|assumption..].
    destruct H5 as (m2 & co1 & E & -> & T1). rewrite E. cbn [bind].
    eapply IH; [assumption|lia|eapply fits_step; [exact HB|lia|exact ST|exact FT]|exact T1|apply skipn_text, HP|eassumption].
Qed.

End Machine.

Lemma text_ge ops : Forall spelled ops -> List.length ops <= List.length (text_of ops).
Proof.
  induction 1 as [|o ops S F IH]; [apply le_n|]. unfold text_of in *. cbn [map concat List.length]. rewrite app_length. apply spelled_nonempty in S.
  destruct (op_text o); [congruence|]. cbn [List.length]. lia.
Qed.

Theorem EvalScript_iff ecdsa t i B st s st' : wf_tx t -> i < List.length (t_vin t) ->
  (520 <= B < 2 ^ 32)%N -> small_els B st -> (Z.of_nat (List.length st) < 2 ^ 31)%Z ->
  EvalScript ecdsa st s t (Z.of_nat i) = Ok st' <-> evaluates ecdsa t i st s st'.
Proof.
  intros W I HB FB LS. unfold EvalScript, EvalScript_, evaluates. destruct (10000 <? blen s)%N eqn:ES.
  { split; [discriminate|]. intros [H _]. lia. }
  assert (HS : (blen s <= 10000)%N) by lia.
  assert (Main : forall ops, reads_as s ops ->
    (exists m, eval_items ecdsa s t (Z.of_nat i) (items_of 0 ops) (VM st [] [] 0 0) = Ok m /\ v_exec m = [] /\ v_stack m = st') <->
    exists si co n, runs ecdsa t i ops (Mach st [] [] ops 0) (Mach st' si [] co n)).
  { intros ops [F E]. assert (LO : (Z.of_nat (List.length ops) <= 10000)%Z) by (pose proof (text_ge ops F); rewrite <- E in H; unfold blen in HS; lia).
    assert (T : tail s (VM st [] [] 0 0) ops) by (split; [exact F|]; exists ops; split; [left; reflexivity|exact E]).
    assert (FT : fits B (List.length ops) (abs (VM st [] [] 0 0) ops)).
    { split; [split; [exact FB|constructor]|]. cbn [abs main side v_stack v_alt List.length]. lia. }
    split.
    - intros (m & EV & E1 & E2). eapply (items_sound ecdsa t i W I s HS B HB ops 0 _ _ ops F LO FT T E) in EV. destruct EV as (co' & R & _).
      unfold abs at 2 in R. rewrite E1, E2 in R. do 3 eexists. exact R.
    - intros (si & co & n & R). eapply (items_complete ecdsa t i W I s HS B HB ops 0 _ _ ops F LO FT T E) in R. destruct R as (m & co' & EV & E').
      unfold abs in E'. injection E' as E1 E2 E3 E4 E5. exists m. auto. }
  destruct (raw_iter s) as [items e] eqn:R. destruct e as [e|].
  - split.
    + destruct (eval_items _ _ _ _ _ _) as [m|e']; cbn [bind]; [destruct e; discriminate|destruct e'; discriminate].
    + intros (_ & ops & _ & _ & _ & RA & _). exfalso. assert (X : snd (raw_iter s) = None) by (apply reads_exists; eauto). rewrite R in X. discriminate.
  - assert (X : snd (raw_iter s) = None) by (rewrite R; reflexivity). apply reads_exists in X. destruct X as [ops RA].
    assert (items = items_of 0 ops) as ->.
    { destruct RA as [F E]. change (raw_iter s) with (raw_from 0 s) in R. rewrite E, raw_items in R by exact F. congruence. }
    specialize (Main ops RA). split.
    + intros H. split; [exact HS|]. exists ops. assert (Y : exists m, eval_items ecdsa s t (Z.of_nat i) (items_of 0 ops) (VM st [] [] 0 0) = Ok m /\ v_exec m = [] /\ v_stack m = st').
      { destruct (eval_items _ _ _ _ _ _) as [m|e']; cbn [bind] in H; [|destruct e'; discriminate]. exists m. split; [reflexivity|].
        destruct (v_exec m); [|discriminate]. split; congruence. }
      apply Main in Y. destruct Y as (si & co & n & Y). eauto.
    + intros (_ & ops' & si & co & n & RA' & RR). assert (ops' = ops) as -> by (eapply reads_unique; eassumption).
      destruct Main as [_ Main]. destruct Main as (m & EV & E1 & E2); [eauto|]. rewrite EV. cbn [bind]. rewrite E1, E2. reflexivity.
Qed.
