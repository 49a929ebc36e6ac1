(** Which exceptions the script machine can raise. *)
From Verif Require Import Base Sha256 Sha1 Ripemd160 Tx_Model Tx_Spec Tx_Proofs Script_Model Script_Spec Script_Proofs Base58_Spec Base58_Proofs
  SigHash_Model SigHash_Spec SigHash_Proofs ScriptEval_Model ScriptEval_Spec ScriptEval_Proofs ScriptEffect_Proofs ScriptSig_Proofs ScriptRun_Proofs.
From Coq Require Import ZifyBool ZifyNat ZifyN.

Definition eval_error (e : exn) : Prop :=
  In e [EvalScriptError; MaxOpCountError; MissingOpArgumentsError; ArgumentsInvalidError; VerifyOpFailedError].
Definition fine {A} (r : result A) : Prop :=
  forall e, r = Err e -> eval_error e \/ e = CScriptInvalidError \/ e = CScriptTruncatedPushDataError.

Lemma fine_ok {A} (a : A) : fine (Ok a).
Proof. intros e H. discriminate. Qed.
Lemma fine_err {A} e : eval_error e -> fine (@Err A e).
Proof. intros H e' E. injection E as <-. left. exact H. Qed.
Lemma fine_bind {A B} (r : result A) (f : A -> result B) : fine r -> (forall a, r = Ok a -> fine (f a)) -> fine (bind r f).
Proof. intros H G. destruct r as [a|e]; cbn [bind]; [apply G; reflexivity|]. intros e' E. injection E as <-. apply H. reflexivity. Qed.

Ltac member := unfold eval_error; cbn [In]; tauto.

Lemma CastToBigNum_fine a : (blen a < 2 ^ 32)%N -> fine (CastToBigNum a).
Proof. intros H. unfold CastToBigNum. rewrite vch2bn_meaning by exact H. cbn [bind]. destruct (4 <? blen a)%N; [apply fine_err; member|apply fine_ok]. Qed.

Lemma bn2vch_fine z : (Z.abs z < 2 ^ 40)%Z -> fine (bn2vch z).
Proof. intros H. destruct (script_number_roundtrip z (small_log z H)) as (b & E & _). rewrite E. apply fine_ok. Qed.

Lemma num_fine {B} z (f : bytes -> B) : (Z.abs z < 2 ^ 40)%Z -> fine (do r <- bn2vch z; Ok (f r)).
Proof. intros H. apply fine_bind; [apply bn2vch_fine, H|]. intros; apply fine_ok. Qed.

Lemma cast_bound a z : CastToBigNum a = Ok z -> (Z.abs z < 2 ^ 31)%Z.
Proof. intros H. apply CastToBigNum_iff in H. eapply operand_bound, H. Qed.

Lemma binop_fine op st : is_binop op = true -> smalls st -> fine (BinOp op st).
Proof.
  intros OP [SL SF]. unfold BinOp, check_args. destruct st as [|b [|a st]]; cbn [List.length Nat.ltb Nat.leb bind sget nth_error Nat.sub]; try (apply fine_err; member).
  inversion SF as [|? ? S1 SF']; subst. inversion SF' as [|? ? S2 _]; subst.
  apply fine_bind; [apply CastToBigNum_fine, S1|]. intros y Y. apply fine_bind; [apply CastToBigNum_fine, S2|]. intros x X. apply cast_bound in X, Y. cbn [spop bind].
  assert (Z2 : forall c, (Z.abs (zb c) < 2 ^ 40)%Z) by (intros []; cbn; lia).
  repeat match goal with |- fine (if ?c then _ else _) => destruct c eqn:?E end;
    first [apply num_fine; first [apply Z2|repeat match goal with |- context[if ?c then _ else _] => destruct c end; lia]|apply fine_ok|apply fine_err; member|idtac].
  exfalso. unfold is_binop in OP. cbn [existsb] in OP. rewrite ?E, ?E0, ?E1, ?E2, ?E3, ?E4, ?E5, ?E6, ?E7, ?E8, ?E9, ?E10, ?E11 in OP. discriminate.
Qed.

Lemma unop_fine op st : is_unop op = true -> smalls st -> fine (UnaryOp op st).
Proof.
  intros OP [SL SF]. unfold UnaryOp, check_args. destruct st as [|a st]; cbn [List.length Nat.ltb Nat.leb bind sget nth_error Nat.sub spop]; try (apply fine_err; member).
  inversion SF as [|? ? S1 _]; subst. apply fine_bind; [apply CastToBigNum_fine, S1|]. intros x X. apply cast_bound in X.
  assert (Z2 : forall c, (Z.abs (zb c) < 2 ^ 40)%Z) by (intros []; cbn; lia).
  repeat match goal with |- fine (bind (if ?c then _ else _) _) => destruct c eqn:?E; cbn [bind] end;
    first [apply num_fine; first [apply Z2|repeat match goal with |- context[if ?c then _ else _] => destruct c end; lia]|idtac].
  exfalso. unfold is_unop in OP. cbn [existsb] in OP. rewrite ?E, ?E0, ?E1, ?E2, ?E3, ?E4 in OP. discriminate.
Qed.

Ltac deep st := destruct st as [|?a [|?b [|?c [|?d [|?e [|?f st]]]]]].
Ltac opc H := match type of H with (if ?c then _ else _) = Some _ => destruct c eqn:?C end.
Ltac easyop := unfold check_args; cbn [List.length Nat.ltb Nat.leb bind sget nth_error Nat.sub spop sset sset_at sdel sdel_at];
  try (apply fine_err; member); try apply fine_ok.

Lemma stack_op_fine op st r : smalls st -> stack_op op st = Some r -> fine r.
Proof.
  intros SM H. pose proof SM as [SL SF]. unfold stack_op in H.
  opc H; [injection H as <-; apply num_fine; lia|].
  opc H; [injection H as <-; apply binop_fine; assumption|].
  opc H; [injection H as <-; apply unop_fine; assumption|].
  do 6 (opc H; [injection H as <-; deep st; easyop|]).
  opc H; [injection H as <-; apply num_fine; lia|].
  do 2 (opc H; [injection H as <-; deep st; easyop|]).
  opc H; [injection H as <-; deep st; easyop|].
  opc H; [injection H as <-; destruct st as [|a [|b st]]; easyop; destruct (bytes_eqb a b); easyop|].
  do 4 (opc H; [injection H as <-; deep st; easyop|]).
  opc H; [injection H as <-; apply fine_ok|].
  opc H; [injection H as <-; deep st; easyop|].
  opc H.
  { injection H as <-. destruct st as [|a [|b st]]; easyop. inversion SF as [|? ? S1 _]; subst.
    apply fine_bind; [apply CastToBigNum_fine, S1|]. intros n Nn. match goal with |- fine (if ?c then _ else _) => destruct c eqn:E end; [apply fine_err; member|idtac].
    assert (LN : Z.to_nat n < List.length (b :: st)) by (cbn [List.length]; lia). unfold sget, sdel. replace (Z.to_nat n + 1 - 1) with (Z.to_nat n) by lia.
    destruct (nth_error (b :: st) (Z.to_nat n)) as [x|] eqn:NE; [|apply nth_error_None in NE; lia]. cbn [bind].
    destruct (op =? 122)%N; [|apply fine_ok]. apply nth_error_split in NE. destruct NE as (l & r' & -> & L). rewrite <- L, sdel_mid. apply fine_ok. }
  opc H; [injection H as <-; apply fine_err; member|idtac].
  do 2 (opc H; [injection H as <-; deep st; easyop|]).
  opc H.
  { injection H as <-. destruct st as [|a st]; easyop. inversion SF; subst. apply num_fine. lia. }
  do 4 (opc H; [injection H as <-; deep st; easyop|]).
  opc H; [injection H as <-; destruct st as [|a st]; easyop; destruct (CastToBool a); easyop|].
  opc H; [|discriminate].
  injection H as <-. destruct st as [|a [|b [|c st]]]; easyop.
  inversion SF as [|? ? S1 SF']; subst. inversion SF' as [|? ? S2 SF'']; subst. inversion SF'' as [|? ? S3 _]; subst.
  apply fine_bind; [apply CastToBigNum_fine; assumption|]. intros. apply fine_bind; [apply CastToBigNum_fine; assumption|]. intros.
  apply fine_bind; [apply CastToBigNum_fine; assumption|]. intros. apply fine_ok.
Qed.

Section Sig.
Context (ecdsa : bytes -> bytes -> bytes -> bool) (t : tx) (i : nat) (W : wf_tx t).

Lemma delete_fine s p : fine (FindAndDelete s p).
Proof.
  intros e H. right. unfold FindAndDelete in H. pose proof (raw_iter_err s) as R. destruct (raw_iter s) as [items [e'|]]; [|discriminate].
  injection H as <-. cbn [snd] in R. destruct (R e' eq_refl) as [-> | ->]; auto.
Qed.

Lemma CheckSig_fine s sig pk : wf_script s -> fine (CheckSig ecdsa sig pk s t (Z.of_nat i)).
Proof.
  intros Ws. unfold CheckSig. destruct (rev sig) as [|ht body] eqn:RV; [apply fine_ok|].
  destruct (Nat.le_gt_cases (List.length (t_vin t)) i) as [L|L].
  - unfold RawSignatureHash. destruct (_ <=? _)%Z eqn:E; [apply fine_ok|lia].
  - destruct (FindAndDelete s [xab]) as [c|e] eqn:F.
    + apply FindAndDelete_ok in F; [|apply codesep_op]. destruct F as (chunks & S & _).
      destruct (CheckSig_signed ecdsa t i W L s sig pk ltac:(eauto) Ws) as (b & E & _). unfold CheckSig in E. rewrite RV in E. rewrite E. apply fine_ok.
    + rewrite Raw_eq by assumption. rewrite F. cbn [bind]. pose proof (delete_fine s [xab]) as D. rewrite F in D. intros e' E. injection E as <-. apply D. reflexivity.
Qed.

Lemma delete_len s p r : one_op p -> FindAndDelete s p = Ok r -> List.length r <= List.length s.
Proof.
  clear. intros P H. apply FindAndDelete_ok in H; [|exact P]. destruct H as (chunks & [_ <-] & ->). unfold without.
  induction chunks as [|c chunks IH]; [apply le_n|]. cbn [filter concat]. match goal with |- context[if ?b then _ else _] => destruct b end; cbn [concat]; rewrite !app_length; lia.
Qed.

Lemma enc_one sig : (blen sig < 2 ^ 32)%N -> one_op (enc sig).
Proof. intros H. apply one_op_spelled. destruct (enc_spelled sig H) as [c S]. eauto. Qed.

Lemma drop_fine stack : Forall (fun a => (blen a < 2 ^ 32)%N) stack -> forall n isig s, 1 <= isig -> isig - 1 + n <= List.length stack ->
  fine (drop_sigs n isig stack s) /\ forall r, drop_sigs n isig stack s = Ok r -> List.length r <= List.length s.
Proof.
  intros F. induction n as [|n IH]; intros isig s L1 L2; cbn [drop_sigs].
  - split; [apply fine_ok|]. intros r E. injection E as <-. apply le_n.
  - unfold sget. destruct (nth_error stack (isig - 1)) as [sig|] eqn:N; [|apply nth_error_None in N; lia]. cbn [bind].
    assert (B : (blen sig < 2 ^ 32)%N) by (rewrite Forall_forall in F; apply F; eapply nth_error_In, N). rewrite cscript_enc by exact B. cbn [bind]. split.
    + apply fine_bind; [apply delete_fine|]. intros a _. apply IH; lia.
    + intros r. destruct (FindAndDelete s (enc sig)) as [s'|] eqn:D; [|discriminate]. cbn [bind]. intros R. apply delete_len in D; [|apply enc_one, B].
      apply IH in R; [lia|lia|lia].
Qed.

Lemma match_fine stack s : wf_script s -> forall keys sigs ikey isig,
  sigs <= keys -> 1 <= ikey -> 1 <= isig -> ikey - 1 + keys <= List.length stack -> isig - 1 + sigs <= List.length stack ->
  fine (match_sigs ecdsa keys keys sigs ikey isig stack s t (Z.of_nat i)).
Proof.
  intros Ws. induction keys as [|keys IH]; intros sigs ikey isig LE L1 L2 L3 L4.
  - assert (sigs = 0) as -> by lia. apply fine_ok.
  - cbn [match_sigs]. destruct sigs as [|sigs]; [apply fine_ok|]. unfold sget.
    destruct (nth_error stack (isig - 1)) as [sig|] eqn:N1; [|apply nth_error_None in N1; lia]. cbn [bind].
    destruct (nth_error stack (ikey - 1)) as [pk|] eqn:N2; [|apply nth_error_None in N2; lia]. cbn [bind].
    apply fine_bind; [apply CheckSig_fine, Ws|]. intros ok _. replace (Datatypes.S keys - 1) with keys by lia.
    match goal with |- fine (if ?c then _ else _) => destruct c eqn:E end; [apply fine_ok|]. apply Nat.ltb_ge in E. destruct ok; apply IH; lia.
Qed.

Lemma multisig_fine op s st n : wf_script s -> smalls st -> fine (CheckMultiSig ecdsa op s st t (Z.of_nat i) n).
Proof.
  intros Ws [SL SF]. unfold CheckMultiSig. destruct st as [|a st]; [apply fine_err; member|idtac]. change (List.length (a :: st) <? 1) with false. cbn [bind]. change (sget 1 (a :: st)) with (Ok a). cbn [bind].
  inversion SF as [|? ? SA _]; subst. apply fine_bind; [apply CastToBigNum_fine, SA|]. intros k K. set (stk := a :: st) in *.
  match goal with |- fine (bind (if ?c then _ else _) _) => destruct c eqn:E1; cbn [bind]; [apply fine_err; member|] end.
  match goal with |- fine (bind (if ?c then _ else _) _) => destruct c eqn:E2; cbn [bind]; [apply fine_err; member|] end.
  match goal with |- fine (bind (if ?c then _ else _) _) => destruct c eqn:E3; cbn [bind]; [apply fine_err; member|] end.
  apply Nat.ltb_ge in E3. unfold sget at 1. destruct (nth_error stk (2 + Z.to_nat k - 1)) as [b|] eqn:NB; [|apply nth_error_None in NB; lia]. cbn [bind].
  apply fine_bind; [apply CastToBigNum_fine; rewrite Forall_forall in SF; apply SF; eapply nth_error_In, NB|]. intros z Z.
  match goal with |- fine (bind (if ?c then _ else _) _) => destruct c eqn:E4; cbn [bind]; [apply fine_err; member|] end.
  match goal with |- fine (bind (if ?c then _ else _) _) => destruct c eqn:E5; cbn [bind]; [apply fine_err; member|] end.
  match goal with |- fine (bind (if ?c then _ else _) _) => destruct c eqn:E6; cbn [bind]; [apply fine_err; member|] end.
  apply Nat.ltb_ge in E5, E6. destruct (drop_fine stk SF (Z.to_nat z) (2 + Z.to_nat k + 1) s) as [D1 D2]; [lia|lia|].
  apply fine_bind; [exact D1|]. intros s' S'. apply D2 in S'.
  apply fine_bind; [apply match_fine; [unfold wf_script, blen in *; lia|lia|lia|lia|lia|lia]|]. intros b' _.
  destruct (negb b' && (op =? 175)%N); cbn [bind]; [apply fine_err; member|apply fine_ok].
Qed.

Context (s : bytes) (HS : (blen s <= 10000)%N).

Lemma skip_wf k : wf_script (skipn k s).
Proof. unfold wf_script, blen, MAX_SIZE in *. rewrite skipn_length. lia. Qed.

Lemma exec_fine b op pc m : smalls (v_stack m) -> fine (exec_op ecdsa s t (Z.of_nat i) b op pc m).
Proof.
  intros SM. unfold exec_op. destruct (stack_op op (v_stack m)) as [r|] eqn:SO.
  { apply fine_bind; [eapply stack_op_fine; eassumption|]. intros; apply fine_ok. }
  match goal with |- fine (if ?c then _ else _) => destruct c end.
  { apply fine_bind; [apply multisig_fine; [apply skip_wf|exact SM]|]. intros [st n] _. apply fine_ok. }
  match goal with |- fine (if ?c then _ else _) => destruct c end.
  { destruct SM as [_ SF]. destruct (v_stack m) as [|pk [|sig st]]; easyop. inversion SF as [|? ? _ SF']; subst. inversion SF' as [|? ? SB _]; subst.
    rewrite cscript_enc by exact SB. cbn [bind]. apply fine_bind; [apply delete_fine|]. intros s' D. apply delete_len in D; [|apply enc_one, SB].
    apply fine_bind; [apply CheckSig_fine; pose proof (skip_wf (v_begin m)) as X; unfold wf_script, blen in *; lia|]. intros ok _.
    destruct (negb ok && _); [apply fine_err; member|apply fine_ok]. }
  match goal with |- fine (if ?c then _ else _) => destruct c end; [apply fine_ok|].
  match goal with |- fine (if ?c then _ else _) => destruct c end; [destruct (v_exec m); [apply fine_err; member|apply fine_ok]|].
  match goal with |- fine (if ?c then _ else _) => destruct c end; [destruct (v_exec m); [apply fine_err; member|apply fine_ok]|].
  match goal with |- fine (if ?c then _ else _) => destruct c end; [destruct (v_alt m); [apply fine_err; member|apply fine_ok]|].
  match goal with |- fine (if ?c then _ else _) => destruct c end.
  { destruct b; [|apply fine_ok]. destruct (v_stack m); easyop. }
  match goal with |- fine (if ?c then _ else _) => destruct c end; [destruct (v_stack m); easyop|apply fine_err; member].
Qed.

Definition small_vm (m : vm) : Prop := small_els 520 (v_stack m) /\ small_els 520 (v_alt m).

Lemma exec_small b op pc m m' : smalls (v_stack m) -> small_vm m -> exec_op ecdsa s t (Z.of_nat i) b op pc m = Ok m' -> small_vm m'.
Proof.
  clear W HS. intros SM [F1 F2] H. unfold exec_op in H. destruct (stack_op op (v_stack m)) as [r|] eqn:SO.
  { destruct r as [st|]; [|discriminate]. cbn [bind] in H. injection H as <-. split; [|exact F2]. cbn [v_stack].
    eapply (effect_small 520 ltac:(lia)); [apply SM|lia|apply stack_op_iff; eassumption|exact F1]. }
  destruct m as [stk alt ex bg n]. unfold small_vm, small_els in *. cbn [v_stack v_alt v_exec v_begin v_ops] in *. clear SO.
  assert (OB : forall c, (blen (of_bool c) <= 520)%N) by (intros []; unfold blen; cbn; lia).
  match type of H with (if ?c then _ else _) = _ => destruct c end.
  { destruct (CheckMultiSig _ _ _ _ _ _ _) as [[st k]|] eqn:E; [|discriminate]. cbn [bind] in H. injection H as <-. split; [|exact F2]. cbn [v_stack].
    assert (SK : forall k, Forall (fun a => (blen a <= 520)%N) (skipn k stk)).
    { intros j. rewrite Forall_forall in *. intros x J. apply F1. rewrite <- (firstn_skipn j stk). apply in_or_app. auto. }
    unfold CheckMultiSig in E. cbv zeta in E.
    repeat (match type of E with bind ?r _ = Ok _ => destruct r; [|discriminate] end; cbn [bind] in E).
    apply (f_equal (fun r => match r with Ok (l, _) => l | Err _ => [] end)) in E. cbv beta iota in E. rewrite <- E. clear E. destruct (op =? 174)%N; [constructor; [apply OB|apply SK]|apply SK]. }
  match type of H with (if ?c then _ else _) = _ => destruct c end.
  { destruct stk as [|pk [|sig st]]; try discriminate. cbn [check_args List.length Nat.ltb Nat.leb bind sget nth_error Nat.sub spop] in H.
    repeat (match type of H with bind ?r _ = Ok _ => destruct r; [|discriminate] end; cbn [bind] in H).
    match type of H with (if ?c then _ else _) = _ => destruct c; [discriminate|] end. injection H as <-.
    cbn [v_stack v_alt]. split; [|exact F2]. inversion F1; subst. inversion H2; subst. destruct a1; [destruct (negb _)|]; try (constructor; [apply (OB true)||apply (OB false)|]); assumption. }
  match type of H with (if ?c then _ else _) = _ => destruct c end; [injection H as <-; auto|].
  match type of H with (if ?c then _ else _) = _ => destruct c end; [destruct ex; [discriminate|]; injection H as <-; auto|].
  match type of H with (if ?c then _ else _) = _ => destruct c end; [destruct ex; [discriminate|]; injection H as <-; auto|].
  match type of H with (if ?c then _ else _) = _ => destruct c end; [destruct alt; [discriminate|]; injection H as <-; inversion F2; subst; split; [constructor|]; auto|].
  match type of H with (if ?c then _ else _) = _ => destruct c end.
  { destruct b; [|injection H as <-; auto]. destruct stk; [discriminate|]. cbn [check_args List.length Nat.ltb Nat.leb bind spop] in H. injection H as <-. inversion F1; subst. auto. }
  match type of H with (if ?c then _ else _) = _ => destruct c end; [|discriminate]. destruct stk; [discriminate|].
  cbn [check_args List.length Nat.ltb Nat.leb bind spop] in H. injection H as <-. inversion F1; subst. split; [|constructor]; auto.
Qed.

Definition vm_size (m : vm) : Z := (Z.of_nat (List.length (v_stack m)) + Z.of_nat (List.length (v_alt m)))%Z.
Context (K : Z) (HK : (11000 <= K < 2 ^ 32)%Z).
Definition vm_fits (n : nat) (m : vm) : Prop := small_vm m /\ (vm_size m + Z.of_nat n <= K)%Z.

Lemma vm_smalls n m : vm_fits n m -> smalls (v_stack m).
Proof. clear -HK. intros [[F _] L]. unfold vm_size in L. split; [lia|]. eapply Forall_impl; [|exact F]. cbn beta. lia. Qed.

Lemma size_limit_fine m : fine (size_limit m).
Proof. unfold size_limit. destruct (_ <? _)%Z; [apply fine_err; member|apply fine_ok]. Qed.

Lemma counted_fits n op m : vm_fits n m -> vm_fits n (counted_vm op m).
Proof. clear. unfold counted_vm. destruct (96 <? op)%N; auto. Qed.

Lemma item_fine it m n : vm_fits (Datatypes.S n) m -> (Z.of_nat n <= 10000)%Z -> (snd (fst it) <> None -> (fst (fst it) <= 0x4e)%N) ->
  fine (eval_item ecdsa s t (Z.of_nat i) it m) /\ forall m', eval_item ecdsa s t (Z.of_nat i) it m = Ok m' -> vm_fits n m'.
Proof.
  intros F LN P. destruct it as [[op [d|]] pc]; cbn [fst snd] in P.
  - rewrite eval_push_eq by (apply P; discriminate). destruct (520 <? blen d)%N eqn:E; [split; [apply fine_err; member|discriminate]|].
    destruct F as [[F1 F2] L]. unfold vm_size in L. destruct (CheckExec (v_exec m)).
    + split; [apply fine_ok|]. intros m' H. injection H as <-. split; [split; cbn [v_stack v_alt]; [constructor; [lia|exact F1]|exact F2]|].
      unfold vm_size. cbn [v_stack v_alt List.length]. lia.
    + split; [apply size_limit_fine|]. intros m' H. apply (size_limit_iff _ _ []) in H. destruct H as [R ->]. split; [split; assumption|]. unfold vm_size. lia.
  - rewrite eval_item_eq. pose proof (counted_fits _ op _ F) as CF. destruct (disabled_opcode op); [split; [apply fine_err; member|discriminate]|].
    match goal with |- fine (if ?c then _ else _) /\ _ => destruct c; [split; [apply fine_err; member|discriminate]|] end.
    destruct (CheckExec (v_exec m) || _).
    + split.
      * apply fine_bind; [apply exec_fine, (vm_smalls _ _ CF)|]. intros; apply size_limit_fine.
      * intros m' H. destruct (exec_op _ _ _ _ _ _ _ _) as [m1|] eqn:E; [|discriminate]. cbn [bind] in H. apply (size_limit_iff _ _ []) in H. destruct H as [R ->].
        split; [eapply exec_small; [apply (vm_smalls _ _ CF)|apply CF|exact E]|]. unfold room in R. cbn [abs main side] in R. unfold vm_size. lia.
    + cbn [bind]. split; [apply size_limit_fine|]. intros m' H. apply (size_limit_iff _ _ []) in H. destruct H as [R ->]. destruct CF as [CF L]. split; [exact CF|lia].
Qed.

Lemma items_fine items : forall m, vm_fits (List.length items) m -> (Z.of_nat (List.length items) <= 10000)%Z ->
  Forall (fun it => snd (fst it) <> None -> (fst (fst it) <= 0x4e)%N) items ->
  fine (eval_items ecdsa s t (Z.of_nat i) items m) /\ forall m', eval_items ecdsa s t (Z.of_nat i) items m = Ok m' -> vm_fits 0 m'.
Proof.
  induction items as [|it items IH]; intros m F L P; cbn [eval_items].
  - split; [apply fine_ok|]. intros m' H. injection H as <-. exact F.
  - inversion P; subst. cbn [List.length] in *. destruct (item_fine it m _ F ltac:(lia) H1) as [A B]. split.
    + apply fine_bind; [exact A|]. intros m' M. apply IH; [apply B, M|lia|assumption].
    + intros m'. destruct (eval_item _ _ _ _ _ _) as [m1|]; [|discriminate]. cbn [bind]. apply IH; [apply B; reflexivity|lia|assumption].
Qed.
End Sig.

Lemma raw_from_shape s : forall k, List.length (fst (raw_from k s)) <= List.length s /\
  Forall (fun it : N * option bytes * nat => snd (fst it) <> None -> (fst (fst it) <= 0x4e)%N) (fst (raw_from k s)).
Proof.
  remember (List.length s) as n eqn:L. revert s L. induction n as [n IH] using lt_wf_ind. intros s L k.
  destruct (op_size s) as [sz|] eqn:E.
  - destruct (op_size_spelled s sz E) as (o & S & T). assert (X : s = op_text o ++ skipn sz s) by (rewrite T; symmetry; apply firstn_skipn).
    pose proof (spelled_nonempty o S) as NE. assert (LT : List.length (skipn sz s) < n).
    { rewrite X in L. rewrite app_length in L. destruct (op_text o); [congruence|]. cbn [List.length] in L. lia. }
    rewrite X. rewrite spelled_step by exact S. cbn [fst List.length]. destruct (IH _ LT (skipn sz s) eq_refl (k + List.length (op_text o))) as [A B].
    split; [lia|]. constructor; [|exact B]. cbn [fst snd]. intros D. destruct (op_data o) as [d|] eqn:ED; [|congruence]. eapply push_code; eassumption.
  - destruct s as [|x s]; [split; [cbn; lia|constructor]|]. destruct (raw_from_none k x s E) as [e R]. rewrite R. cbn [fst List.length]. split; [lia|constructor].
Qed.

Section Eval.
Context (ecdsa : bytes -> bytes -> bytes -> bool) (t : tx) (i : nat) (W : wf_tx t).

Lemma EvalScript_both st s : small_els 520 st -> (Z.of_nat (List.length st) < 2 ^ 31)%Z ->
  (forall e, EvalScript ecdsa st s t (Z.of_nat i) = Err e -> eval_error e) /\
  (forall st', EvalScript ecdsa st s t (Z.of_nat i) = Ok st' -> small_els 520 st' /\ (Z.of_nat (List.length st') <= Z.max 11000 (Z.of_nat (List.length st) + 10000))%Z).
Proof.
  intros FS LS. unfold EvalScript, EvalScript_. destruct (10000 <? blen s)%N eqn:ES; [split; [intros e H; injection H as <-; member|discriminate]|].
  assert (HS : (blen s <= 10000)%N) by lia. destruct (raw_from_shape s 0) as [A B]. change (raw_from 0 s) with (raw_iter s) in A, B.
  pose proof (raw_iter_err s) as RE. destruct (raw_iter s) as [items e'] eqn:R. cbn [fst snd] in *.
  set (K := Z.max 11000 (Z.of_nat (List.length st) + 10000)).
  destruct (items_fine ecdsa t i W s HS K ltac:(lia) items (VM st [] [] 0 0)) as [F G];
    [split; [split; [exact FS|constructor]|]; unfold vm_size; cbn [v_stack v_alt List.length]; unfold blen in HS; lia|unfold blen in HS; lia|exact B|].
  split.
  - intros e H. destruct (eval_items _ _ _ _ _ _) as [m|e1]; cbn [bind] in H.
    + destruct e' as [e'|].
      * destruct (RE e' eq_refl) as [-> | ->]; injection H as <-; member.
      * destruct (v_exec m); [discriminate|]. injection H as <-. member.
    + destruct (F e1 eq_refl) as [X|[->| ->]]; [|injection H as <-; member..].
      unfold eval_error in X. cbn [In] in X. destruct X as [<-|[<-|[<-|[<-|[<-|[]]]]]]; injection H as <-; member.
  - intros st' H. destruct (eval_items _ _ _ _ _ _) as [m|e1]; cbn [bind] in H; [|destruct e1; discriminate].
    destruct e' as [e'|]; [destruct e'; discriminate|]. destruct (v_exec m); [|discriminate]. assert (st' = v_stack m) as -> by congruence.
    destruct (G m eq_refl) as [[F1 _] L]. split; [exact F1|]. unfold vm_size in L. lia.
Qed.

(** A script whose first operation fails. *)
Lemma EvalScript_first st b s e : (0x4e < bN b)%N -> eval_error e -> eval_item ecdsa (b :: s) t (Z.of_nat i) (bN b, None, 0) (VM st [] [] 0 0) = Err e ->
  EvalScript ecdsa st (b :: s) t (Z.of_nat i) = Err EvalScriptError \/ EvalScript ecdsa st (b :: s) t (Z.of_nat i) = Err e.
Proof.
  clear W. intros L EE E. unfold EvalScript, EvalScript_. destruct (10000 <? blen (b :: s))%N; [auto|]. right.
  change (raw_iter (b :: s)) with (raw_from 0 (b :: s)). rewrite raw_from_op by exact L. cbn [eval_items]. rewrite E. cbn [bind].
  unfold eval_error in EE. cbn [In] in EE. destruct EE as [<-|[<-|[<-|[<-|[<-|[]]]]]]; reflexivity.
Qed.

Lemma VerifyScript_fine ss sc flags e : VerifyScript ecdsa ss sc t (Z.of_nat i) flags = Err e -> eval_error e \/ e = VerifyScriptError.
Proof.
  unfold VerifyScript. destruct (EvalScript_both [] ss ltac:(constructor) ltac:(cbn; lia)) as [A1 B1].
  destruct (EvalScript ecdsa [] ss t (Z.of_nat i)) as [st1|e1] eqn:E1; cbn [bind]; [|intros H; injection H as <-; left; apply A1; reflexivity].
  destruct (B1 _ eq_refl) as [F1 L1]. cbn [List.length] in L1. destruct (EvalScript_both st1 sc F1 ltac:(lia)) as [A2 B2].
  destruct (EvalScript ecdsa st1 sc t (Z.of_nat i)) as [st2|e2] eqn:E2; cbn [bind]; [|intros H; injection H as <-; left; apply A2; reflexivity].
  destruct st2 as [|v2 st2]; [cbn [bind]; intros H; injection H as <-; auto|]. destruct (CastToBool v2); cbn [bind]; [|intros H; injection H as <-; auto].
  destruct (existsb _ _ && is_p2sh sc) eqn:EP; [|discriminate]. destruct (is_push_only ss); cbn [bind]; [|intros H; injection H as <-; auto].
  destruct st1 as [|v1 st1]; cbn [bind].
  { apply andb_prop in EP as [_ EP]. apply is_p2sh_iff in EP as (h & -> & _). exfalso. unfold p2sh_script in E2. cbn [app] in E2.
    destruct (EvalScript_first [] xa9 (x14 :: h ++ [x87]) MissingOpArgumentsError) as [X|X]; [reflexivity|member| |congruence|congruence]. rewrite eval_item_eq. reflexivity. }
  inversion F1; subst. cbn [List.length] in L1. destruct (EvalScript_both st1 v1 ltac:(assumption) ltac:(lia)) as [A3 B3].
  destruct (EvalScript ecdsa st1 v1 t (Z.of_nat i)) as [st3|e3]; cbn [bind]; [|intros H; injection H as <-; left; apply A3; reflexivity].
  destruct st3 as [|v3 st3]; [intros H; injection H as <-; auto|]. destruct (CastToBool v3); [discriminate|intros H; injection H as <-; auto].
Qed.

Lemma unspendable_fails ss sc flags : is_unspendable sc = true -> exists e, VerifyScript ecdsa ss sc t (Z.of_nat i) flags = Err e /\ eval_error e.
Proof.
  intros U. destruct sc as [|b sc]; [discriminate|]. cbn [is_unspendable] in U. apply N.eqb_eq in U. assert (b = x6a) as -> by (apply bN_inj; exact U).
  unfold VerifyScript. destruct (EvalScript_both [] ss ltac:(constructor) ltac:(cbn; lia)) as [A1 _].
  destruct (EvalScript ecdsa [] ss t (Z.of_nat i)) as [st1|e1] eqn:E1; cbn [bind]; [|exists e1; auto].
  destruct (EvalScript_first st1 x6a sc EvalScriptError) as [X|X]; [reflexivity|member|rewrite eval_item_eq; reflexivity| |];
    rewrite X; cbn [bind]; eexists; (split; [reflexivity|member]).
Qed.
End Eval.

Lemma VerifySignature_fine ecdsa txFrom t i e : wf_tx txFrom -> wf_tx t -> VerifySignature ecdsa txFrom t i = Err e ->
  eval_error e \/ e = VerifyScriptError \/ e = VerifySignatureError.
Proof.
  intros WF W H. unfold VerifySignature in H. destruct (i <? 0)%Z eqn:E0; cbn [bind] in H; [injection H as <-; auto|].
  match type of H with bind (if ?c then _ else _) _ = _ => destruct c eqn:E1 end; cbn [bind] in H; [injection H as <-; auto|].
  destruct (nth_error (t_vin t) (Z.to_nat i)) as [inp|] eqn:N; [|apply nth_error_None in N; lia]. cbn [bind] in H.
  match type of H with bind (if ?c then _ else _) _ = _ => destruct c eqn:E2 end; cbn [bind] in H; [injection H as <-; auto|].
  match type of H with bind (if ?c then _ else _) _ = _ => destruct c eqn:E3 end; cbn [bind] in H; [injection H as <-; auto|].
  destruct (nth_error (t_vout txFrom) _) as [out|] eqn:NO; [|apply nth_error_None in NO; lia]. cbn [bind] in H.
  destruct (tx_codec txFrom WF) as (b & TS & _). unfold tx_GetHash in H. rewrite TS in H. cbn [bind] in H.
  match type of H with bind (if ?c then _ else _) _ = _ => destruct c end; cbn [bind] in H; [injection H as <-; auto|].
  rewrite <- (Z2Nat.id i) in H by lia. apply (VerifyScript_fine _ _ _ W) in H. tauto.
Qed.
