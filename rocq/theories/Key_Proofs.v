(** Proofs about keys and signing. *)
From Verif Require Import Base PySlice Sha256 Ripemd160 Tx_Model Tx_Spec Block_Model Script_Model SigHash_Model SigHash_Spec SigHash_Proofs.
From Verif Require Import ScriptEval_Model ScriptEval_Spec ScriptVerify_Spec Base58_Model Base58_Spec Base58_Proofs.
From Verif Require Import ScriptRun_Proofs ScriptVerify_Proofs ScriptUse_Proofs Key_Model Key_Spec.

(** ** Nothing depends on the scriptSigs of the transaction *)

Definition blank (i : txin) : txin := mkTxIn (i_prevout i) [] (i_nSequence i).

Lemma copies_same l l' : map i_prevout l' = map i_prevout l -> map i_nSequence l' = map i_nSequence l ->
  (exists e, mapM txin_copy l = Err e /\ mapM txin_copy l' = Err e) \/
  (exists c c', mapM txin_copy l = Ok c /\ mapM txin_copy l' = Ok c' /\ map blank c = map blank c').
Proof.
  revert l'. induction l as [|x l IH]; intros [|x' l'] Hp Hs; try discriminate.
  - right. exists [], []. auto.
  - cbn [map] in Hp, Hs. injection Hp as Ep Hp. injection Hs as Es Hs. specialize (IH l' Hp Hs).
    assert (C : (exists e, txin_copy x = Err e /\ txin_copy x' = Err e) \/
                exists y y', txin_copy x = Ok y /\ txin_copy x' = Ok y' /\ blank y = blank y').
    { unfold txin_copy. rewrite Ep, Es.
      destruct (outpoint_new (o_hash (i_prevout x)) (o_n (i_prevout x))) as [p|e]; cbn [bind]; [|left; eauto].
      unfold txin_new. destruct (negb _); [left; eauto|]. right. do 2 eexists. repeat split. }
    cbn [mapM]. destruct C as [(e & -> & ->)|(y & y' & -> & -> & E0)]; cbn [bind]; [left; eauto|].
    destruct IH as [(e & -> & ->)|(c & c' & -> & -> & E)]; cbn [bind]; [left; eauto|].
    right. do 2 eexists. split; [reflexivity|]. split; [reflexivity|]. cbn [map]. rewrite E, E0. reflexivity.
Qed.

Lemma Raw_same t t' s i ht : same_but_scripts t t' -> RawSignatureHash s t' i ht = RawSignatureHash s t i ht.
Proof.
  intros (Eo & El & Ev & Ep & Es). unfold RawSignatureHash.
  assert (Len : List.length (t_vin t') = List.length (t_vin t)) by (rewrite <- (map_length i_prevout (t_vin t')), Ep; apply map_length).
  rewrite Len. destruct (_ <=? i)%Z; [reflexivity|]. unfold tx_copy.
  destruct (copies_same (t_vin t) (t_vin t') Ep Es) as [(e & -> & ->)|(c & c' & -> & -> & E)]; cbn [bind]; [reflexivity|].
  rewrite Eo, El, Ev. unfold tx_new. destruct (negb _); cbn [bind]; [reflexivity|]. cbn [t_vin t_vout t_nLockTime t_nVersion].
  fold blank. change (fun i0 : txin => mkTxIn (i_prevout i0) [] (i_nSequence i0)) with blank. rewrite E. reflexivity.
Qed.

Section Same.
Context (ecdsa : bytes -> bytes -> bytes -> bool) (t t' : tx) (i i' : Z).
Hypothesis Raw : forall s ht, RawSignatureHash s t' i' ht = RawSignatureHash s t i ht.

Lemma CheckSig_same sig pk s : CheckSig ecdsa sig pk s t' i' = CheckSig ecdsa sig pk s t i.
Proof. unfold CheckSig. destruct (rev sig); [reflexivity|]. rewrite Raw. reflexivity. Qed.

Lemma match_sigs_same fuel : forall keys sigs ikey isig st s,
  match_sigs ecdsa fuel keys sigs ikey isig st s t' i' = match_sigs ecdsa fuel keys sigs ikey isig st s t i.
Proof.
  induction fuel as [|fuel IH]; intros keys sigs ikey isig st s; destruct sigs; cbn [match_sigs]; try reflexivity.
  destruct (sget isig st); cbn [bind]; [|reflexivity]. destruct (sget ikey st); cbn [bind]; [|reflexivity].
  rewrite CheckSig_same. destruct (CheckSig _ _ _ _ _ _) as [b|]; cbn [bind]; [|reflexivity].
  destruct (keys - 1 <? _); [reflexivity|apply IH].
Qed.

Lemma CheckMultiSig_same op s st n : CheckMultiSig ecdsa op s st t' i' n = CheckMultiSig ecdsa op s st t i n.
Proof.
  unfold CheckMultiSig.
  repeat match goal with |- (do x <- ?e; _) = (do y <- ?e; _) => destruct e; cbn [bind]; [|reflexivity] end.
  cbv zeta.
  repeat match goal with |- (do x <- ?e; _) = (do y <- ?e; _) => destruct e; cbn [bind]; [|reflexivity] end.
  rewrite match_sigs_same. reflexivity.
Qed.

Lemma exec_op_same s f op pc m : exec_op ecdsa s t' i' f op pc m = exec_op ecdsa s t i f op pc m.
Proof.
  unfold exec_op. destruct (stack_op _ _); [reflexivity|]. rewrite CheckMultiSig_same.
  destruct (_ || _)%N; [reflexivity|]. destruct (_ || _)%N; [|reflexivity].
  repeat match goal with |- (do x <- ?e; _) = (do y <- ?e; _) => destruct e; cbn [bind]; [|reflexivity] end.
  rewrite CheckSig_same. reflexivity.
Qed.

Lemma eval_items_same s items : forall m, eval_items ecdsa s t' i' items m = eval_items ecdsa s t i items m.
Proof.
  induction items as [|[[op d] pc] items IH]; intros m; cbn [eval_items]; [reflexivity|].
  assert (E : eval_item ecdsa s t' i' (op, d, pc) m = eval_item ecdsa s t i (op, d, pc) m).
  { unfold eval_item. rewrite exec_op_same. reflexivity. }
  rewrite E. clear E. destruct (eval_item _ _ _ _ _ _); cbn [bind]; [apply IH|reflexivity].
Qed.

Lemma EvalScript_same st s : EvalScript ecdsa st s t' i' = EvalScript ecdsa st s t i.
Proof. unfold EvalScript, EvalScript_. destruct (_ <? _)%N; [reflexivity|]. destruct (raw_iter s) as [items e]. rewrite eval_items_same. reflexivity. Qed.

Lemma VerifyScript_same ss sc flags : VerifyScript ecdsa ss sc t' i' flags = VerifyScript ecdsa ss sc t i flags.
Proof.
  unfold VerifyScript. rewrite EvalScript_same. destruct (EvalScript _ [] _ _ _) as [st|]; cbn [bind]; [|reflexivity].
  rewrite EvalScript_same. destruct (EvalScript _ st _ _ _) as [st2|]; cbn [bind]; [|reflexivity].
  destruct (match st2 with [] => _ | _ => _ end); cbn [bind]; [|reflexivity].
  destruct (_ && _); [|reflexivity]. destruct (is_push_only ss); cbn [bind]; [|reflexivity].
  destruct st as [|v st]; cbn [bind]; [reflexivity|]. rewrite EvalScript_same. reflexivity.
Qed.
End Same.

Lemma VerifyScript_scripts_free ecdsa t t' i ss sc flags : same_but_scripts t t' ->
  VerifyScript ecdsa ss sc t' i flags = VerifyScript ecdsa ss sc t i flags.
Proof. intros S. apply VerifyScript_same. intros s ht. apply Raw_same, S. Qed.

Lemma same_by_position {A B} (f : A -> B) l l' : List.length l' = List.length l ->
  (forall j x x', nth_error l j = Some x -> nth_error l' j = Some x' -> f x' = f x) -> map f l' = map f l.
Proof.
  revert l'. induction l as [|x l IH]; intros [|x' l'] Len H; try discriminate; [reflexivity|].
  cbn [map]. rewrite (H O x x' eq_refl eq_refl), (IH l'); [reflexivity|cbn in Len; lia|].
  intros j y y' Hy Hy'. exact (H (S j) y y' Hy Hy').
Qed.

Lemma filled_same t i s t' : filled t i s t' -> same_but_scripts t t'.
Proof.
  intros (Eo & El & Ev & Len & H). split; [exact Eo|]. split; [exact El|]. split; [exact Ev|].
  split; apply same_by_position; try exact Len; intros j x x' Hx Hx'; apply (H j x x' Hx Hx').
Qed.
