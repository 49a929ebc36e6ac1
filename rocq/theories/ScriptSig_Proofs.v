(** Signature checks of the script machine. *)
From Verif Require Import Base Sha256 Tx_Model Tx_Spec Tx_Proofs Script_Model Script_Spec Script_Proofs
  SigHash_Model SigHash_Spec SigHash_Proofs ScriptEval_Model ScriptEval_Spec ScriptEval_Proofs ScriptEffect_Proofs.
From Coq Require Import ZifyBool ZifyNat ZifyN.

(** ** Leaving out pushes of signatures *)

Definition enc (sig : bytes) : bytes := match encode_op_pushdata sig with Ok p => p | Err _ => [] end.
Definition keep (sigs : list bytes) (o : operation) : bool := forallb (fun sig => negb (bytes_eqb (op_text o) (enc sig))) sigs.

Lemma enc_ok sig : (blen sig < 2 ^ 32)%N -> encode_op_pushdata sig = Ok (enc sig).
Proof. intros H. destruct (push_encoded sig H) as (b & hdr & E & _). unfold enc. rewrite E. reflexivity. Qed.

Lemma enc_spelled sig : (blen sig < 2 ^ 32)%N -> exists c, spelled (Op c (Some sig) (enc sig)).
Proof. intros H. apply enc_ok, shortest_push_encode in H. apply H. Qed.

Lemma cscript_enc sig : (blen sig < 2 ^ 32)%N -> cscript [IData sig] = Ok (enc sig).
Proof. intros H. unfold cscript, objs_ser. cbn [coerce]. rewrite enc_ok by exact H. cbn [bind]. rewrite app_nil_r. reflexivity. Qed.

Lemma keep_iff sigs o : Forall (fun a => (blen a < 2 ^ 32)%N) sigs ->
  keep sigs o = true <-> ~ exists sig, In sig sigs /\ shortest_push sig (op_text o).
Proof.
  intros F. unfold keep. rewrite forallb_forall. rewrite Forall_forall in F. split.
  - intros H (sig & I & S). apply shortest_push_encode in S. specialize (H sig I). rewrite enc_ok in S by auto. inversion S as [E].
    rewrite E, bytes_eqb_refl in H. discriminate.
  - intros H sig I. destruct (bytes_eqb (op_text o) (enc sig)) eqn:E; [|reflexivity]. exfalso. apply H. exists sig. split; [exact I|].
    apply bytes_eqb_eq in E. rewrite E. apply shortest_push_encode, enc_ok. auto.
Qed.

Lemma signed_script_iff sigs co s : Forall (fun a => (blen a < 2 ^ 32)%N) sigs ->
  signed_script sigs co s <-> s = text_of (filter (keep sigs) co).
Proof.
  intros F. unfold signed_script. split.
  - induction 1 as [|o l s P R IH|o l s P R IH]; [reflexivity| |]; cbn [filter]; subst s.
    + destruct (keep sigs o) eqn:E; [apply keep_iff in E; [contradiction|exact F]|]. reflexivity.
    + apply (keep_iff sigs o F) in P. rewrite P. reflexivity.
  - intros ->. induction co as [|o l IH]; [constructor|]. cbn [filter]. destruct (keep sigs o) eqn:E.
    + unfold text_of in *. cbn [map concat]. apply remains_keep; [apply (keep_iff sigs o F), E|exact IH].
    + apply remains_drop; [|exact IH]. assert (~ ~ exists sig, In sig sigs /\ shortest_push sig (op_text o)) as D.
      { intros D. apply (keep_iff sigs o F) in D. congruence. }
      unfold keep in E. assert (existsb (fun sig => bytes_eqb (op_text o) (enc sig)) sigs = true) as X.
      { clear -E. induction sigs as [|a l IH]; [discriminate|]. cbn [forallb existsb] in *. destruct (bytes_eqb (op_text o) (enc a)); [reflexivity|]. apply IH, E. }
      apply existsb_exists in X. destruct X as (sig & I & Q). exists sig. split; [exact I|]. apply bytes_eqb_eq in Q. rewrite Q.
      apply shortest_push_encode, enc_ok. rewrite Forall_forall in F. auto.
Qed.

Lemma splits_text co : Forall spelled co -> splits (map op_text co) (text_of co).
Proof.
  intros F. split; [|reflexivity]. apply Forall_forall. intros c H. apply in_map_iff in H. destruct H as (o & <- & I).
  apply one_op_spelled. exists o. rewrite Forall_forall in F. auto.
Qed.

Lemma filter_map {A B} (f : A -> B) p l : filter p (map f l) = map f (filter (fun x => p (f x)) l).
Proof. induction l as [|x l IH]; [reflexivity|]. cbn [map filter]. destruct (p (f x)); cbn [map]; congruence. Qed.

Lemma delete_one sig co : Forall spelled co -> (blen sig < 2 ^ 32)%N ->
  FindAndDelete (text_of co) (enc sig) = Ok (text_of (filter (keep [sig]) co)).
Proof.
  intros F B. rewrite (FindAndDelete_splits _ _ (map op_text co)); [|apply one_op_spelled; destruct (enc_spelled sig B) as [c E]; eexists; split; [exact E|reflexivity]|apply splits_text, F].
  unfold without, text_of. rewrite filter_map. do 3 f_equal. apply filter_ext. intros o. unfold keep. cbn [forallb]. rewrite andb_true_r. reflexivity.
Qed.

Lemma filter_filter {A} (p q : A -> bool) l : filter p (filter q l) = filter (fun x => q x && p x) l.
Proof. induction l as [|x l IH]; [reflexivity|]. cbn [filter]. destruct (q x); cbn [filter andb]; [destruct (p x)|]; congruence. Qed.

Lemma filter_spelled p co : Forall spelled co -> Forall spelled (filter p co).
Proof. intros F. apply Forall_forall. intros o H. apply filter_In in H. rewrite Forall_forall in F. apply F, H. Qed.

Lemma drop_sigs_ok sigs : forall co isig stack, Forall spelled co -> Forall (fun a => (blen a < 2 ^ 32)%N) sigs ->
  1 <= isig -> (forall j x, nth_error sigs j = Some x -> nth_error stack (isig - 1 + j) = Some x) ->
  drop_sigs (List.length sigs) isig stack (text_of co) = Ok (text_of (filter (keep sigs) co)).
Proof.
  induction sigs as [|sig sigs IH]; intros co isig stack F B L N.
  - cbn [List.length drop_sigs]. do 2 f_equal. clear. induction co as [|o co IH]; [reflexivity|]. cbn [filter keep forallb]. congruence.
  - inversion B; subst. cbn [List.length drop_sigs]. unfold sget. rewrite <- (Nat.add_0_r (isig - 1)), (N 0 sig eq_refl). cbn [bind].
    rewrite cscript_enc by assumption. cbn [bind]. rewrite delete_one by assumption. cbn [bind].
    rewrite IH; [|apply filter_spelled, F|assumption|lia|].
    + rewrite filter_filter. do 2 f_equal. apply filter_ext. intros o. unfold keep. cbn [forallb]. rewrite andb_true_r. reflexivity.
    + intros j x E. replace (Datatypes.S isig - 1 + j) with (isig - 1 + Datatypes.S j) by lia. apply N. exact E.
Qed.

(** ** One signature *)

Section Sig.
Context (ecdsa : bytes -> bytes -> bytes -> bool) (t : tx) (i : nat) (W : wf_tx t) (I : i < List.length (t_vin t)).

Lemma CheckSig_signed s sig pk : (exists chunks, splits chunks s) -> wf_script s ->
  exists b, CheckSig ecdsa sig pk s t (Z.of_nat i) = Ok b /\ (b = true <-> signed_by ecdsa t i s pk sig).
Proof.
  intros S Ws. unfold CheckSig, signed_by. destruct (rev sig) as [|x body] eqn:R.
  - exists false. split; [reflexivity|]. split; [discriminate|]. intros (body & x & -> & _). rewrite rev_app_distr in R. discriminate.
  - assert (sig = rev body ++ [x]) as -> by (rewrite <- (rev_involutive sig), R; reflexivity).
    set (ht := Z.of_N (bN x)). assert (H : (0 <= ht < 2 ^ 32)%Z) by (unfold ht; pose proof (bN_lt x); lia).
    assert (U : forall (Q : bytes -> byte -> Prop), (exists body0 x0, rev body ++ [x] = body0 ++ [x0] /\ Q body0 x0) <-> Q (rev body) x).
    { intros Q. split; [intros (b0 & x0 & E & HQ); apply app_inj_tail in E; destruct E as [-> ->]; exact HQ|intros HQ; eauto]. }
    cut (exists b, (do (h, err) <- RawSignatureHash s t (Z.of_nat i) ht; Ok (ecdsa pk h (rev body))) = Ok b /\
      (b = true <-> (exists m, signs s t i ht m /\ ecdsa pk (Hash m) (rev body) = true) \/
       (base ht = 3%Z /\ List.length (t_vout t) <= i /\ ecdsa pk (x01 :: repeat x00 31) (rev body) = true))).
    { intros (b & E1 & E2). exists b. split; [exact E1|]. rewrite E2. symmetry.
      apply (U (fun body x => (exists m, signs s t i (Z.of_N (bN x)) m /\ ecdsa pk (Hash m) body = true) \/
       (base (Z.of_N (bN x)) = 3%Z /\ List.length (t_vout t) <= i /\ ecdsa pk (x01 :: repeat x00 31) body = true))). }
    destruct (Z.eq_dec (base ht) 3) as [B|B]; [destruct (Nat.le_gt_cases (List.length (t_vout t)) i) as [O|O]|].
    + rewrite Raw_single_bug by assumption. cbn [bind]. eexists. split; [reflexivity|]. split; [right; auto|].
      intros [(m & M & _)|(_ & _ & E)]; [apply signs_eq in M; lia|exact E].
    + destruct (signs_total s t i ht W Ws S I ltac:(lia)) as [m M]. assert (SH : SignatureHash s t (Z.of_nat i) ht = Ok (Hash m)) by (apply SignatureHash_iff; eauto).
      unfold SignatureHash in SH. destruct (RawSignatureHash s t (Z.of_nat i) ht) as [[h e]|] eqn:RS; [|discriminate]. cbn [bind] in *. destruct e; [discriminate|].
      assert (h = Hash m) as -> by congruence. eexists. split; [reflexivity|]. split; [left; eauto|].
      intros [(m' & M' & E)|(_ & O' & _)]; [|lia]. rewrite (signs_unique _ _ _ _ _ _ M M'). exact E.
    + destruct (signs_total s t i ht W Ws S I ltac:(lia)) as [m M]. assert (SH : SignatureHash s t (Z.of_nat i) ht = Ok (Hash m)) by (apply SignatureHash_iff; eauto).
      unfold SignatureHash in SH. destruct (RawSignatureHash s t (Z.of_nat i) ht) as [[h e]|] eqn:RS; [|discriminate]. cbn [bind] in *. destruct e; [discriminate|].
      assert (h = Hash m) as -> by congruence. eexists. split; [reflexivity|]. split; [left; eauto|].
      intros [(m' & M' & E)|(B' & _)]; [|lia]. rewrite (signs_unique _ _ _ _ _ _ M M'). exact E.
Qed.

Lemma CheckSig_code s1 s2 sig pk : FindAndDelete s1 [xab] = FindAndDelete s2 [xab] ->
  CheckSig ecdsa sig pk s1 t (Z.of_nat i) = CheckSig ecdsa sig pk s2 t (Z.of_nat i).
Proof. intros E. unfold CheckSig. destruct (rev sig); [reflexivity|]. rewrite !Raw_eq by assumption. rewrite E. reflexivity. Qed.

Definition sep : operation := Op 0xab None [xab].
Lemma sep_spelled : spelled sep.
Proof. apply (spelled_plain xab). reflexivity. Qed.

Lemma keep_sep sigs : Forall (fun a => (blen a < 2 ^ 32)%N) sigs -> keep sigs sep = true.
Proof.
  intros F. apply keep_iff; [exact F|]. intros (sig & _ & [[c S] _]). cbn [sep op_text] in S.
  destruct (spelled_size _ _ _ S []) as (b & hdr & h & E & B & L & _). assert (b = xab) as -> by congruence. subst c. cbn in L. lia.
Qed.

Lemma code_sep co : Forall spelled co -> FindAndDelete (text_of (sep :: co)) [xab] = FindAndDelete (text_of co) [xab].
Proof.
  intros F. rewrite (FindAndDelete_splits _ _ _ codesep_op (splits_text (sep :: co) ltac:(constructor; [apply sep_spelled|exact F]))).
  rewrite (FindAndDelete_splits _ _ _ codesep_op (splits_text co F)). reflexivity.
Qed.

(** [co0] is [co], possibly with the OP_CODESEPARATOR before it. *)
Definition tail_of (co0 co : list operation) : Prop := co0 = co \/ co0 = sep :: co.

Lemma tail_filter sigs co0 co : Forall (fun a => (blen a < 2 ^ 32)%N) sigs -> tail_of co0 co -> tail_of (filter (keep sigs) co0) (filter (keep sigs) co).
Proof. intros F [->| ->]; [left; reflexivity|]. right. cbn [filter]. rewrite keep_sep by exact F. reflexivity. Qed.

Lemma text_filter_len p co : List.length (text_of (filter p co)) <= List.length (text_of co).
Proof.
  clear. unfold text_of. induction co as [|o co IH]; [apply le_n|]. cbn [filter]. destruct (p o); cbn [map concat]; rewrite ?app_length; lia.
Qed.

Definition checked (co : list operation) (pk sig : bytes) : bool :=
  match CheckSig ecdsa sig pk (text_of co) t (Z.of_nat i) with Ok b => b | Err _ => false end.

Lemma CheckSig_tail co0 co sig pk : Forall spelled co -> wf_script (text_of co) -> tail_of co0 co ->
  CheckSig ecdsa sig pk (text_of co0) t (Z.of_nat i) = Ok (checked co pk sig) /\
  (checked co pk sig = true <-> signed_by ecdsa t i (text_of co) pk sig).
Proof.
  intros F Ws T. destruct (CheckSig_signed (text_of co) sig pk) as (b & E & B); [eexists; apply splits_text, F|exact Ws|].
  unfold checked. rewrite E. split; [|exact B]. destruct T as [->| ->]; [exact E|]. rewrite <- E. apply CheckSig_code, code_sep, F.
Qed.

(** ** Several signatures *)

Lemma Forall2_len {A B} (R : A -> B -> Prop) a b : Forall2 R a b -> List.length a = List.length b.
Proof. induction 1; cbn [List.length]; congruence. Qed.


Fixpoint greedy (chk : bytes -> bytes -> bool) (ss ks : list bytes) : bool :=
  match ss with
  | [] => true
  | s :: ss' =>
    match ks with
    | [] => false
    | k :: ks' =>
      let ss1 := if chk k s then ss' else ss in
      if List.length ks' <? List.length ss1 then false else greedy chk ss1 ks'
    end
  end.
Lemma greedy_cons chk s ss k ks : greedy chk (s :: ss) (k :: ks) =
  let ss1 := if chk k s then ss else s :: ss in if List.length ks <? List.length ss1 then false else greedy chk ss1 ks.
Proof. reflexivity. Qed.

Lemma picked_length {A} (k l : list A) : picked k l -> List.length k <= List.length l.
Proof. induction 1; cbn [List.length]; lia. Qed.

Lemma picked_tail {A} (x : A) k l : picked (x :: k) l -> picked k l.
Proof. remember (x :: k) as xk. intros H. revert x k Heqxk. induction H; intros; try discriminate; [inversion Heqxk; subst|]; constructor; eauto. Qed.

Lemma greedy_iff chk ks : forall ss, greedy chk ss ks = true <-> exists ks', picked ks' ks /\ Forall2 (fun s k => chk k s = true) ss ks'.
Proof.
  assert (N : forall ks : list bytes, picked [] ks) by (induction ks0; constructor; assumption).
  induction ks as [|k ks IH]; intros [|s ss].
  - split; [|reflexivity]. intros _. exists []. split; constructor.
  - split; [discriminate|]. intros (ks' & P & F). inversion P; subst. inversion F.
  - split; [|reflexivity]. intros _. exists []. split; [apply N|constructor].
  - rewrite greedy_cons. cbv zeta. destruct (chk k s) eqn:C.
    + assert (G : (if List.length ks <? List.length ss then false else greedy chk ss ks) = true <-> greedy chk ss ks = true).
      { destruct (List.length ks <? List.length ss) eqn:L; [|reflexivity]. split; [discriminate|]. intros H. apply IH in H. destruct H as (ks' & P & F).
        apply picked_length in P. apply Forall2_len in F. lia. }
      rewrite G, IH. split.
      * intros (ks' & P & F). exists (k :: ks'). split; [constructor; exact P|constructor; assumption].
      * intros (ks' & P & F). inversion F as [|? k' ? kt H1 H2]; subst. exists kt. split; [|exact H2].
        inversion P; subst; [assumption|]. eapply picked_tail; eauto.
    + assert (G : (if List.length ks <? List.length (s :: ss) then false else greedy chk (s :: ss) ks) = true <-> greedy chk (s :: ss) ks = true).
      { destruct (List.length ks <? List.length (s :: ss)) eqn:L; [|reflexivity]. split; [discriminate|]. intros H. apply IH in H. destruct H as (ks' & P & F).
        apply picked_length in P. apply Forall2_len in F. cbn [List.length] in *. lia. }
      rewrite G, IH. split.
      * intros (ks' & P & F). exists ks'. split; [constructor; exact P|exact F].
      * intros (ks' & P & F). exists ks'. split; [|exact F]. inversion P; subst; [|assumption]. inversion F; subst. congruence.
Qed.

Lemma match_sigs_ok chk stack script : (forall k s, CheckSig ecdsa s k script t (Z.of_nat i) = Ok (chk k s)) ->
  forall ks ss ikey isig, 1 <= ikey -> 1 <= isig -> List.length ss <= List.length ks ->
  (forall j x, nth_error ks j = Some x -> nth_error stack (ikey - 1 + j) = Some x) ->
  (forall j x, nth_error ss j = Some x -> nth_error stack (isig - 1 + j) = Some x) ->
  match_sigs ecdsa (List.length ks) (List.length ks) (List.length ss) ikey isig stack script t (Z.of_nat i) = Ok (greedy chk ss ks).
Proof.
  intros C. induction ks as [|k ks IH]; intros ss ikey isig K S L NK NS.
  - destruct ss; [reflexivity|cbn [List.length] in L; lia].
  - destruct ss as [|s ss]; [reflexivity|]. rewrite greedy_cons. cbn [List.length match_sigs]. unfold sget.
    rewrite <- (Nat.add_0_r (isig - 1)), (NS 0 s eq_refl). cbn [bind]. rewrite <- (Nat.add_0_r (ikey - 1)), (NK 0 k eq_refl). cbn [bind].
    rewrite C. cbn [bind]. cbv zeta. replace (Datatypes.S (List.length ks) - 1) with (List.length ks) by lia.
    assert (NK' : forall j x, nth_error ks j = Some x -> nth_error stack (Datatypes.S ikey - 1 + j) = Some x).
    { intros j x E. replace (Datatypes.S ikey - 1 + j) with (ikey - 1 + Datatypes.S j) by lia. apply NK, E. }
    cbn [List.length] in L. destruct (chk k s) eqn:Q.
    + destruct (List.length ks <? List.length ss) eqn:L2; [reflexivity|]. apply IH; try lia; [exact NK'|].
      intros j x E. replace (Datatypes.S isig - 1 + j) with (isig - 1 + Datatypes.S j) by lia. apply NS, E.
    + change (Datatypes.S (List.length ss)) with (List.length (s :: ss)).
      destruct (List.length ks <? List.length (s :: ss)) eqn:L2; [reflexivity|]. apply IH; try lia; [exact NK'|exact NS].
Qed.

Lemma nth_mid {A} (a b c : list A) j x : nth_error b j = Some x -> nth_error (a ++ b ++ c) (List.length a + j) = Some x.
Proof.
  intros H. rewrite nth_error_app2 by lia. replace (_ + j - _) with j by lia. rewrite nth_error_app1; [exact H|]. apply nth_error_Some. congruence.
Qed.

Lemma CheckMultiSig_shape op co0 co n keys k sigs extra r nops :
  Forall spelled co -> wf_script (text_of co) -> tail_of co0 co ->
  operand n (Z.of_nat (List.length keys)) -> operand k (Z.of_nat (List.length sigs)) -> List.length sigs <= List.length keys <= 20 ->
  Forall (fun a => (blen a < 2 ^ 32)%N) sigs ->
  CheckMultiSig ecdsa op (text_of co0) (n :: keys ++ k :: sigs ++ extra :: r) t (Z.of_nat i) nops =
  if (201 <? nops + Z.of_nat (List.length keys))%Z then Err MaxOpCountError
  else let b := greedy (fun pk sig => checked (filter (keep sigs) co) pk sig) sigs keys in
    if negb b && (op =? 0xaf)%N then Err VerifyOpFailedError
    else Ok (if (op =? 0xae)%N then of_bool b :: r else r, (nops + Z.of_nat (List.length keys))%Z).
Proof.
  intros F Ws T N K L B.
  set (st := n :: keys ++ k :: sigs ++ extra :: r).
  assert (LS : List.length st = 3 + List.length keys + List.length sigs + List.length r).
  { unfold st. cbn [List.length]. rewrite app_length. cbn [List.length]. rewrite app_length. cbn [List.length]. lia. }
  unfold CheckMultiSig. destruct (List.length st <? 1) eqn:E0; [lia|]. cbn [bind]. change (sget 1 st) with (Ok n). cbn [bind].
  apply CastToBigNum_iff in N, K. rewrite N. cbn [bind].
  destruct ((Z.of_nat (List.length keys) <? 0) || (20 <? Z.of_nat (List.length keys)))%Z eqn:E1; [lia|]. cbn [bind].
  destruct (201 <? nops + Z.of_nat (List.length keys))%Z eqn:E2; [reflexivity|]. cbn [bind]. rewrite !Nat2Z.id.
  match goal with |- context[if ?c then _ else _] => destruct c eqn:E3; [lia|] end. cbn [bind].
  assert (SG : sget (2 + List.length keys) st = Ok k).
  { unfold sget. pose proof (nth_mid (n :: keys) [k] (sigs ++ extra :: r) 0 k eq_refl) as X. cbn [List.length app] in X.
    replace (2 + List.length keys - 1) with (Datatypes.S (List.length keys) + 0) by lia. unfold st. rewrite X. reflexivity. }
  rewrite SG. cbn [bind]. rewrite K. cbn [bind].
  match goal with |- context[if ?c then Err ArgumentsInvalidError else Ok tt] => destruct c eqn:E4; [lia|] end. cbn [bind]. rewrite !Nat2Z.id.
  match goal with |- context[if ?c then Err ArgumentsInvalidError else if ?d then _ else _] => destruct c eqn:E5; [lia|]; destruct d eqn:E6; [lia|] end. cbn [bind].
  assert (F0 : Forall spelled co0) by (destruct T as [->| ->]; [exact F|constructor; [apply sep_spelled|exact F]]).
  rewrite (drop_sigs_ok sigs co0 (2 + List.length keys + 1)); [|exact F0|exact B|lia|].
  2:{ intros j x E. pose proof (nth_mid (n :: keys ++ [k]) sigs (extra :: r) j x E) as X. cbn [List.length] in X. rewrite app_length in X. cbn [List.length app] in X.
      rewrite <- app_assoc in X. cbn [app] in X. replace (2 + List.length keys + 1 - 1 + j) with (Datatypes.S (List.length keys + 1) + j) by lia. exact X. }
  cbn [bind].
  assert (CK : forall pk sig, CheckSig ecdsa sig pk (text_of (filter (keep sigs) co0)) t (Z.of_nat i) = Ok (checked (filter (keep sigs) co) pk sig)).
  { intros pk sig. apply CheckSig_tail; [apply filter_spelled, F| |apply tail_filter; assumption].
    unfold wf_script, blen in *. pose proof (text_filter_len (keep sigs) co). lia. }
  rewrite (match_sigs_ok _ st _ CK keys sigs 2 (2 + List.length keys + 1)); [|lia|lia|lia| |].
  2:{ intros j x E. apply (nth_mid [n] keys (k :: sigs ++ extra :: r) j x E). }
  2:{ intros j x E. pose proof (nth_mid (n :: keys ++ [k]) sigs (extra :: r) j x E) as X. cbn [List.length] in X. rewrite app_length in X. cbn [List.length app] in X.
      rewrite <- app_assoc in X. cbn [app] in X. replace (2 + List.length keys + 1 - 1 + j) with (Datatypes.S (List.length keys + 1) + j) by lia. exact X. }
  cbn [bind]. cbv zeta. destruct (negb _ && _) eqn:E7; [reflexivity|]. cbn [bind].
  assert (SK : skipn (2 + List.length keys + 1 + List.length sigs) st = r).
  { replace (2 + List.length keys + 1 + List.length sigs) with (List.length (n :: keys ++ k :: sigs ++ [extra])).
    - unfold st. replace (n :: keys ++ k :: sigs ++ extra :: r) with ((n :: keys ++ k :: sigs ++ [extra]) ++ r).
      + rewrite skipn_app, skipn_all, Nat.sub_diag. reflexivity.
      + cbn [app]. rewrite <- app_assoc. cbn [app]. rewrite <- app_assoc. reflexivity.
    - cbn [List.length]. rewrite app_length. cbn [List.length]. rewrite app_length. cbn [List.length]. lia. }
  rewrite SK. reflexivity.
Qed.

Lemma CheckMultiSig_args op script st nops x : CheckMultiSig ecdsa op script st t (Z.of_nat i) nops = Ok x ->
  exists sigs keys r, multisig_args st sigs keys r.
Proof.
  unfold CheckMultiSig. destruct st as [|n st]; [discriminate|]. change (List.length (n :: st) <? 1) with false. cbn [bind]. change (sget 1 (n :: st)) with (Ok n). cbn [bind].
  destruct (CastToBigNum n) as [kz|] eqn:N; [|discriminate]. cbn [bind].
  destruct ((kz <? 0) || (20 <? kz))%Z eqn:E1; [discriminate|]. cbn [bind].
  destruct (201 <? nops + kz)%Z; [discriminate|]. cbn [bind].
  match goal with |- context[if ?c then Err ArgumentsInvalidError else Ok tt] => destruct c eqn:E2; [discriminate|] end. cbn [bind].
  unfold sget at 1. replace (2 + Z.to_nat kz - 1) with (Datatypes.S (Z.to_nat kz)) by lia. cbn [nth_error].
  destruct (nth_error st (Z.to_nat kz)) as [k|] eqn:EK; [|discriminate]. cbn [bind].
  destruct (CastToBigNum k) as [sz|] eqn:K; [|discriminate]. cbn [bind].
  destruct ((sz <? 0) || (kz <? sz))%Z eqn:E3; [discriminate|]. cbn [bind].
  match goal with |- context[if ?c then Err ArgumentsInvalidError else if ?d then _ else _] => destruct c eqn:E5; [discriminate|]; destruct d eqn:E6; [discriminate|] end.
  intros _. apply nth_error_split in EK. destruct EK as (keys & st2 & -> & LK).
  apply CastToBigNum_iff in N, K. cbn [List.length] in E6. rewrite app_length in E6. cbn [List.length] in E6.
  assert (EX : exists extra, nth_error st2 (Z.to_nat sz) = Some extra) by (destruct (nth_error st2 (Z.to_nat sz)) eqn:E; [eauto|apply nth_error_None in E; lia]).
  destruct EX as [extra EX]. apply nth_error_split in EX. destruct EX as (sigs & r & -> & LS).
  exists sigs, keys, r, n, k, extra. split; [reflexivity|].
  rewrite LK, LS, !Z2Nat.id by lia. repeat split; try apply N; try apply K; lia.
Qed.

Lemma quorum_iff co sigs keys : Forall spelled co -> wf_script (text_of co) ->
  greedy (fun pk sig => checked co pk sig) sigs keys = true <-> quorum ecdsa t i (text_of co) sigs keys.
Proof.
  intros F Ws. rewrite greedy_iff. unfold quorum.
  assert (X : forall ss kk, Forall2 (fun s k => checked co k s = true) ss kk <-> Forall2 (fun sig pk => signed_by ecdsa t i (text_of co) pk sig) ss kk).
  { intros ss kk. split; induction 1; constructor; auto; apply (CheckSig_tail co co _ _ F Ws (or_introl eq_refl)); assumption. }
  split; intros (ks & P & Q); exists ks; (split; [exact P|]); apply X, Q.
Qed.
End Sig.
