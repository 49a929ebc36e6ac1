(** Lemmas about iterating over scripts (C154). *)
From Verif Require Import Base Sha256 Sha1 Ripemd160 Tx_Model Tx_Spec Tx_Proofs Script_Model Script_Spec Script_Proofs Base58_Spec Base58_Proofs
  SigHash_Model SigHash_Spec SigHash_Proofs ScriptEval_Model ScriptEval_Spec ScriptEval_Proofs ScriptVerify_Spec ScriptVerify_Proofs ScriptRead_Spec.
From Coq Require Import ZifyBool ZifyNat ZifyN.

(** Where no operation begins, the iteration ends with an error. *)
Lemma stuck i x r : op_size (x :: r) = None ->
  exists e, raw_from i (x :: r) = ([], Some e) /\
    (e = CScriptInvalidError <-> length_cut (x :: r)) /\ (e = CScriptTruncatedPushDataError <-> ~ length_cut (x :: r)).
Proof.
  intros H. unfold raw_from. cbn [op_size List.length] in *. rewrite raw_loop_S.
  destruct (78 <? bN x)%N eqn:E; [discriminate|].
  assert (Q : (exists e, push_size (bN x) r = Err e) <-> length_cut (x :: r)).
  { unfold push_size, length_cut. split.
    - intros [e P]. destruct (bN x <? 76)%N eqn:E1; [discriminate|]. destruct (bN x =? 76)%N eqn:E2.
      + assert (x = x4c) as -> by (apply bN_inj; change (bN x4c) with 76%N; lia). destruct r; [|discriminate].
        exists x4c, [], 1. split; [reflexivity|]. split; [cbn [In]; auto|cbn; lia].
      + destruct (bN x =? 77)%N eqn:E3.
        * assert (x = x4d) as -> by (apply bN_inj; change (bN x4d) with 77%N; lia).
          exists x4d, r, 2. split; [reflexivity|]. split; [cbn [In]; auto|].
          destruct r as [|? [|? ?]]; try discriminate; cbn; lia.
        * assert (x = x4e) as -> by (apply bN_inj; change (bN x4e) with 78%N; lia).
          exists x4e, r, 4. split; [reflexivity|]. split; [cbn [In]; auto|].
          destruct r as [|? [|? [|? [|? ?]]]]; try discriminate; cbn; lia.
    - intros (x' & r' & n & X & I & L). injection X as <- <-. cbn [In] in I.
      destruct I as [I|[I|[I|[]]]]; injection I as <- <-.
      + destruct r; [|cbn in L; lia]. exists CScriptInvalidError. reflexivity.
      + destruct r as [|? [|? ?]]; try (cbn in L; lia); exists CScriptInvalidError; reflexivity.
      + destruct r as [|? [|? [|? [|? ?]]]]; try (cbn in L; lia); exists CScriptInvalidError; reflexivity. }
  destruct (push_size (bN x) r) as [[[l h] s2]|e] eqn:P.
  - destruct (blen s2 <? l)%N; [|discriminate]. exists CScriptTruncatedPushDataError. split; [reflexivity|].
    assert (N : ~ length_cut (x :: r)) by (intros C; apply Q in C as [e C]; discriminate).
    split; split; intros; try discriminate; tauto.
  - apply push_size_err in P as ->. exists CScriptInvalidError. split; [reflexivity|].
    assert (C : length_cut (x :: r)) by (apply Q; eauto).
    split; split; intros; try discriminate; tauto.
Qed.

Lemma op_size_none s : op_size s = None <-> forall o r, spelled o -> s <> op_text o ++ r.
Proof.
  split.
  - intros H o r S ->. rewrite (spelled_op_size o r S) in H. discriminate.
  - intros H. destruct (op_size s) as [n|] eqn:E; [|reflexivity]. destruct (op_size_spelled s n E) as (o & S & T).
    exfalso. apply (H o (skipn n s) S). rewrite T. symmetry. apply firstn_skipn.
Qed.

(** Every string is operations followed by something that does not begin with one. *)
Lemma read_exists s : exists ops rest, read_up_to s ops rest.
Proof.
  remember (List.length s) as n eqn:L. revert s L. induction n as [n IH] using lt_wf_ind. intros s ->.
  destruct (op_size s) as [sz|] eqn:E.
  - destruct (op_size_spelled s sz E) as (o & S & T). assert (X : s = op_text o ++ skipn sz s) by (rewrite T; symmetry; apply firstn_skipn).
    pose proof (spelled_nonempty o S) as NE. assert (LT : List.length (skipn sz s) < List.length s).
    { rewrite X at 2. rewrite app_length. destruct (op_text o); [congruence|]. cbn [List.length]. lia. }
    destruct (IH _ LT (skipn sz s) eq_refl) as (ops & rest & F & Y & N). exists (o :: ops), rest. split; [constructor; assumption|].
    split; [|exact N]. unfold text_of in *. cbn [map concat]. rewrite <- app_assoc, <- Y. exact X.
  - exists [], s. split; [constructor|]. split; [reflexivity|]. apply op_size_none, E.
Qed.

Lemma read_unique s a r b r' : read_up_to s a r -> read_up_to s b r' -> a = b /\ r = r'.
Proof.
  intros [F [-> N]]. revert b. induction F as [|o a H F IH]; intros b [G [E N']]; unfold text_of in *; cbn [map concat app] in *.
  - inversion G as [|o' b' H' G']; subst; [auto|]. exfalso. cbn [map concat] in *. eapply N; [exact H'|]. rewrite <- app_assoc. reflexivity.
  - destruct b as [|o' b'].
    + exfalso. cbn [map concat app] in E. rewrite <- app_assoc in E. eapply N'; [exact H|]. symmetry. exact E.
    + inversion G; subst. cbn [map concat] in E. rewrite <- !app_assoc in E.
      destruct (spelled_prefix o o' _ _ H ltac:(assumption) E) as [-> E'].
      destruct (IH b') as [-> ->]; [split; [assumption|split; assumption]|]. auto.
Qed.

Lemma raw_read ops rest : Forall spelled ops -> forall i,
  raw_from i (text_of ops ++ rest) =
  (items_of i ops ++ fst (raw_from (i + List.length (text_of ops)) rest), snd (raw_from (i + List.length (text_of ops)) rest)).
Proof.
  induction 1 as [|o ops H F IH]; intros i; unfold text_of in *; cbn [map concat items_of app List.length].
  - rewrite Nat.add_0_r. destruct (raw_from i rest); reflexivity.
  - rewrite <- app_assoc. rewrite spelled_step by exact H. rewrite IH. cbn [fst snd app]. rewrite app_length, Nat.add_assoc. reflexivity.
Qed.

Lemma items_lists ops : lists (items_of 0 ops) ops.
Proof.
  split.
  - generalize 0. induction ops as [|o ops IH]; intros k; [reflexivity|]. cbn [items_of map fst]. f_equal. apply IH.
  - assert (G : forall ops j k c d i, nth_error (items_of j ops) k = Some (c, d, i) -> i = j + List.length (text_of (firstn k ops))).
    { clear. induction ops as [|o ops IH]; intros j [|k] c d i; cbn [items_of nth_error firstn]; try discriminate.
      - intros E. injection E as _ _ <-. cbn. lia.
      - intros E. apply IH in E. unfold text_of in *. cbn [map concat]. rewrite app_length. lia. }
    intros k c d i E. apply (G _ _ _ _ _ _ E).
Qed.

Lemma raw_iter_reads s ops rest : read_up_to s ops rest ->
  exists items e, raw_iter s = (items, e) /\ lists items ops /\ (e = None <-> rest = []) /\
    (rest <> [] -> (e = Some CScriptInvalidError <-> length_cut rest) /\ (e = Some CScriptTruncatedPushDataError <-> ~ length_cut rest)).
Proof.
  intros (F & -> & N). change (raw_iter (text_of ops ++ rest)) with (raw_from 0 (text_of ops ++ rest)). rewrite raw_read by exact F.
  apply op_size_none in N. destruct rest as [|x r].
  - exists (items_of 0 ops), None. split; [cbn; rewrite app_nil_r; reflexivity|]. split; [apply items_lists|]. split; [tauto|congruence].
  - destruct (stuck (0 + List.length (text_of ops)) x r N) as (e & -> & C1 & C2). cbn [fst snd]. rewrite app_nil_r.
    exists (items_of 0 ops), (Some e). split; [reflexivity|]. split; [apply items_lists|]. split; [split; discriminate|]. intros _.
    split; [rewrite <- C1|rewrite <- C2]; split; congruence.
Qed.

Lemma cook_gives o : spelled o -> forall i, gives o (cook (op_code o, op_data o, i)).
Proof.
  intros S i. unfold gives. destruct o as [c d t]. cbn [op_code op_data]. destruct d as [d|]; cbn [cook].
  - split; [intros d' E; congruence|]. split; discriminate.
  - split; [discriminate|]. assert (c <> 0)%N by (inversion S; subst; lia). unfold is_small_int, decode_op_n.
    split; intros _ R; destruct ((81 <=? c) && (c <=? 96))%N eqn:E1; destruct (c =? 0)%N eqn:E2; try lia; cbn [orb]; try reflexivity.
    f_equal. lia.
Qed.

Lemma script_iter_reads s ops rest : read_up_to s ops rest ->
  exists l e, script_iter s = (l, e) /\ Forall2 gives ops l /\ (e = None <-> rest = []) /\
    (rest <> [] -> (e = Some CScriptInvalidError <-> length_cut rest) /\ (e = Some CScriptTruncatedPushDataError <-> ~ length_cut rest)).
Proof.
  intros R. destruct (raw_iter_reads s ops rest R) as (items & e & E & [M _] & C). unfold script_iter. rewrite E.
  exists (map cook items), e. split; [reflexivity|]. split; [|exact C]. destruct R as [F _].
  clear -F M. revert items M. induction F as [|o ops S F IH]; intros [|[[c d] i] items] M; try discriminate; [constructor|].
  cbn [map fst] in M. injection M as -> -> M. constructor; [apply cook_gives, S|]. apply IH, M.
Qed.

Lemma is_valid_iff s : script_is_valid s = true <-> exists ops, reads_as s ops.
Proof. unfold script_is_valid. rewrite <- reads_exists. destruct (snd (raw_iter s)); split; congruence. Qed.

Lemma unspendable_iff s : is_unspendable s = true <-> exists r, s = x6a :: r.
Proof.
  unfold is_unspendable. destruct s as [|b s]; [split; [discriminate|intros [r H]; discriminate]|].
  rewrite N.eqb_eq. split.
  - intros H. exists s. f_equal. apply bN_inj. exact H.
  - intros [r H]. injection H as -> _. reflexivity.
Qed.
