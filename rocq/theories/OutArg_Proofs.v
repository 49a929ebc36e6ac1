(** Proofs about [parse_outpoint] of Chain_Model.v: what it accepts. *)
From Verif Require Import Base Hex_Model Tx_Model Tx_Spec Rpc_Spec Rpc_Model RpcUse_Proofs Chain_Model ChainPipe_Proofs OutArg_Spec.
From Coq Require Import ZifyBool ZifyNat ZifyN.
#[local] Open Scope string_scope.

Lemma app_s_assoc a b c : (a ++ b) ++ c = a ++ b ++ c.
Proof. induction a; cbn; congruence. Qed.
Lemma app_s_nil a : a ++ "" = a.
Proof. induction a; cbn; congruence. Qed.

(** ** Digits *)

Lemma digit_go b acc c s k : N_of_ascii c = (48 + k)%N -> (k < 10)%N -> py_digits b acc (String c s) = py_digits false (10 * acc + k) s.
Proof. intros E K. rewrite digit_step by lia. f_equal. lia. Qed.

Definition continued (acc : N) (ds : list Z) : Z := fold_left (fun n d => 10 * n + d)%Z ds (Z.of_N acc).
Lemma continued_cons acc d k ds : d = Z.of_N k -> continued acc (d :: ds) = continued (10 * acc + k) ds.
Proof. intros ->. unfold continued. cbn [fold_left]. f_equal. lia. Qed.

Lemma decimal_code c d : decimal c d -> exists k, d = Z.of_N k /\ N_of_ascii c = (48 + k)%N /\ (k < 10)%N.
Proof. intros (E & R). exists (Z.to_N d). lia. Qed.
Lemma code_decimal c : ((48 <=? N_of_ascii c) && (N_of_ascii c <=? 57))%N = true -> decimal c (Z.of_N (N_of_ascii c - 48)).
Proof. intros H. unfold decimal. lia. Qed.

Lemma digits_both s : forall acc n,
  (py_digits true acc s = Ok n <-> exists ds, digits_in s ds /\ Z.of_N n = continued acc ds) /\
  (py_digits false acc s = Ok n <-> (s = "" /\ n = acc) \/ exists s' ds, (s = s' \/ s = String "_" s') /\ digits_in s' ds /\ Z.of_N n = continued acc ds).
Proof.
  induction s as [|c s IH]; intros acc n.
  - cbn [py_digits]. split; split.
    + discriminate.
    + intros (ds & D & _). inversion D.
    + intros H. inversion H; subst. left. auto.
    + intros [(_ & ->)|(s' & ds & [<-|X] & D & _)]; [reflexivity|inversion D|discriminate X].
  - assert (py_digits true acc (String c s) = Ok n <-> exists ds, digits_in (String c s) ds /\ Z.of_N n = continued acc ds) as T.
    { split.
      - cbn [py_digits negb]. rewrite andb_false_r. destruct (_ && _)%N eqn:B; [|discriminate]. intros H. apply (proj2 (IH _ _)) in H. apply code_decimal in B as D.
        destruct H as [(-> & ->)|(s' & ds & S & D' & E)].
        + exists [Z.of_N (N_of_ascii c - 48)]. split; [constructor; exact D|]. unfold continued. cbn [fold_left]. lia.
        + exists (Z.of_N (N_of_ascii c - 48) :: ds). split; [|rewrite (continued_cons _ _ _ _ eq_refl); exact E].
          destruct S as [->| ->]; constructor; assumption.
      - intros (ds & D & E). inversion D as [c' d Dc|c' d s' ds' Dc D'|c' d s' ds' Dc D']; subst; destruct (decimal_code _ _ Dc) as (k & Ek & Ck & Lk);
          rewrite (digit_go true acc c _ k Ck Lk); rewrite (continued_cons acc _ k _ Ek) in E; apply (proj2 (IH _ _)).
        + left. split; [reflexivity|]. unfold continued in E. cbn [fold_left] in E. lia.
        + right. exists s, ds'. auto.
        + right. exists s', ds'. auto. }
    split; [exact T|]. split.
    + intros H. right. cbn [py_digits negb] in H. destruct (_ && _)%N eqn:B in H.
      * assert (py_digits true acc (String c s) = Ok n) as H' by (cbn [py_digits]; rewrite B; exact H). apply T in H' as (ds & D & E). exists (String c s), ds. auto.
      * rewrite andb_true_r in H. destruct (Ascii.eqb c "_") eqn:U; [|discriminate H]. apply Ascii.eqb_eq in U. subst c. apply (proj1 (IH _ _)) in H as (ds & D & E). exists s, ds. auto.
    + intros [(X & _)|(s' & ds & [<-|X] & D & E)]; [discriminate X| |].
      * assert (py_digits true acc (String c s) = Ok n) as H by (apply T; eauto).
        inversion D as [c' d Dc|c' d s1 ds' Dc D'|c' d s1 ds' Dc D']; subst; destruct (decimal_code _ _ Dc) as (k & Ek & Ck & Lk);
          rewrite (digit_go false acc c _ k Ck Lk); rewrite (digit_go true acc c _ k Ck Lk) in H; exact H.
      * inversion X; subst. change (py_digits false acc (String "_" s')) with (py_digits true acc s'). apply (proj1 (IH _ _)). eauto.
Qed.
Lemma digits_ok s n : py_digits true 0 s = Ok n <-> exists ds, digits_in s ds /\ Z.of_N n = number_of ds.
Proof. exact (proj1 (digits_both s 0%N n)). Qed.

(** ** White space *)

Lemma space_blank c : is_space c = true <-> In (N_of_ascii c) [9; 10; 11; 12; 13; 32]%N.
Proof. unfold is_space. cbv zeta. cbn [In]. lia. Qed.
Lemma lstrip_split s : exists a, s = a ++ lstrip s /\ blank a.
Proof.
  induction s as [|c s (a & E & B)]; [exists ""; split; [reflexivity|exact I]|]. cbn [lstrip]. destruct (is_space c) eqn:S.
  - exists (String c a). split; [cbn; congruence|]. split; [apply space_blank, S|exact B].
  - exists "". split; [reflexivity|exact I].
Qed.
Lemma blank_app a b : blank (a ++ b) <-> blank a /\ blank b.
Proof. induction a as [|c a IH]; cbn; tauto. Qed.
Lemma blank_srev s : forall acc, blank (srev s acc) <-> blank s /\ blank acc.
Proof. induction s as [|c s IH]; intros acc; cbn [srev blank]; [tauto|]. rewrite IH. cbn [blank]. tauto. Qed.
Lemma srev_of_app a b : srev (a ++ b) "" = srev b "" ++ srev a "".
Proof.
  assert (forall acc, srev (a ++ b) acc = srev b (srev a acc)) as E by (induction a as [|c a IH]; intros acc; [reflexivity|]; cbn [String.append srev]; apply IH).
  rewrite E. apply srev_app.
Qed.
Lemma strip_split s : exists a b, s = a ++ strip s ++ b /\ blank a /\ blank b.
Proof.
  destruct (lstrip_split s) as (a & E & A). destruct (lstrip_split (srev (lstrip s) "")) as (b & E' & B).
  exists a, (srev b ""). split; [|split; [exact A|apply blank_srev; split; [exact B|exact I]]].
  rewrite E at 1. f_equal. unfold strip. rewrite <- srev_of_app, <- E', srev_srev. reflexivity.
Qed.
Lemma lstrip_blank a s : blank a -> (forall c s', s = String c s' -> is_space c = false) -> lstrip (a ++ s) = s.
Proof.
  intros B H. induction a as [|c a IH].
  - cbn. destruct s as [|c s]; [reflexivity|]. cbn [lstrip]. rewrite (H c s eq_refl). reflexivity.
  - destruct B as [Bc B]. cbn [String.append lstrip]. apply space_blank in Bc. rewrite Bc. apply IH, B.
Qed.
Lemma strip_blank a t b : blank a -> blank b -> no_space t = true -> t <> "" -> strip (a ++ t ++ b) = t.
Proof.
  intros A B T N. unfold strip. rewrite lstrip_blank; [|exact A|].
  - rewrite srev_of_app, lstrip_blank; [apply srev_srev|apply blank_srev; split; [exact B|exact I]|].
    intros c s' E. assert (no_space (srev t "") = true) as X by (rewrite no_space_srev, T; reflexivity). rewrite E in X. cbn [no_space] in X. destruct (is_space c); [discriminate X|reflexivity].
  - intros c s' E. destruct t as [|c' t]; [congruence|]. inversion E; subst. cbn [no_space] in T. destruct (is_space c); [discriminate T|reflexivity].
Qed.

(** ** Integers and outpoints *)

Lemma decimal_space c d : decimal c d -> is_space c = false.
Proof. intros (E & R). unfold is_space. cbv zeta. lia. Qed.
Lemma digits_space s ds : digits_in s ds -> no_space s = true /\ s <> "".
Proof. induction 1 as [c d D|c d s ds D _ (IH & _)|c d s ds D _ (IH & _)]; (split; [|discriminate]); cbn [no_space]; rewrite (decimal_space _ _ D); [reflexivity|exact IH|exact IH]. Qed.
Lemma digits_head s ds c s' : digits_in s ds -> s = String c s' -> Ascii.eqb c "-" = false /\ Ascii.eqb c "+" = false.
Proof.
  intros D E. assert (exists d, decimal c d) as (d & X & R) by (inversion D; subst; match goal with H : String _ _ = String _ _ |- _ => inversion H; subst; eauto end).
  split; apply Ascii.eqb_neq; intros ->; [change (N_of_ascii "-") with 45%N in X|change (N_of_ascii "+") with 43%N in X]; lia.
Qed.

Lemma int_text s z : py_int s = Ok z <-> integer_text s z.
Proof.
  split.
  - intros H. destruct (strip_split s) as (a & b & E & A & B). unfold py_int in H. destruct (strip s) as [|c s'] eqn:S; [discriminate H|].
    destruct (Ascii.eqb c "-") eqn:M.
    { apply Ascii.eqb_eq in M. subst c. destruct (py_digits true 0 s') as [n|] eqn:P; [|discriminate H]. cbn [bind] in H. inversion H; subst z. apply digits_ok in P as (ds & D & Nn).
      exists a, "-", s', b, ds. repeat (split; [assumption|]). left. split; [reflexivity|congruence]. }
    destruct (Ascii.eqb c "+") eqn:M'.
    { apply Ascii.eqb_eq in M'. subst c. destruct (py_digits true 0 s') as [n|] eqn:P; [|discriminate H]. cbn [bind] in H. inversion H; subst z. apply digits_ok in P as (ds & D & Nn).
      exists a, "+", s', b, ds. repeat (split; [assumption|]). right. auto. }
    destruct (py_digits true 0 (String c s')) as [n|] eqn:P; [|discriminate H]. cbn [bind] in H. inversion H; subst z. apply digits_ok in P as (ds & D & Nn).
    exists a, "", (String c s'), b, ds. repeat (split; [assumption|]). right. auto.
  - intros (a & sign & t & b & ds & -> & A & B & D & Z). destruct (digits_space t ds D) as (T & N).
    assert (no_space (sign ++ t) = true /\ sign ++ t <> "") as (T' & N') by (destruct Z as [(-> & _)|([->| ->] & _)]; (split; [exact T|]); cbn; congruence).
    unfold py_int. rewrite <- (app_s_assoc sign t b), (strip_blank a (sign ++ t) b A B T' N').
    assert (exists n, py_digits true 0 t = Ok n /\ Z.of_N n = number_of ds) as (n & P & Nn).
    { assert (0 <= number_of ds)%Z as G.
      { assert (forall ds s acc, digits_in s ds -> (0 <= acc -> 0 <= fold_left (fun n d => 10 * n + d) ds acc)%Z) as G.
        { clear. intros ds s acc D. revert acc. induction D as [c d (_ & R)|c d s ds (_ & R) _ IH|c d s ds (_ & R) _ IH]; intros acc L; cbn [fold_left]; [lia|apply IH; lia|apply IH; lia]. }
        exact (G ds t 0%Z D (Z.le_refl 0)). }
      exists (Z.to_N (number_of ds)). rewrite Z2N.id by exact G. split; [|reflexivity]. apply digits_ok. exists ds. rewrite Z2N.id by exact G. auto. }
    destruct Z as [(-> & ->)|([->| ->] & ->)].
    + cbn [String.append]. change (Ascii.eqb "-" "-") with true. cbv iota. rewrite P. cbn [bind]. rewrite Nn. reflexivity.
    + cbn [String.append]. destruct t as [|c t]; [congruence|]. destruct (digits_head _ _ c t D eq_refl) as (-> & ->). rewrite P. cbn [bind]. rewrite Nn. reflexivity.
    + cbn [String.append]. change (Ascii.eqb "+" "-") with false. change (Ascii.eqb "+" "+") with true. cbv iota. rewrite P. cbn [bind]. rewrite Nn. reflexivity.
Qed.

Lemma split_colon_eq s : colons s = 1%nat -> exists a b, split_colon s = (a, b) /\ s = a ++ String ":" b.
Proof.
  induction s as [|c s IH]; [discriminate|]. cbn [colons split_colon]. destruct (Ascii.eqb c ":") eqn:E.
  - intros _. apply Ascii.eqb_eq in E. subst c. exists "", s. auto.
  - intros H. destruct (IH H) as (a & b & -> & ->). exists (String c a), b. auto.
Qed.
Lemma no_colon_hex s b : hex_text s b -> colons s = 0%nat.
Proof.
  induction 1 as [|c1 c2 n1 n2 x s b D1 D2 _ _ IH]; [reflexivity|]. cbn [colons]. rewrite IH.
  assert (forall c n, digit_text c n -> Ascii.eqb c ":" = false) as G.
  { intros c n D. apply digit_hex in D. destruct (Ascii.eqb c ":") eqn:E; [|reflexivity]. apply Ascii.eqb_eq in E. subst c. vm_compute in D. discriminate D. }
  rewrite (G _ _ D1), (G _ _ D2). reflexivity.
Qed.
Lemma no_colon_blank s : blank s -> colons s = 0%nat.
Proof.
  induction s as [|c s IH]; [reflexivity|]. intros (X & B). cbn [colons]. rewrite (IH B). destruct (Ascii.eqb c ":") eqn:E; [|reflexivity].
  apply Ascii.eqb_eq in E. subst c. vm_compute in X. decompose [or] X; try discriminate; contradiction.
Qed.
Lemma no_colon_digits s ds : digits_in s ds -> colons s = 0%nat.
Proof.
  assert (forall c d, decimal c d -> Ascii.eqb c ":" = false) as G by (intros c d (E & R); apply Ascii.eqb_neq; intros ->; change (N_of_ascii ":") with 58%N in E; lia).
  induction 1 as [c d D|c d s ds D _ IH|c d s ds D _ IH]; cbn [colons]; rewrite (G _ _ D); try rewrite IH; reflexivity.
Qed.
Lemma no_colon_int s z : integer_text s z -> colons s = 0%nat.
Proof.
  intros (a & sign & t & b & ds & -> & A & B & D & Z). rewrite !colons_app, (no_colon_blank _ A), (no_colon_blank _ B), (no_colon_digits _ _ D).
  destruct Z as [(-> & _)|([->| ->] & _)]; reflexivity.
Qed.

Lemma outpoint_argument s o : parse_outpoint s = Ok o <-> outpoint_text s o.
Proof.
  unfold parse_outpoint. split.
  - destruct (colons s =? 1)%nat eqn:C; cbn [negb]; [|discriminate]. apply Nat.eqb_eq in C. destruct (split_colon_eq s C) as (a & b & -> & ->).
    destruct (lx a) as [id|e] eqn:L; cbn [bind or_exit]; [|destruct e; discriminate]. destruct (py_int b) as [n|e] eqn:P; cbn [bind or_exit]; [|destruct e; discriminate].
    unfold outpoint_new. destruct (negb (blen id =? 32)%N) eqn:B; [discriminate|]. destruct (negb (_ && _)) eqn:R; [discriminate|]. cbn [or_exit]. intros H. assert (o = mkOutPoint id n) as -> by congruence.
    exists a, b. cbn [o_hash o_n]. split; [reflexivity|]. split; [apply lx_text, L|]. unfold blen in B. split; [lia|]. split; [apply int_text, P|]. lia.
  - intros (id & n & -> & H & L & N & R). rewrite !colons_app, (no_colon_hex _ _ H), (no_colon_int _ _ N). change (colons ":") with 1%nat. cbn [Nat.add Nat.eqb negb].
    change (id ++ ":" ++ n) with (id ++ String ":" n). rewrite (split_colon_app _ _ (no_colon_hex _ _ H)).
    apply lx_text in H. apply int_text in N. rewrite H. cbn [bind]. rewrite N. cbn [bind]. unfold outpoint_new.
    assert ((blen (o_hash o) =? 32)%N = true) as -> by (unfold blen; lia). cbn [negb]. destruct (negb _) eqn:E; [lia|]. destruct o. reflexivity.
Qed.
Lemma x_hex_err s : forall e, x_hex s = Err e -> e = ValueError.
Proof.
  assert (forall n s, (String.length s <= n)%nat -> forall e, x_hex s = Err e -> e = ValueError) as G; [|exact (G _ s (le_n _))].
  clear s. induction n as [|n IH]; intros [|a [|b s]] L e; cbn [String.length] in L; try (exfalso; lia); cbn [x_hex]; try congruence.
  destruct (hex_digit a), (hex_digit b); try congruence. destruct (x_hex s) as [r|e'] eqn:X; cbn [bind]; [discriminate|]. intros H. inversion H; subst. apply (IH s ltac:(lia) e X).
Qed.
Lemma py_digits_err s : forall b acc e, py_digits b acc s = Err e -> e = ValueError.
Proof.
  induction s as [|c s IH]; intros b acc e; cbn [py_digits]; [destruct b; congruence|]. destruct (_ && _)%N; [apply IH|]. destruct (_ && _); [apply IH|congruence].
Qed.
Lemma outpoint_refused s : (forall o, ~ outpoint_text s o) -> parse_outpoint s = Err SystemExit.
Proof.
  intros H. destruct (parse_outpoint s) as [o|e] eqn:E; [destruct (H o); apply outpoint_argument, E|]. f_equal. unfold parse_outpoint in E.
  assert (forall A (r : result A), or_exit r = Err e -> (forall e', r = Err e' -> e' = ValueError) -> e = SystemExit) as G.
  { intros A [a|e'] X Y; [discriminate X|]. rewrite (Y e' eq_refl) in X. cbn in X. congruence. }
  apply (G _ _ E). clear. intros e. destruct (negb _); [congruence|]. destruct (split_colon s) as (a, b). unfold lx.
  destruct (x_hex a) as [id|e'] eqn:X; cbn [bind]; [|intros H; inversion H; subst; exact (x_hex_err _ _ X)].
  destruct (py_int b) as [n|e'] eqn:P; cbn [bind].
  - unfold outpoint_new. destruct (negb _); [congruence|]. destruct (negb _); congruence.
  - intros H. inversion H; subst. revert P. unfold py_int. destruct (strip b) as [|c s']; [congruence|].
    destruct (Ascii.eqb c "-"); [|destruct (Ascii.eqb c "+")]; (destruct (py_digits _ _ _) as [n|e'] eqn:D; cbn [bind]; [discriminate|]); intros Q; inversion Q; subst; exact (py_digits_err _ _ _ _ D).
Qed.
