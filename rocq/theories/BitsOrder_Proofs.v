(** Lemmas about the order of Bits (C08). *)
From Verif Require Import Base PySlice PySlice_Proofs Bits_Model Bits_Spec Bits_Proofs BitsOrder_Spec.
From Coq Require Import ZifyBool ZifyNat ZifyN.
Ltac Zify.zify_post_hook ::= Z.div_mod_to_equations.

Lemma bytes_ltb_lex a b : bytes_ltb a b = bits_lex (bytes_bits a) (bytes_bits b).
Proof.
  revert b; induction a as [|x a IH]; intros [|y b]; cbn [bytes_ltb]; try reflexivity.
  rewrite !bytes_bits_cons. destruct (Byte.eqb x y) eqn:E.
  - apply byte_eqb_eq in E. subst. rewrite N.ltb_irrefl, bits_lex_app. cbn [orb andb]. apply IH.
  - rewrite byte_lt_bits. cbn [andb]. rewrite orb_false_r. symmetry. apply bits_lex_app_neq; [reflexivity|].
    intros H. apply byte_bits_inj in H. subst. rewrite (proj2 (byte_eqb_eq y y) eq_refl) in E. discriminate.
Qed.

(** The parts of a Bits value that [__lt__] compares. *)
Lemma parts a : bits_ok a ->
  bytes_bits (full_width_prefix a) = whole (bits_of a) /\
  exists t, tail_bits a = Ok (bN t) /\ byte_bits t = padded (bits_of a).
Proof.
  intros H. pose proof (bits_of_length a H) as L.
  assert (LF : List.length (bytes_bits (full_width_prefix a)) = 8 * (b_len a / 8)).
  { rewrite bytes_bits_length, full_width_prefix_length by exact H. reflexivity. }
  unfold whole, padded. rewrite L.
  destruct (bits_of_split a H) as [(M & B & T)|(x & M & X & B & T)].
  - rewrite B. split.
    + rewrite firstn_all2 by lia. reflexivity.
    + exists x00. split; [exact T|]. rewrite skipn_all2 by lia. reflexivity.
  - rewrite B. split.
    + rewrite <- LF, firstn_app, Nat.sub_diag, firstn_all, app_nil_r. reflexivity.
    + exists (Nb (N.land (bN x) (N.shiftl 255 (N.of_nat (8 - b_len a mod 8))))).
      split.
      * rewrite bN_Nb_small by (apply mask_lt; lia). exact T.
      * rewrite mask_bits by lia. rewrite <- LF, skipn_app, Nat.sub_diag, skipn_all. cbn [app skipn].
        rewrite firstn_length, byte_bits_length. f_equal. f_equal. lia.
Qed.

Lemma lt_precedes a b la lb : api_bits a -> api_bits b -> yields a la -> yields b lb ->
  exists r, bits_lt a b = Ok r /\ (r = true <-> precedes la lb).
Proof.
  intros Ha Hb Ya Yb. apply api_bits_ok in Ha, Hb. apply yields_iff in Ya, Yb; try assumption. subst.
  destruct (parts a Ha) as (Wa & ta & Ta & Pa), (parts b Hb) as (Wb & tb & Tb & Pb).
  rewrite (bits_lt_val _ _ _ _ Ta Tb). eexists. split; [reflexivity|].
  rewrite orb_true_iff, andb_true_iff, bytes_ltb_lex, bytes_eqb_eq, byte_lt_bits, Wa, Wb, Pa, Pb. unfold precedes.
  assert (full_width_prefix a = full_width_prefix b <-> whole (bits_of a) = whole (bits_of b)) as ->; [|tauto].
  rewrite <- Wa, <- Wb. split; [intros ->; reflexivity|apply bytes_bits_inj].
Qed.

(** The other operators. *)
Lemma derived_operators a b la lb : api_bits a -> api_bits b -> yields a la -> yields b lb ->
  exists lt gt le ge, bits_lt a b = Ok lt /\ bits_gt a b = Ok gt /\ bits_le a b = Ok le /\ bits_ge a b = Ok ge /\
    (lt = true <-> precedes la lb) /\ (gt = true <-> ~ precedes la lb /\ la <> lb) /\
    (le = true <-> precedes la lb \/ la = lb) /\ (ge = true <-> ~ precedes la lb).
Proof.
  intros Ha Hb Ya Yb. destruct (lt_precedes a b la lb Ha Hb Ya Yb) as (lt & L & Hl).
  destruct (bits_eq_observed a b la lb Ha Hb Ya Yb) as (e & E & He).
  unfold bits_gt, bits_le, bits_ge. rewrite L, E. cbn [bind]. destruct lt.
  - do 4 eexists. repeat (split; [reflexivity|]). split; [exact Hl|]. pose proof (proj1 Hl eq_refl) as P. intuition discriminate.
  - do 4 eexists. repeat (split; [reflexivity|]). split; [exact Hl|].
    assert (P : ~ precedes la lb) by (intros P; apply Hl in P; discriminate).
    destruct e; cbn [negb]; [pose proof (proj1 He eq_refl) as D|assert (D : la <> lb) by (intros D; apply He in D; discriminate)]; intuition discriminate.
Qed.

Lemma lex_asym a b : bits_lex a b = true -> bits_lex b a = true -> False.
Proof.
  revert b; induction a as [|x a IH]; intros [|y b]; cbn; try discriminate.
  destruct x, y; cbn; try discriminate; apply IH.
Qed.

Lemma lex_total a : forall b, bits_lex a b = true \/ a = b \/ bits_lex b a = true.
Proof.
  induction a as [|x a IH]; intros [|y b]; cbn; auto. destruct (IH b) as [H|[->|H]]; destruct x, y; cbn; auto.
Qed.

Lemma padded_length l : List.length (padded l) = 8.
Proof. unfold padded. rewrite app_length, repeat_length, skipn_length. lia. Qed.

Lemma precedes_total a b : precedes a b \/ (whole a = whole b /\ padded a = padded b) \/ precedes b a.
Proof.
  unfold precedes. destruct (lex_total (whole a) (whole b)) as [H|[H|H]]; auto.
  destruct (lex_total (padded a) (padded b)) as [P|[P|P]]; auto.
Qed.

Lemma precedes_asym a b : precedes a b -> precedes b a -> False.
Proof.
  unfold precedes. intros [H|[H P]] [H'|[H' P']].
  - exact (lex_asym _ _ H H').
  - rewrite H', bits_lex_irrefl in H. discriminate.
  - rewrite H, bits_lex_irrefl in H'. discriminate.
  - exact (lex_asym _ _ P P').
Qed.

Lemma repeat_split {A} (x : A) m n : repeat x (m + n) = repeat x m ++ repeat x n.
Proof. apply repeat_app. Qed.

Lemma same_zeros_iff a b : (whole a = whole b /\ padded a = padded b) <-> same_but_zeros a b.
Proof.
  unfold same_but_zeros, whole, padded. split.
  - intros [W P].
    assert (L : List.length a / 8 = List.length b / 8).
    { apply (f_equal (@List.length bool)) in W. rewrite !firstn_length in W. lia. }
    split; [exact L|].
    set (k := 8 * (List.length a / 8)) in *. rewrite <- L in W, P. fold k in W, P.
    pose proof (firstn_skipn k a) as Ea. pose proof (firstn_skipn k b) as Eb.
    assert (G : forall (u v : list bool) m n, u ++ repeat false m = v ++ repeat false n -> List.length u <= List.length v ->
      v = u ++ repeat false (List.length v - List.length u)).
    { intros u v m n E Hl. apply (f_equal (firstn (List.length v))) in E.
      rewrite !firstn_app, Nat.sub_diag, firstn_all, app_nil_r in E. cbn [firstn] in E. rewrite ?app_nil_r in E.
      rewrite firstn_all2 in E by exact Hl. rewrite <- E at 1. f_equal.
      assert (Q : forall p q, p <= q -> firstn p (repeat false q) = repeat false p).
      { clear. induction p as [|p IH]; intros [|q] Hp; cbn; try lia; try reflexivity. f_equal. apply IH. lia. }
      destruct (Nat.le_gt_cases (List.length v - List.length u) m) as [Hm|Hm]; [apply Q, Hm|].
      exfalso. apply (f_equal (@List.length bool)) in E. rewrite app_length, firstn_length, repeat_length in E. lia. }
    destruct (Nat.le_gt_cases (List.length (skipn k a)) (List.length (skipn k b))) as [H|H].
    + pose proof (G _ _ _ _ P H) as R. exists a, 0, (List.length (skipn k b) - List.length (skipn k a)).
      split; [cbn; rewrite app_nil_r; reflexivity|].
      rewrite <- Ea, <- app_assoc, <- Eb at 1. rewrite W. f_equal. exact R.
    + symmetry in P. pose proof (G _ _ _ _ P (Nat.lt_le_incl _ _ H)) as R. exists b, (List.length (skipn k a) - List.length (skipn k b)), 0.
      split; [|cbn; rewrite app_nil_r; reflexivity].
      rewrite <- Eb, <- app_assoc, <- Ea at 1. rewrite W. f_equal. exact R.
  - intros (L & c & m & n & -> & ->). rewrite !app_length, !repeat_length in *. rewrite <- L.
    set (k := 8 * ((List.length c + m) / 8)) in *. split.
    + rewrite !firstn_app. f_equal.
      assert (Q : forall p q, firstn p (repeat false q) = repeat false (Nat.min p q)).
      { clear. induction p as [|p IH]; intros [|q]; cbn; try reflexivity. f_equal. apply IH. }
      rewrite !Q. f_equal. lia.
    + assert (Q : forall p q, skipn p (repeat false q) = repeat false (q - p)).
      { clear. induction p as [|p IH]; intros [|q]; cbn; try reflexivity. apply IH. }
      rewrite !skipn_app, !Q, <- !app_assoc, <- !repeat_app. f_equal. f_equal.
      rewrite !app_length, !skipn_length, !repeat_length. lia.
Qed.

Lemma unordered_iff a b la lb : api_bits a -> api_bits b -> yields a la -> yields b lb ->
  ((bits_lt a b = Ok false /\ bits_lt b a = Ok false) <-> same_but_zeros la lb).
Proof.
  intros Ha Hb Ya Yb. destruct (lt_precedes a b la lb Ha Hb Ya Yb) as (r & E & H).
  destruct (lt_precedes b a lb la Hb Ha Yb Ya) as (r' & E' & H'). rewrite E, E'. rewrite <- same_zeros_iff.
  destruct (precedes_total la lb) as [P|[P|P]].
  - apply H in P as R. subst. split; [intros [? _]; discriminate|]. intros [W Q]. exfalso.
    unfold precedes in P. rewrite W, Q, !bits_lex_irrefl in P. intuition congruence.
  - split; [auto|]. intros _. destruct P as [W Q].
    unfold precedes in H, H'. rewrite W, Q, !bits_lex_irrefl in H. rewrite W, Q, !bits_lex_irrefl in H'.
    destruct r, r'; intuition congruence.
  - apply H' in P as R. subst. split; [intros [_ ?]; discriminate|]. intros [W Q]. exfalso.
    unfold precedes in P. rewrite W, Q, !bits_lex_irrefl in P. intuition congruence.
Qed.

Lemma same_length_operators a b la lb : api_bits a -> api_bits b -> yields a la -> yields b lb ->
  List.length la = List.length lb ->
  bits_gt a b = Ok (bits_lex lb la) /\ bits_le a b = Ok (negb (bits_lex lb la)) /\ bits_ge a b = Ok (negb (bits_lex la lb)).
Proof.
  intros Ha Hb Ya Yb L. destruct (bits_order_same_length a b la lb Ha Hb Ya Yb L) as [E _].
  destruct (bits_eq_observed a b la lb Ha Hb Ya Yb) as (e & Q & He).
  unfold bits_gt, bits_le, bits_ge. rewrite E, Q. cbn [bind].
  destruct (list_eq_dec bool_dec la lb) as [->|N].
  - rewrite bits_lex_irrefl. rewrite (proj2 He eq_refl). auto.
  - rewrite (bits_lex_total la lb L N). destruct e; [exfalso; apply N, He; reflexivity|].
    destruct (bits_lex lb la); auto.
Qed.
