(** The list operations Merbinner_Model uses on prefixes are what the Bits methods do. *)
From Verif Require Import Base PySlice Bits_Model Bits_Spec Bits_Proofs Merbinner_Model Merbinner_Proofs.

Lemma prefix_startswith a p la lp : api_bits a -> api_bits p -> yields a la -> yields p lp -> bits_startswith a p = Ok (startswith la lp).
Proof.
  intros A P Ya Yp. destruct (bits_startswith_observed a p la lp A P Ya Yp) as (r & -> & E). f_equal. apply eq_true_iff_eq. rewrite E, startswith_spec. reflexivity.
Qed.

Lemma prefix_eq a b la lb : api_bits a -> api_bits b -> yields a la -> yields b lb -> bits_eq a b = Ok (bools_eqb la lb).
Proof.
  intros A P Ya Yp. destruct (bits_eq_observed a b la lb A P Ya Yp) as (r & -> & E). f_equal. apply eq_true_iff_eq. rewrite E, bools_eqb_spec. reflexivity.
Qed.

Lemma common_prefix_longest a : forall b, longest_common_prefix (common_prefix a b) a b.
Proof.
  induction a as [|x a IH]; intros [|y b]; cbn [common_prefix]; unfold longest_common_prefix, is_prefix.
  - split; [exists []; reflexivity|]. split; [exists []; reflexivity|]. intros q (r & E) _. destruct q; [exists []; reflexivity|discriminate].
  - split; [exists []; reflexivity|]. split; [exists (y :: b); reflexivity|]. intros q (r & E) _. destruct q; [exists []; reflexivity|discriminate].
  - split; [exists (x :: a); reflexivity|]. split; [exists []; reflexivity|]. intros q _ (r & E). destruct q; [exists []; reflexivity|discriminate].
  - destruct (eqb x y) eqn:E.
    + apply eqb_prop in E. subst y. destruct (IH b) as ((r1 & E1) & (r2 & E2) & H). split; [exists r1; cbn; congruence|]. split; [exists r2; cbn; congruence|].
      intros q (s1 & F1) (s2 & F2). destruct q as [|z q]; [exists (x :: common_prefix a b); reflexivity|]. cbn in F1, F2. injection F1 as <- F1. injection F2 as F2.
      destruct (H q) as (r & Er); [exists s1; exact F1|exists s2; exact F2|]. exists r. cbn. congruence.
    + split; [exists (x :: a); reflexivity|]. split; [exists (y :: b); reflexivity|].
      intros q (s1 & F1) (s2 & F2). destruct q as [|z q]; [exists []; reflexivity|]. cbn in F1, F2. injection F1 as <- _. injection F2 as <- _. rewrite eqb_reflx in E. discriminate.
Qed.

Lemma longest_common_unique (p q a b : list bool) : longest_common_prefix p a b -> longest_common_prefix q a b -> p = q.
Proof.
  intros (P1 & P2 & P3) (Q1 & Q2 & Q3). destruct (P3 q Q1 Q2) as (r & E). destruct (Q3 p P1 P2) as (s & F). subst p. rewrite <- app_assoc in F.
  assert (r ++ s = []) as X by (apply (app_inv_head q); rewrite app_nil_r; symmetry; exact F). apply app_eq_nil in X. destruct X as (-> & _). apply app_nil_r.
Qed.

Lemma prefix_common a b la lb : api_bits a -> api_bits b -> yields a la -> yields b lb ->
  exists r, bits_common_prefix a b = Ok r /\ api_bits r /\ yields r (common_prefix la lb).
Proof.
  intros A B Ya Yb. destruct (bits_common_prefix_observed a b la lb A B Ya Yb) as (r & p & E & Ar & Yr & L). exists r. split; [exact E|]. split; [exact Ar|].
  rewrite (longest_common_unique _ _ la lb (common_prefix_longest la lb) L). exact Yr.
Qed.

Lemma prefix_index a la i : api_bits a -> yields a la ->
  bits_getitem a (Z.of_nat i) = match Merbinner_Model.bit la i with Ok x => Ok (Bits_Spec.bit x) | Err e => Err e end.
Proof.
  intros A Y. destruct (bits_sequence a A) as (l & Yl & _ & H). assert (l = la) as ->.
  { unfold yields in Y, Yl. rewrite Y in Yl. injection Yl as E. clear - E. revert l E. induction la as [|x la IH]; intros [|y l] E; try discriminate; [reflexivity|].
    cbn in E. injection E as E1 E2. f_equal; [destruct x, y; cbn in E1; congruence|auto]. }
  rewrite H. unfold py_index. destruct (Z.ltb_spec (Z.of_nat i) 0); [lia|]. unfold znth. destruct (Z.ltb_spec (Z.of_nat i) 0); [lia|]. rewrite Nat2Z.id.
  unfold Merbinner_Model.bit. destruct (nth_error la i); reflexivity.
Qed.
