From Coq Require Import ZifyBool ZifyNat ZifyN.
From Verif Require Import Base Sha256 Serialize_Model Serialize_Spec Serialize_Proofs Tx_Model Tx_Spec Tx_Proofs Proof_Model Proof_Spec Proof_Proofs ProofHash_Proofs Merbinner_Model Merbinner_Spec.

(** ** Prefixes *)

Lemma bools_eqb_spec a : forall b, bools_eqb a b = true <-> a = b.
Proof.
  induction a as [|x a IH]; intros [|y b]; cbn; split; intros H; try discriminate; try reflexivity.
  - apply andb_true_iff in H. destruct H as (H1 & H2). apply eqb_prop in H1. apply IH in H2. congruence.
  - inversion H; subst. rewrite eqb_reflx. apply IH. reflexivity.
Qed.
Lemma bools_eqb_false a b : bools_eqb a b = false <-> a <> b.
Proof. rewrite <- not_true_iff_false, bools_eqb_spec. reflexivity. Qed.

Lemma startswith_spec p : forall l, startswith l p = true <-> starts p l.
Proof.
  induction p as [|x p IH]; intros l; cbn; [split; [exists l; reflexivity|reflexivity]|].
  destruct l as [|y l]; [split; [discriminate|intros (r & E); discriminate]|]. split.
  - intros H. apply andb_true_iff in H. destruct H as (H1 & H2). apply eqb_prop in H1. apply IH in H2. destruct H2 as (r & ->). subst. exists r. reflexivity.
  - intros (r & E). cbn in E. inversion E; subst. rewrite eqb_reflx. apply IH. exists r. reflexivity.
Qed.

Lemma starts_len p l : starts p l -> List.length p <= List.length l.
Proof. intros (r & ->). rewrite app_length. lia. Qed.
Lemma starts_refl p : starts p p.
Proof. exists []. symmetry. apply app_nil_r. Qed.
Lemma starts_trans p q l : starts p q -> starts q l -> starts p l.
Proof. intros (r & ->) (r' & ->). exists (r ++ r'). symmetry. apply app_assoc. Qed.
Lemma starts_app p q : starts p (p ++ q).
Proof. exists q. reflexivity. Qed.
Lemma starts_both p q l : starts p l -> starts q l -> List.length p <= List.length q -> starts p q.
Proof.
  revert q l. induction p as [|x p IH]; intros q l (r & E) (r' & E') L; [exists q; reflexivity|].
  destruct q as [|y q]; [cbn in L; lia|]. cbn in *. subst l. inversion E'; subst. destruct (IH q (p ++ r)) as (z & ->); [exists r; reflexivity|eexists; eassumption|lia|].
  exists z. reflexivity.
Qed.
Lemma starts_antisym p q : starts p q -> List.length q <= List.length p -> p = q.
Proof. intros (r & ->) L. rewrite app_length in L. destruct r; [symmetry; apply app_nil_r|cbn in L; lia]. Qed.
Lemma starts_bit p b l : starts (p ++ [b]) l <-> exists s, l = p ++ b :: s.
Proof. unfold starts. split; intros (r & ->); exists r; rewrite <- app_assoc; reflexivity. Qed.
Lemma starts_bits_neq p b l : starts (p ++ [b]) l -> starts (p ++ [negb b]) l -> False.
Proof. rewrite !starts_bit. intros (r & ->) (r' & E). apply app_inv_head in E. destruct b; discriminate. Qed.

Lemma bit_app p b s : bit (p ++ b :: s) (List.length p) = Ok b.
Proof. unfold bit. rewrite nth_error_app2, Nat.sub_diag by lia. reflexivity. Qed.

Lemma common_prefix_app c b x b' y : b <> b' -> common_prefix (c ++ b :: x) (c ++ b' :: y) = c.
Proof.
  intros N. induction c as [|z c IH]; cbn.
  - destruct (eqb b b') eqn:E; [apply eqb_prop in E; contradiction|reflexivity].
  - rewrite eqb_reflx, IH. reflexivity.
Qed.

Lemma diverge a : forall b, ~ starts a b -> ~ starts b a -> exists c x y,
  (a = c ++ false :: x /\ b = c ++ true :: y) \/ (a = c ++ true :: x /\ b = c ++ false :: y).
Proof.
  induction a as [|x a IH]; intros b N1 N2; [exfalso; apply N1; exists b; reflexivity|].
  destruct b as [|y b]; [exfalso; apply N2; exists (x :: a); reflexivity|].
  destruct (bool_dec x y) as [->|N].
  - destruct (IH b) as (c & u & v & H).
    + intros (r & ->). apply N1. exists r. reflexivity.
    + intros (r & ->). apply N2. exists r. reflexivity.
    + exists (y :: c), u, v. destruct H as [(-> & ->)|(-> & ->)]; [left|right]; split; reflexivity.
  - exists [], a, b. destruct x, y; try contradiction; cbn; auto.
Qed.

Lemma distinct_diverge a b : a <> b -> List.length a = List.length b -> exists c x y,
  (a = c ++ false :: x /\ b = c ++ true :: y) \/ (a = c ++ true :: x /\ b = c ++ false :: y).
Proof.
  intros N L. apply diverge; intros H; apply N; [apply starts_antisym; [exact H|lia]|symmetry; apply starts_antisym; [exact H|lia]].
Qed.

(** ** Entries and the radix invariant *)

Fixpoint entries (t : mbt) : list (val * val) :=
  match t with
  | TLeaf k v => [(k, v)]
  | TInner _ l r => entries l ++ entries r
  | _ => []
  end.

Section Radix.
Context (ct : ctable) (M : mbt_classes) (ks vs : ser) (k2p : val -> list bool) (K : val -> Prop) (n : nat).
Context (W : wf_table ct) (I : is_mbt ct M ks vs) (G : good_keys ct k2p K n).

Inductive radix : mbt -> Prop :=
| R_leaf k v : K k -> radix (TLeaf k v)
| R_inner p l r : radix l -> radix r ->
    (forall k v, In (k, v) (entries l) -> starts (p ++ [false]) (k2p k)) ->
    (forall k v, In (k, v) (entries r) -> starts (p ++ [true]) (k2p k)) -> radix (TInner p l r).

Definition pre (t : mbt) : list bool :=
  match t with TLeaf k _ => k2p k | TInner p _ _ => p | _ => [] end.

Lemma pre_prefix t : radix t -> prefix_of k2p t = Ok (pre t).
Proof. destruct 1; reflexivity. Qed.

Lemma radix_some t : radix t -> exists k v, In (k, v) (entries t).
Proof.
  induction 1 as [k v Kk|p l r Rl IHl Rr IHr Hl Hr]; [exists k, v; left; reflexivity|]. destruct IHl as (k & v & H). exists k, v. cbn. apply in_or_app. left. exact H.
Qed.

Lemma radix_keys t : radix t -> forall k v, In (k, v) (entries t) -> K k.
Proof.
  induction 1 as [k v Kk|p l r Rl IHl Rr IHr Hl Hr]; intros k' v' H; cbn in H.
  - destruct H as [H|[]]. congruence.
  - apply in_app_or in H. destruct H as [H|H]; eauto.
Qed.

Lemma radix_pre t : radix t -> forall k v, In (k, v) (entries t) -> starts (pre t) (k2p k).
Proof.
  destruct 1 as [k v Kk|p l r Rl Rr Hl Hr]; intros k' v' H; cbn in H.
  - destruct H as [H|[]]. inversion H; subst. apply starts_refl.
  - cbn [pre]. apply in_app_or in H. destruct H as [H|H]; [apply Hl in H|apply Hr in H]; (eapply starts_trans; [apply starts_app|exact H]).
Qed.

Lemma radix_longest t x : radix t -> (forall k v, In (k, v) (entries t) -> starts x (k2p k)) -> starts x (pre t).
Proof.
  destruct 1 as [k v Kk|p l r Rl Rr Hl Hr]; intros H; cbn [pre].
  - apply (H k v). left. reflexivity.
  - destruct (radix_some _ Rl) as (k1 & v1 & I1), (radix_some _ Rr) as (k2 & v2 & I2).
    assert (S1 : starts x (k2p k1)) by (apply (H k1 v1); cbn; apply in_or_app; left; exact I1).
    assert (S2 : starts x (k2p k2)) by (apply (H k2 v2); cbn; apply in_or_app; right; exact I2).
    apply Hl in I1. apply Hr in I2. destruct (le_lt_dec (List.length x) (List.length p)) as [L|L].
    + eapply starts_both; [exact S1|eapply starts_trans; [apply starts_app|exact I1]|exact L].
    + exfalso. pose proof (starts_both _ _ _ I1 S1 ltac:(rewrite app_length; cbn; lia)) as T1. pose proof (starts_both _ _ _ I2 S2 ltac:(rewrite app_length; cbn; lia)) as T2.
      exact (starts_bits_neq p false x T1 T2).
Qed.

Lemma inner_short p l r : radix (TInner p l r) -> List.length p < n.
Proof.
  intros R. inversion R as [|? ? ? Rl Rr Hl Hr]; subst. destruct (radix_some _ Rl) as (k & v & H). pose proof (radix_keys _ Rl _ _ H) as Kk.
  apply Hl in H. apply starts_len in H. rewrite (gk_len _ _ _ _ G k Kk), app_length in H. cbn in H. lia.
Qed.

Lemma radix_class t : radix t -> exists c, class_of (bnode M t) = Some c /\ In c [b_empty M; b_leaf M; b_inner M].
Proof. destruct 1; cbn; eexists; (split; [reflexivity|]); auto. Qed.

Lemma bcheck_node v c : class_of v = Some c -> In c [b_empty M; b_leaf M; b_inner M] ->
  check ct (SerProof (b_base M)) v = Ok tt /\ is_proof v = true.
Proof.
  intros E Hc. split; [|unfold is_proof; rewrite E; reflexivity]. unfold check. rewrite (mb_kinds _ _ _ _ I) by (left; reflexivity).
  assert (existsb (isinst ct v) [b_empty M; b_leaf M; b_inner M] = true) as ->; [|reflexivity].
  apply existsb_exists. exists c. split; [exact Hc|]. unfold isinst. rewrite E. apply existsb_exists. exists c.
  split; [apply (wf_self ct W c)|apply Nat.eqb_refl].
Qed.

Lemma construct_tinner l r p : radix l -> radix r ->
  construct ct (b_inner M) [("left"%string, bnode M l); ("right"%string, bnode M r); ("prefix"%string, VBits p)] = Ok (bnode M (TInner p l r)).
Proof.
  intros Rl Rr. destruct (radix_class _ Rl) as (c & E1 & I1), (radix_class _ Rr) as (d & E2 & I2). unfold construct. rewrite (mb_inner _ _ _ _ I).
  destruct (bcheck_node (bnode M l) c E1 I1) as (C1 & P1). destruct (bcheck_node (bnode M r) d E2 I2) as (C2 & P2).
  cbn [construct_loop assoc]. change (String.eqb "left" "left") with true. change (String.eqb "left" "right") with false.
  change (String.eqb "right" "right") with true. change (String.eqb "left" "prefix") with false. change (String.eqb "right" "prefix") with false.
  change (String.eqb "prefix" "prefix") with true. cbn [bind]. change (check ct SerBits (VBits p)) with (@Ok unit tt). cbn [bind]. rewrite C1, P1, C2, P2. reflexivity.
Qed.

(** Joining two trees whose prefixes part. *)
Lemma join a b c x y : radix a -> radix b -> pre a = c ++ false :: x -> pre b = c ++ true :: y ->
  tinner_new ct M k2p a b = Ok (TInner c a b) /\ tinner_new ct M k2p b a = Ok (TInner c a b) /\ radix (TInner c a b).
Proof.
  intros Ra Rb Ea Eb. split; [|split].
  - unfold tinner_new. rewrite (pre_prefix _ Ra), (pre_prefix _ Rb). cbn [bind]. rewrite Ea, Eb.
    assert (bools_eqb (c ++ false :: x) (c ++ true :: y) = false) as -> by (apply bools_eqb_false; intros E; apply app_inv_head in E; discriminate).
    cbn [negb assert bind]. rewrite common_prefix_app by discriminate.
    assert ((List.length c <? List.length (c ++ false :: x)) && (List.length c <=? List.length (c ++ true :: y)) = true) as -> by (rewrite !app_length; cbn [List.length]; lia).
    cbn [assert bind]. rewrite bit_app. cbn [bind]. rewrite construct_tinner by assumption. reflexivity.
  - unfold tinner_new. rewrite (pre_prefix _ Ra), (pre_prefix _ Rb). cbn [bind]. rewrite Ea, Eb.
    assert (bools_eqb (c ++ true :: y) (c ++ false :: x) = false) as -> by (apply bools_eqb_false; intros E; apply app_inv_head in E; discriminate).
    cbn [negb assert bind]. rewrite common_prefix_app by discriminate.
    assert ((List.length c <? List.length (c ++ true :: y)) && (List.length c <=? List.length (c ++ false :: x)) = true) as -> by (rewrite !app_length; cbn [List.length]; lia).
    cbn [assert bind]. rewrite bit_app. cbn [bind]. rewrite construct_tinner by assumption. reflexivity.
  - constructor; try assumption; intros k v H.
    + apply (radix_pre _ Ra) in H. rewrite Ea in H. eapply starts_trans; [|exact H]. apply starts_bit. eauto.
    + apply (radix_pre _ Rb) in H. rewrite Eb in H. eapply starts_trans; [|exact H]. apply starts_bit. eauto.
Qed.

Lemma rebuild_app chk tip s1 s2 : rebuild ct M k2p chk tip (s1 ++ s2) = do t <- rebuild ct M k2p chk tip s1; rebuild ct M k2p chk t s2.
Proof.
  revert tip. induction s1 as [|s s1 IH]; intros tip; cbn; [reflexivity|]. destruct (chk s); cbn [bind]; [|reflexivity].
  destruct (tinner_new ct M k2p tip s); cbn [bind]; [apply IH|reflexivity].
Qed.

(** Where a key's prefix leads. *)
Lemma descend_step p l r k : radix (TInner p l r) -> K k ->
  (exists s, k2p k = p ++ false :: s /\ descend (TInner p l r) (k2p k) = do d <- descend l (k2p k); Ok (d ++ [r])) \/
  (exists s, k2p k = p ++ true :: s /\ descend (TInner p l r) (k2p k) = do d <- descend r (k2p k); Ok (d ++ [l])) \/
  (~ starts p (k2p k) /\ descend (TInner p l r) (k2p k) = Ok [TInner p l r]).
Proof.
  intros R Kk. pose proof (inner_short _ _ _ R) as L. pose proof (gk_len _ _ _ _ G k Kk) as Ln. cbn [descend].
  assert ((List.length p <=? List.length (k2p k)) = true) as -> by lia. cbn [andb].
  destruct (startswith (k2p k) p) eqn:S.
  - apply startswith_spec in S. destruct S as (rest & E). destruct rest as [|b s]; [rewrite E, app_length in Ln; cbn in Ln; lia|].
    assert (bit (k2p k) (List.length p) = Ok b) as -> by (rewrite E; apply bit_app). cbn [bind]. destruct b; [right; left|left]; exists s; (split; [exact E|reflexivity]).
  - right. right. split; [|reflexivity]. intros H. apply startswith_spec in H. congruence.
Qed.

Lemma put_radix k v : K k -> forall t, radix t -> ~ In k (map fst (entries t)) -> exists c sibs t', descend t (k2p k) = Ok (c :: sibs) /\
  bkind_eqb (bkind_of c) BEmpty = false /\ (do tip <- tinner_new ct M k2p (TLeaf k v) c; rebuild ct M k2p (fun _ => Ok tt) tip sibs) = Ok t' /\
  radix t' /\ Permutation (entries t') ((k, v) :: entries t).
Proof.
  intros Kk. induction t as [|k' v'|p l IHl r IHr|kd dh]; intros R NI; try (inversion R; fail).
  - assert (Kk' : K k') by (inversion R; assumption).
    assert (NE : k2p k <> k2p k') by (intros E; apply NI; left; symmetry; apply (gk_inj _ _ _ _ G); assumption).
    destruct (distinct_diverge _ _ NE) as (c & x & y & D); [rewrite !(gk_len _ _ _ _ G) by assumption; reflexivity|].
    exists (TLeaf k' v'), []. destruct D as [(E1 & E2)|(E1 & E2)].
    + destruct (join (TLeaf k v) (TLeaf k' v') c x y (R_leaf _ _ Kk) R E1 E2) as (J1 & J2 & J3). exists (TInner c (TLeaf k v) (TLeaf k' v')).
      split; [reflexivity|]. split; [reflexivity|]. rewrite J1. split; [reflexivity|]. split; [exact J3|]. reflexivity.
    + destruct (join (TLeaf k' v') (TLeaf k v) c y x R (R_leaf _ _ Kk) E2 E1) as (J1 & J2 & J3). exists (TInner c (TLeaf k' v') (TLeaf k v)).
      split; [reflexivity|]. split; [reflexivity|]. rewrite J2. split; [reflexivity|]. split; [exact J3|]. apply perm_swap.
  - inversion R as [|? ? ? Rl Rr Hl Hr]; subst. cbn [entries] in NI. rewrite map_app, in_app_iff in NI.
    destruct (descend_step p l r k R Kk) as [(s & E & D)|[(s & E & D)|(NS & D)]]; rewrite D.
    + destruct (IHl Rl ltac:(tauto)) as (c & sibs & t' & -> & B & RB & R' & P). cbn [bind]. exists c, (sibs ++ [r]), (TInner p t' r).
      split; [reflexivity|]. split; [exact B|].
      assert (S' : forall k0 v0, In (k0, v0) (entries t') -> starts (p ++ [false]) (k2p k0)).
      { intros k0 v0 H0. apply (Permutation_in _ P) in H0. destruct H0 as [H0|H0]; [inversion H0; subst; apply starts_bit; eauto|eauto]. }
      destruct (proj1 (starts_bit _ _ _) (radix_longest t' _ R' S')) as (x & Ex). destruct (proj1 (starts_bit _ _ _) (radix_longest r _ Rr Hr)) as (y & Ey).
      destruct (join t' r p x y R' Rr Ex Ey) as (J1 & J2 & J3).
      destruct (tinner_new ct M k2p (TLeaf k v) c) as [tip|]; cbn [bind] in RB |- *; [|discriminate]. rewrite rebuild_app, RB. cbn [bind rebuild]. rewrite J1.
      split; [reflexivity|]. split; [exact J3|]. cbn [entries]. rewrite P. reflexivity.
    + destruct (IHr Rr ltac:(tauto)) as (c & sibs & t' & -> & B & RB & R' & P). cbn [bind]. exists c, (sibs ++ [l]), (TInner p l t').
      split; [reflexivity|]. split; [exact B|].
      assert (S' : forall k0 v0, In (k0, v0) (entries t') -> starts (p ++ [true]) (k2p k0)).
      { intros k0 v0 H0. apply (Permutation_in _ P) in H0. destruct H0 as [H0|H0]; [inversion H0; subst; apply starts_bit; eauto|eauto]. }
      destruct (proj1 (starts_bit _ _ _) (radix_longest t' _ R' S')) as (x & Ex). destruct (proj1 (starts_bit _ _ _) (radix_longest l _ Rl Hl)) as (y & Ey).
      destruct (join l t' p y x Rl R' Ey Ex) as (J1 & J2 & J3).
      destruct (tinner_new ct M k2p (TLeaf k v) c) as [tip|]; cbn [bind] in RB |- *; [|discriminate]. rewrite rebuild_app, RB. cbn [bind rebuild]. rewrite J2.
      split; [reflexivity|]. split; [exact J3|]. cbn [entries]. rewrite P. symmetry. apply Permutation_middle.
    + exists (TInner p l r), []. pose proof (inner_short _ _ _ R) as L. pose proof (gk_len _ _ _ _ G k Kk) as Ln.
      destruct (diverge p (k2p k) NS) as (c & x & y & DD); [intros H; apply starts_len in H; lia|].
      destruct DD as [(E1 & E2)|(E1 & E2)].
      * destruct (join (TInner p l r) (TLeaf k v) c x y R (R_leaf _ _ Kk) E1 E2) as (J1 & J2 & J3). exists (TInner c (TInner p l r) (TLeaf k v)).
        split; [reflexivity|]. split; [reflexivity|]. rewrite J2. split; [reflexivity|]. split; [exact J3|]. cbn [entries]. symmetry. apply Permutation_cons_append.
      * destruct (join (TLeaf k v) (TInner p l r) c y x (R_leaf _ _ Kk) R E2 E1) as (J1 & J2 & J3). exists (TInner c (TLeaf k v) (TInner p l r)).
        split; [reflexivity|]. split; [reflexivity|]. rewrite J1. split; [reflexivity|]. split; [exact J3|]. reflexivity.
Qed.

Definition keep_nonempty : mbt -> result unit := fun s => assert (negb (bkind_eqb (bkind_of s) BEmpty)).
Lemma keep_radix t : radix t -> keep_nonempty t = Ok tt.
Proof. destruct 1; reflexivity. Qed.

Lemma remove_radix k v : K k -> forall t, radix t -> In (k, v) (entries t) -> exists sibs, descend t (k2p k) = Ok (TLeaf k v :: sibs) /\
  match sibs with
  | [] => t = TLeaf k v
  | tip :: rest => exists t', rebuild ct M k2p keep_nonempty tip rest = Ok t' /\ radix t' /\ Permutation (entries t) ((k, v) :: entries t')
  end.
Proof.
  intros Kk. induction t as [|k' v'|p l IHl r IHr|kd dh]; intros R IN; try (inversion R; fail).
  - destruct IN as [H|[]]. inversion H; subst. exists []. split; reflexivity.
  - inversion R as [|? ? ? Rl Rr Hl Hr]; subst. cbn [entries] in IN. apply in_app_or in IN.
    destruct (descend_step p l r k R Kk) as [(s & E & D)|[(s & E & D)|(NS & D)]]; rewrite D.
    + assert (INl : In (k, v) (entries l)).
      { destruct IN as [H|H]; [exact H|]. apply Hr in H. exfalso. apply (starts_bits_neq p true (k2p k) H). apply starts_bit. eauto. }
      destruct (IHl Rl INl) as (sibs & -> & X). cbn [bind]. exists (sibs ++ [r]). split; [reflexivity|]. destruct sibs as [|tip rest]; cbn [app].
      * subst l. exists r. split; [reflexivity|]. split; [exact Rr|]. reflexivity.
      * destruct X as (t' & RB & R' & P). rewrite rebuild_app, RB. cbn [bind rebuild]. rewrite (keep_radix _ Rr). cbn [bind].
        assert (S' : forall k0 v0, In (k0, v0) (entries t') -> starts (p ++ [false]) (k2p k0)).
        { intros k0 v0 H0. apply (Hl k0 v0). apply (Permutation_in _ (Permutation_sym P)). right. exact H0. }
        destruct (proj1 (starts_bit _ _ _) (radix_longest t' _ R' S')) as (x & Ex). destruct (proj1 (starts_bit _ _ _) (radix_longest r _ Rr Hr)) as (y & Ey).
        destruct (join t' r p x y R' Rr Ex Ey) as (J1 & J2 & J3). rewrite J1. exists (TInner p t' r). split; [reflexivity|]. split; [exact J3|]. cbn [entries]. rewrite P. reflexivity.
    + assert (INr : In (k, v) (entries r)).
      { destruct IN as [H|H]; [|exact H]. apply Hl in H. exfalso. apply (starts_bits_neq p false (k2p k) H). apply starts_bit. eauto. }
      destruct (IHr Rr INr) as (sibs & -> & X). cbn [bind]. exists (sibs ++ [l]). split; [reflexivity|]. destruct sibs as [|tip rest]; cbn [app].
      * subst r. exists l. split; [reflexivity|]. split; [exact Rl|]. cbn [entries]. symmetry. apply Permutation_cons_append.
      * destruct X as (t' & RB & R' & P). rewrite rebuild_app, RB. cbn [bind rebuild]. rewrite (keep_radix _ Rl). cbn [bind].
        assert (S' : forall k0 v0, In (k0, v0) (entries t') -> starts (p ++ [true]) (k2p k0)).
        { intros k0 v0 H0. apply (Hr k0 v0). apply (Permutation_in _ (Permutation_sym P)). right. exact H0. }
        destruct (proj1 (starts_bit _ _ _) (radix_longest t' _ R' S')) as (x & Ex). destruct (proj1 (starts_bit _ _ _) (radix_longest l _ Rl Hl)) as (y & Ey).
        destruct (join l t' p y x Rl R' Ey Ex) as (J1 & J2 & J3). rewrite J2. exists (TInner p l t'). split; [reflexivity|]. split; [exact J3|]. cbn [entries]. rewrite P.
        symmetry. apply Permutation_middle.
    + exfalso. apply NS. destruct IN as [H|H]; [apply Hl in H|apply Hr in H]; (eapply starts_trans; [apply starts_app|exact H]).
Qed.

(** Where the descent ends. *)
Lemma find_radix k : K k -> forall t, radix t -> exists c sibs, descend t (k2p k) = Ok (c :: sibs) /\
  ((exists k' v', c = TLeaf k' v' /\ In (k', v') (entries t)) \/ exists p l r, c = TInner p l r).
Proof.
  intros Kk. induction t as [|k' v'|p l IHl r IHr|kd dh]; intros R; try (inversion R; fail).
  - exists (TLeaf k' v'), []. split; [reflexivity|]. left. exists k', v'. split; [reflexivity|left; reflexivity].
  - inversion R as [|? ? ? Rl Rr Hl Hr]; subst.
    destruct (descend_step p l r k R Kk) as [(s & E & D)|[(s & E & D)|(NS & D)]]; rewrite D.
    + destruct (IHl Rl) as (c & sibs & -> & X). cbn [bind]. exists c, (sibs ++ [r]). split; [reflexivity|].
      destruct X as [(k' & v' & -> & H)|X]; [left; exists k', v'; split; [reflexivity|cbn; apply in_or_app; auto]|right; exact X].
    + destruct (IHr Rr) as (c & sibs & -> & X). cbn [bind]. exists c, (sibs ++ [l]). split; [reflexivity|].
      destruct X as [(k' & v' & -> & H)|X]; [left; exists k', v'; split; [reflexivity|cbn; apply in_or_app; auto]|right; exact X].
    + exists (TInner p l r), []. split; [reflexivity|]. right. eauto.
Qed.

Lemma radix_nodup t : radix t -> NoDup (map fst (entries t)).
Proof.
  induction 1 as [k v Kk|p l r Rl IHl Rr IHr Hl Hr]; [repeat constructor; intros []|]. cbn [entries]. rewrite map_app.
  assert (ND : forall x, In x (map fst (entries l)) -> ~ In x (map fst (entries r))).
  { intros x H1 H2. apply in_map_iff in H1. destruct H1 as ((k1 & v1) & E1 & H1). apply in_map_iff in H2. destruct H2 as ((k2 & v2) & E2 & H2).
    cbn in *. subst. apply Hl in H1. apply Hr in H2. exact (starts_bits_neq p false _ H1 H2). }
  revert IHl ND. generalize (map fst (entries l)) as L. induction L as [|x L IHL]; intros NL ND; cbn; [exact IHr|]. inversion NL; subst. constructor.
  - rewrite in_app_iff. intros [X|X]; [contradiction|]. exact (ND x (or_introl eq_refl) X).
  - apply IHL; [assumption|]. intros y Hy. apply ND. right. exact Hy.
Qed.

Lemma same_key (k v v' : val) D : NoDup (map fst D) -> In (k, v) D -> In (k, v') D -> v = v'.
Proof.
  induction D as [|[k0 v0] D IH]; intros ND H1 H2; [destruct H1|]. cbn in ND. inversion ND as [|? ? N1 N2]; subst.
  destruct H1 as [H1|H1], H2 as [H2|H2].
  - congruence.
  - inversion H1; subst. exfalso. apply N1. apply (in_map fst) in H2. exact H2.
  - inversion H2; subst. exfalso. apply N1. apply (in_map fst) in H1. exact H1.
  - apply IH; assumption.
Qed.

(** ** Operations on trees *)

Definition tree (t : mbt) : Prop := t = TEmpty \/ radix t.

Lemma tleaf_new_ok k v : entry_ok ct M k v -> tleaf_new ct M k v = Ok (TLeaf k v).
Proof. intros (p & E). unfold tleaf_new. rewrite E. reflexivity. Qed.

Lemma put_ok t k v : tree t -> K k -> entry_ok ct M k v -> ~ In k (map fst (entries t)) ->
  exists t', put ct M k2p t k v = Ok t' /\ radix t' /\ Permutation (entries t') ((k, v) :: entries t).
Proof.
  intros T Kk E NI. unfold put. rewrite (tleaf_new_ok _ _ E). cbn [bind prefix_of]. destruct T as [->|R].
  - cbn. exists (TLeaf k v). split; [reflexivity|]. split; [constructor; exact Kk|reflexivity].
  - destruct (put_radix k v Kk t R NI) as (c & sibs & t' & -> & B & RB & X). cbn [bind]. rewrite B. exists t'. split; [exact RB|exact X].
Qed.

Lemma key_eq k1 k2 : K k1 -> K k2 -> py_eq ct k1 k2 = Ok (if (match py_eq ct k1 k2 with Ok b => b | _ => false end) then true else false).
Proof. intros H1 H2. destruct (gk_eq _ _ _ _ G k1 k2 H1 H2) as (b & -> & _). destruct b; reflexivity. Qed.
Lemma key_eq_refl k : K k -> py_eq ct k k = Ok true.
Proof. intros H. destruct (gk_eq _ _ _ _ G k k H H) as (b & -> & E). f_equal. apply E. reflexivity. Qed.
Lemma key_neq k1 k2 : K k1 -> K k2 -> k1 <> k2 -> py_eq ct k1 k2 = Ok false.
Proof. intros H1 H2 N. destruct (gk_eq _ _ _ _ G k1 k2 H1 H2) as (b & -> & E). f_equal. destruct b; [exfalso; apply N, E; reflexivity|reflexivity]. Qed.

Lemma put_present t k v v' : tree t -> K k -> entry_ok ct M k v -> In (k, v') (entries t) -> put ct M k2p t k v = Err AssertionError.
Proof.
  intros T Kk E IN. unfold put. rewrite (tleaf_new_ok _ _ E). cbn [bind prefix_of]. destruct T as [->|R]; [destruct IN|].
  destruct (remove_radix k v' Kk t R IN) as (sibs & -> & _). cbn [bind bkind_of bkind_eqb]. unfold tinner_new. cbn [prefix_of bind].
  assert (bools_eqb (k2p k) (k2p k) = true) as -> by (apply bools_eqb_spec; reflexivity). reflexivity.
Qed.

Lemma remove_ok t k v : tree t -> K k -> In (k, v) (entries t) ->
  exists t', remove ct M k2p t k = Ok t' /\ tree t' /\ Permutation (entries t) ((k, v) :: entries t').
Proof.
  intros T Kk IN. destruct T as [->|R]; [destruct IN|]. unfold remove. destruct (remove_radix k v Kk t R IN) as (sibs & -> & X).
  cbn [bind bkind_of bkind_eqb key_of]. rewrite (key_eq_refl k Kk). cbn [bind]. destruct sibs as [|tip rest].
  - subst t. exists TEmpty. split; [reflexivity|]. split; [left; reflexivity|reflexivity].
  - destruct X as (t' & RB & R' & P). exists t'. split; [exact RB|]. split; [right; exact R'|exact P].
Qed.

Lemma remove_absent t k : tree t -> K k -> ~ In k (map fst (entries t)) -> remove ct M k2p t k = Err KeyError.
Proof.
  intros T Kk NI. unfold remove. destruct T as [->|R]; [reflexivity|]. destruct (find_radix k Kk t R) as (c & sibs & -> & X). cbn [bind].
  destruct X as [(k' & v' & -> & H)|(p & l & r & ->)]; [|reflexivity]. cbn [bkind_of bkind_eqb key_of bind].
  rewrite (key_neq k' k); [reflexivity|eapply radix_keys; eassumption|exact Kk|]. intros ->. apply NI. apply (in_map fst) in H. exact H.
Qed.

Lemma getitem_present t k v : tree t -> K k -> In (k, v) (entries t) -> tgetitem ct k2p t k = Ok v.
Proof.
  intros T Kk IN. destruct T as [->|R]; [destruct IN|]. unfold tgetitem. destruct (remove_radix k v Kk t R IN) as (sibs & -> & _).
  cbn [bind key_of]. rewrite (key_eq_refl k Kk). reflexivity.
Qed.
Lemma getitem_absent t k : tree t -> K k -> ~ In k (map fst (entries t)) -> tgetitem ct k2p t k = Err KeyError.
Proof.
  intros T Kk NI. unfold tgetitem. destruct T as [->|R]; [reflexivity|]. destruct (find_radix k Kk t R) as (c & sibs & -> & X). cbn [bind].
  destruct X as [(k' & v' & -> & H)|(p & l & r & ->)]; [|reflexivity]. cbn [key_of bind].
  rewrite (key_neq k' k); [reflexivity|eapply radix_keys; eassumption|exact Kk|]. intros ->. apply NI. apply (in_map fst) in H. exact H.
Qed.

Lemma tlen_radix t : tree t -> tlen t = Ok (List.length (entries t)).
Proof.
  intros [->|R]; [reflexivity|]. induction R as [k v Kk|p l r Rl IHl Rr IHr Hl Hr]; [reflexivity|]. cbn [tlen entries]. rewrite IHl, IHr, app_length. reflexivity.
Qed.
Lemma tkeys_radix t : tree t -> tkeys t = Ok (map fst (entries t)) /\ tvalues t = Ok (map snd (entries t)).
Proof.
  intros [->|R]; [split; reflexivity|]. induction R as [k v Kk|p l r Rl [IHl IHl'] Rr [IHr IHr'] Hl Hr]; [split; reflexivity|].
  cbn [tkeys tvalues entries]. rewrite IHl, IHr, IHl', IHr', !map_app. split; reflexivity.
Qed.
Lemma titems_radix t : tree t -> titems t = Ok (entries t).
Proof.
  intros T. destruct (tkeys_radix t T) as (E1 & E2). unfold titems. rewrite E1, E2. cbn [bind]. f_equal. clear E1 E2.
  induction (entries t) as [|[a b] D IH]; cbn; [reflexivity|]. rewrite IH. reflexivity.
Qed.

Lemma StronglySorted_app {A} (R : A -> A -> Prop) l1 l2 : StronglySorted R l1 -> StronglySorted R l2 -> (forall x y, In x l1 -> In y l2 -> R x y) -> StronglySorted R (l1 ++ l2).
Proof.
  intros S1 S2 H. induction S1 as [|x l1 S1 IH F]; cbn; [exact S2|]. constructor.
  - apply IH. intros a b Ha Hb. apply H; [right; exact Ha|exact Hb].
  - apply Forall_app. split; [exact F|]. apply Forall_forall. intros y Hy. apply H; [left; reflexivity|exact Hy].
Qed.
Lemma sorted_radix t : tree t -> StronglySorted (before k2p) (entries t).
Proof.
  intros [->|R]; [constructor|]. induction R as [k v Kk|p l r Rl IHl Rr IHr Hl Hr]; [repeat constructor|]. cbn [entries].
  apply StronglySorted_app; try assumption. intros [k1 v1] [k2 v2] H1 H2. apply Hl in H1. apply Hr in H2.
  apply starts_bit in H1. apply starts_bit in H2. destruct H1 as (x & E1), H2 as (y & E2). exists p, x, y. split; assumption.
Qed.

(** ** Histories *)

Lemma put_all_ok D : forall t, tree t -> NoDup (map fst (D ++ entries t)) -> (forall k v, In (k, v) D -> K k /\ entry_ok ct M k v) ->
  exists t', put_all ct M k2p t D = Ok t' /\ tree t' /\ Permutation (entries t') (D ++ entries t).
Proof.
  induction D as [|[k v] D IH]; intros t T ND H; cbn [put_all].
  - exists t. split; [reflexivity|]. split; [exact T|reflexivity].
  - cbn in ND. inversion ND as [|? ? N1 N2]; subst. destruct (H k v (or_introl eq_refl)) as (Kk & EK).
    destruct (put_ok t k v T Kk EK) as (t1 & -> & R1 & P1). { intros X. apply N1. rewrite map_app. apply in_or_app. right. exact X. }
    cbn [bind]. assert (PP : Permutation (D ++ entries t1) ((k, v) :: D ++ entries t)). { rewrite P1. symmetry. apply Permutation_middle. }
    destruct (IH t1 (or_intror R1)) as (t' & E & T' & P'); [|intros; apply H; right; assumption|].
    { apply (Permutation_NoDup (Permutation_map fst (Permutation_sym PP))). exact ND. }
    exists t'. split; [exact E|]. split; [exact T'|]. rewrite P'. exact PP.
Qed.

Lemma history_ok D r : history ct M k2p K D r -> exists t, r = Ok t /\ tree t /\ Permutation (entries t) D.
Proof.
  induction 1 as [D ND H|D r k v Hy (t & -> & T & P) Kk EK NI|D1 k v D2 r Hy (t & -> & T & P)].
  - destruct (put_all_ok D TEmpty) as (t & E & T & P); [left; reflexivity|cbn; rewrite app_nil_r; exact ND|exact H|]. exists t. split; [exact E|]. split; [exact T|].
    cbn in P. rewrite app_nil_r in P. exact P.
  - cbn [bind]. destruct (put_ok t k v T Kk EK) as (t' & E & R' & P').
    { intros X. apply NI. apply (Permutation_in _ (Permutation_map fst P)). exact X. }
    exists t'. split; [exact E|]. split; [right; exact R'|]. rewrite P'. constructor. exact P.
  - cbn [bind]. assert (IN : In (k, v) (entries t)). { apply (Permutation_in _ (Permutation_sym P)). apply in_or_app. right. left. reflexivity. }
    assert (Kk : K k). { destruct T as [->|R]; [destruct IN|]. eapply radix_keys; eassumption. }
    destruct (remove_ok t k v T Kk IN) as (t' & E & T' & P'). exists t'. split; [exact E|]. split; [exact T'|].
    apply (Permutation_cons_inv (a := (k, v))). rewrite <- P', P. symmetry. apply Permutation_middle.
Qed.

(** ** The documented construction *)

Lemma filter_perm {A} (f : A -> bool) l1 l2 : Permutation l1 l2 -> Permutation (filter f l1) (filter f l2).
Proof.
  induction 1; cbn; auto.
  - destruct (f x); [constructor; assumption|assumption].
  - destruct (f x), (f y); try reflexivity. apply perm_swap.
  - eapply perm_trans; eassumption.
Qed.
Lemma filter_all {A} (f : A -> bool) l : (forall x, In x l -> f x = true) -> filter f l = l.
Proof. induction l as [|x l IH]; cbn; intros H; [reflexivity|]. rewrite (H x) by auto. rewrite IH; auto. Qed.
Lemma filter_none {A} (f : A -> bool) l : (forall x, In x l -> f x = false) -> filter f l = [].
Proof. induction l as [|x l IH]; cbn; intros H; [reflexivity|]. rewrite (H x) by auto. rewrite IH; auto. Qed.

Lemma radix_documented t : radix t -> forall D, Permutation D (entries t) -> radix_tree k2p D t.
Proof.
  induction 1 as [k v Kk|p l r Rl IHl Rr IHr Hl Hr]; intros D P.
  - apply Permutation_sym, Permutation_length_1_inv in P. subst. constructor.
  - assert (R : radix (TInner p l r)) by (constructor; assumption). cbn [entries] in P. apply RT_inner.
    + rewrite (Permutation_length P), app_length. destruct (radix_some _ Rl) as (? & ? & X), (radix_some _ Rr) as (? & ? & Y).
      destruct (entries l); [destruct X|]. destruct (entries r); [destruct Y|]. cbn. lia.
    + split.
      * intros k v H. apply (radix_pre _ R k v). apply (Permutation_in _ P). exact H.
      * intros p' H. apply starts_len. apply (radix_longest _ p' R). intros k v Hk. apply (H k v). apply (Permutation_in _ (Permutation_sym P)). exact Hk.
    + apply IHl. unfold under. rewrite (filter_perm _ _ _ P). rewrite filter_app.
      rewrite filter_all, filter_none; [rewrite app_nil_r; reflexivity| |].
      * intros [k v] H. apply Hr in H. cbn [fst]. destruct (starts_dec _ _) as [S|]; [|reflexivity]. exfalso. exact (starts_bits_neq p false _ S H).
      * intros [k v] H. apply Hl in H. cbn [fst]. destruct (starts_dec _ _) as [S|]; [reflexivity|contradiction].
    + apply IHr. unfold under. rewrite (filter_perm _ _ _ P). rewrite filter_app.
      rewrite filter_none, filter_all; [reflexivity| |].
      * intros [k v] H. apply Hr in H. cbn [fst]. destruct (starts_dec _ _) as [S|]; [reflexivity|contradiction].
      * intros [k v] H. apply Hl in H. cbn [fst]. destruct (starts_dec _ _) as [S|]; [|reflexivity]. exfalso. exact (starts_bits_neq p true _ S H).
Qed.
End Radix.

Lemma longest_unique k2p D p q : D <> [] -> longest_prefix k2p D p -> longest_prefix k2p D q -> p = q.
Proof.
  intros ND (H1 & L1) (H2 & L2). destruct D as [|[k v] D]; [contradiction|].
  pose proof (L1 q H2). pose proof (L2 p H1).
  apply starts_antisym; [|lia]. eapply starts_both; [apply (H1 k v); left; reflexivity|apply (H2 k v); left; reflexivity|lia].
Qed.

Lemma radix_tree_unique k2p D t : radix_tree k2p D t -> forall D' t', Permutation D D' -> radix_tree k2p D' t' -> t = t'.
Proof.
  induction 1 as [|k v|D p l r L LP Rl IHl Rr IHr]; intros D' t' P R'.
  - apply Permutation_nil in P. subst. inversion R'; subst; [reflexivity|cbn in *; lia].
  - apply Permutation_length_1_inv in P. subst. inversion R'; subst; [reflexivity|cbn in *; lia].
  - inversion R' as [|k v|? p' l' r' L' LP' Rl' Rr']; subst; try (apply Permutation_length in P; cbn in P; lia).
    assert (p = p') as <-.
    { eapply longest_unique; [|exact LP|]; [intros ->; cbn in L; lia|]. destruct LP' as (A & B). split.
      - intros k v H. apply (A k v). apply (Permutation_in _ P). exact H.
      - intros q H. apply B. intros k v Hk. apply (H k v). apply (Permutation_in _ (Permutation_sym P)). exact Hk. }
    f_equal; [eapply IHl|eapply IHr]; try eassumption; apply filter_perm; exact P.
Qed.
