From Coq Require Import ZifyBool ZifyNat ZifyN.
From Verif Require Import Base PySlice PySlice_Proofs Serialize_Model Proof_Model Proof_Spec Proof_Proofs ProofHash_Proofs Mmr_Model Mmr_Spec.
Local Open Scope Z_scope.

(** ** Powers of two *)

Lemma land_pow2 n e : 0 <= e -> Z.land n (2 ^ e) = if Z.testbit n e then 2 ^ e else 0.
Proof.
  intros He. apply Z.bits_inj'. intros i Hi. rewrite Z.land_spec, Z.pow2_bits_eqb by lia.
  destruct (Z.eqb_spec e i) as [<-|N]; destruct (Z.testbit n e) eqn:E; rewrite ?andb_true_r, ?andb_false_r, ?Z.bits_0, ?Z.pow2_bits_true, ?Z.pow2_bits_false by lia; congruence.
Qed.

Lemma pow2_pos e : 0 <= e -> 0 < 2 ^ e.
Proof. intros. apply Z.pow_pos_nonneg; lia. Qed.

Lemma land_pow2_eq n e : 0 <= e -> Z.land n (2 ^ e) = 2 ^ e <-> Z.testbit n e = true.
Proof. intros He. rewrite land_pow2 by exact He. pose proof (pow2_pos e He). destruct (Z.testbit n e); split; intros; try congruence; lia. Qed.

Lemma multiple_bit q j e : 0 <= e < j -> Z.testbit (q * 2 ^ j) e = false.
Proof. intros H. rewrite Z.mul_pow2_bits_low by lia. reflexivity. Qed.

Lemma odd_multiple_bit q j : 0 <= j -> Z.testbit (q * 2 ^ j) j = Z.odd q.
Proof. intros H. rewrite <- (Z.add_0_r j) at 2. rewrite Z.mul_pow2_bits_add by lia. rewrite <- Z.bit0_odd. reflexivity. Qed.

Lemma fits_below_bit n k : fits_below n k <-> exists e, 0 <= e /\ k = 2 ^ e /\ k < n /\ Z.testbit n e = true.
Proof.
  unfold fits_below, power_of_two. split.
  - intros ((e & He & ->) & Hn & HL). exists e. rewrite land_pow2_eq in HL by exact He. auto.
  - intros (e & He & -> & Hn & HT). split; [eauto|]. split; [exact Hn|]. apply land_pow2_eq; assumption.
Qed.

Lemma split_odd q j : 0 <= j -> 1 < q -> Z.odd q = true -> split_at (q * 2 ^ j) (2 ^ j).
Proof.
  intros Hj Hq Ho. pose proof (pow2_pos j Hj). left. split.
  - apply fits_below_bit. exists j. split; [exact Hj|]. split; [reflexivity|]. split; [nia|]. rewrite odd_multiple_bit by exact Hj. exact Ho.
  - intros k' H'. apply fits_below_bit in H'. destruct H' as (e & He & -> & _ & HT).
    destruct (Z.lt_ge_cases e j) as [L|G]; [rewrite multiple_bit in HT by lia; discriminate|]. apply Z.pow_le_mono_r; lia.
Qed.

Lemma split_two j : 0 <= j -> split_at (2 * 2 ^ j) (2 ^ j).
Proof.
  intros Hj. right. split.
  - intros k' H'. apply fits_below_bit in H'. destruct H' as (e & He & -> & HL & HT).
    rewrite <- Z.pow_succ_r in * by lia. rewrite Z.pow2_bits_eqb in HT by lia. assert (Z.succ j = e) as <- by lia. lia.
  - rewrite Z.mul_comm, Z.div_mul by lia. reflexivity.
Qed.

Lemma split_unique n k k' : split_at n k -> split_at n k' -> k = k'.
Proof.
  intros [[F M]|[F E]] [[F' M']|[F' E']].
  - specialize (M _ F'). specialize (M' _ F). lia.
  - exfalso. exact (F' _ F).
  - exfalso. exact (F _ F').
  - congruence.
Qed.

Lemma split_bounds n k : 1 < n -> split_at n k -> 0 < k < n.
Proof.
  intros Hn [[((e & He & ->) & L & _) _]|[_ ->]].
  - pose proof (pow2_pos e He). lia.
  - split; [|apply Z.div_lt; lia]. assert (1 <= n / 2) by (apply Z.div_le_lower_bound; lia). lia.
Qed.

(** ** Trees of the documented construction *)

Lemma doc_inv vs t1 t2 n : documented vs (Inner t1 t2 n) -> exists l1 l2, vs = l1 ++ l2 /\ n = Z.of_nat (List.length vs) /\ 1 < n /\
  split_at n (Z.of_nat (List.length l2)) /\ documented l1 t1 /\ documented l2 t2.
Proof.
  intros H. inversion H as [| |? k ? ? ? Hn H1 Hs D1 D2]; subst.
  pose proof (split_bounds _ _ H1 Hs) as B. set (m := Z.to_nat (Z.of_nat (List.length vs) - k)) in *.
  exists (firstn m vs), (skipn m vs). split; [symmetry; apply firstn_skipn|]. split; [reflexivity|]. split; [exact H1|].
  split; [|auto]. rewrite skipn_length. replace (Z.of_nat (List.length vs - m)) with k by lia. exact Hs.
Qed.

Lemma doc_app l1 l2 t1 t2 : documented l1 t1 -> documented l2 t2 -> 1 < Z.of_nat (List.length l1) + Z.of_nat (List.length l2) ->
  split_at (Z.of_nat (List.length l1) + Z.of_nat (List.length l2)) (Z.of_nat (List.length l2)) ->
  documented (l1 ++ l2) (Inner t1 t2 (Z.of_nat (List.length l1) + Z.of_nat (List.length l2))).
Proof.
  intros D1 D2 L S. eapply D_inner with (k := Z.of_nat (List.length l2)); [rewrite app_length; lia|exact L|exact S| |].
  - replace (Z.to_nat _) with (List.length l1) by lia. rewrite firstn_app, Nat.sub_diag, firstn_all. cbn. rewrite app_nil_r. exact D1.
  - replace (Z.to_nat _) with (List.length l1) by lia. rewrite skipn_app, Nat.sub_diag, skipn_all. exact D2.
Qed.

Lemma doc_items vs t : documented vs t -> items t = Ok vs.
Proof.
  revert vs; induction t as [|v|l IHl r IHr n|k dh]; intros vs H; try (inversion H; reflexivity).
  destruct (doc_inv _ _ _ _ H) as (l1 & l2 & -> & _ & _ & _ & D1 & D2). cbn [items]. rewrite (IHl _ D1), (IHr _ D2). reflexivity.
Qed.

Lemma doc_items_reversed vs t : documented vs t -> items_reversed t = Ok (rev vs).
Proof.
  revert vs; induction t as [|v|l IHl r IHr n|k dh]; intros vs H; try (inversion H; reflexivity).
  destruct (doc_inv _ _ _ _ H) as (l1 & l2 & -> & _ & _ & _ & D1 & D2). cbn [items_reversed]. rewrite (IHl _ D1), (IHr _ D2). cbn [bind].
  rewrite rev_app_distr. reflexivity.
Qed.

Lemma py_len_ok n : n < 2 ^ 63 -> py_len n = Ok n.
Proof. intros H. unfold py_len. destruct (Z.ltb_spec n (2 ^ 63)); [reflexivity|lia]. Qed.

Lemma doc_len vs t : documented vs t -> fine (List.length vs) -> mlen t = Ok (Z.of_nat (List.length vs)).
Proof.
  intros D F. inversion D; subst; try reflexivity. cbn [mlen]. apply py_len_ok. exact F.
Qed.

Lemma doc_unique vs t : documented vs t -> forall t', documented vs t' -> t = t'.
Proof.
  induction 1 as [|v|n k vs t1 t2 Hn H1 Hs D1 IH1 D2 IH2]; intros t' D'.
  - inversion D'; subst; [reflexivity|]. cbn in *. lia.
  - inversion D'; subst; [reflexivity|]. cbn in *. lia.
  - inversion D' as [|v|n' k' ? t1' t2' Hn' H1' Hs' D1' D2']; subst; try (cbn in *; lia).
    rewrite <- (split_unique _ _ _ Hs Hs') in *. rewrite (IH1 _ D1'), (IH2 _ D2'). reflexivity.
Qed.

(** No hidden node anywhere. *)
Lemma doc_class ct M sr vs t : is_mmr ct M sr -> documented vs t -> exists c, class_of (node M t) = Some c /\ In c [m_empty M; m_leaf M; m_inner M].
Proof. intros _ D. inversion D; subst; cbn; eexists; (split; [reflexivity|]); cbn; auto. Qed.

Lemma check_node ct M sr v c : wf_table ct -> is_mmr ct M sr -> class_of v = Some c -> In c [m_empty M; m_leaf M; m_inner M] ->
  check ct (SerProof (m_base M)) v = Ok tt /\ is_proof v = true.
Proof.
  intros W I E Hc. split; [|unfold is_proof; rewrite E; reflexivity]. unfold check. rewrite (mm_kinds _ _ _ I) by (left; reflexivity).
  assert (existsb (isinst ct v) [m_empty M; m_leaf M; m_inner M] = true) as ->; [|reflexivity].
  apply existsb_exists. exists c. split; [exact Hc|]. unfold isinst. rewrite E. apply existsb_exists. exists c.
  split; [apply (wf_self ct W c)|apply Nat.eqb_refl].
Qed.

Lemma construct_inner ct M sr l r n c d : wf_table ct -> is_mmr ct M sr -> class_of (node M l) = Some c -> In c [m_empty M; m_leaf M; m_inner M] ->
  class_of (node M r) = Some d -> In d [m_empty M; m_leaf M; m_inner M] -> 0 <= n < 2 ^ 64 ->
  construct ct (m_inner M) [("left"%string, node M l); ("right"%string, node M r); ("length"%string, VPrim (PyInt n))] = Ok (node M (Inner l r n)).
Proof.
  intros W I E1 I1 E2 I2 B. unfold construct. rewrite (mm_inner _ _ _ I).
  destruct (check_node ct M sr (node M l) c W I E1 I1) as (C1 & P1). destruct (check_node ct M sr (node M r) d W I E2 I2) as (C2 & P2).
  cbn [construct_loop assoc]. change (String.eqb "left" "left") with true. change (String.eqb "left" "right") with false.
  change (String.eqb "right" "right") with true. change (String.eqb "left" "length") with false. change (String.eqb "right" "length") with false.
  change (String.eqb "length" "length") with true. cbn [bind]. rewrite C1, P1, C2, P2. cbn [bind].
  assert (check ct (SerPrim UInt64) (VPrim (PyInt n)) = Ok tt) as ->; [|reflexivity].
  unfold check, UInt64. cbn.
  destruct (Z.leb_spec 0 n); [|lia]. destruct (Z.leb_spec n 18446744073709551615); [reflexivity|lia].
Qed.

Lemma inner_new_ok ct M sr l1 l2 t1 t2 : wf_table ct -> is_mmr ct M sr -> documented l1 t1 -> documented l2 t2 -> fine (List.length l1 + List.length l2) ->
  inner_new ct M t1 t2 = Ok (Inner t1 t2 (Z.of_nat (List.length l1) + Z.of_nat (List.length l2))).
Proof.
  intros W I D1 D2 F. unfold fine in F. unfold inner_new. rewrite (doc_len _ _ D1), (doc_len _ _ D2) by (unfold fine; lia). cbn [bind].
  destruct (doc_class _ _ _ _ _ I D1) as (c & E1 & I1). destruct (doc_class _ _ _ _ _ I D2) as (d & E2 & I2).
  rewrite (construct_inner ct M sr t1 t2 _ c d W I E1 I1 E2 I2) by lia. reflexivity.
Qed.

Lemma leaf_new_ok ct M v : item ct M v -> leaf_new ct M v = Ok (Leaf v).
Proof. intros (p & E). unfold leaf_new. rewrite E. reflexivity. Qed.

(** ** is_perfect_tree *)

Lemma perfect_spec n : 0 <= n -> perfect n = true <-> power_of_two n.
Proof.
  intros Hn. destruct n as [|p|p]; [|clear Hn|lia].
  - split; [discriminate|]. intros (e & He & E). pose proof (pow2_pos e He). lia.
  - induction p as [p IH|p IH|].
    + split; [discriminate|]. intros (e & He & E). exfalso. destruct (Z.eq_dec e 0) as [->|N]; [cbn in E; lia|].
      replace e with (Z.succ (e - 1)) in E by lia. rewrite Z.pow_succ_r in E by lia. lia.
    + change (perfect (Zpos p~0)) with (perfect (Zpos p)). rewrite IH. split; intros (e & He & E).
      * exists (Z.succ e). split; [lia|]. rewrite Z.pow_succ_r by lia. lia.
      * destruct (Z.eq_dec e 0) as [->|N]; [cbn in E; lia|]. exists (e - 1). split; [lia|].
        replace e with (Z.succ (e - 1)) in E by lia. rewrite Z.pow_succ_r in E by lia. lia.
    + split; [|reflexivity]. intros _. exists 0. split; [lia|reflexivity].
Qed.

(** ** append *)

(** A multiple of 2^j: an even or an odd one. *)
Lemma merge_ok ct M sr : wf_table ct -> is_mmr ct M sr -> forall t1 l1 l2 t2 j q, documented l1 t1 -> documented l2 t2 ->
  1 <= j -> Z.of_nat (List.length l2) = 2 ^ j -> Z.of_nat (List.length l1) = q * 2 ^ j -> 1 <= q -> fine (List.length l1 + List.length l2) ->
  exists t, merge_trees ct M t1 t2 = Ok t /\ documented (l1 ++ l2) t.
Proof.
  intros W I. induction t1 as [|v|tl IHl tr IHr n|k dh]; intros l1 l2 t2 j q D1 D2 Hj L2 L1 Hq F.
  - inversion D1; subst. pose proof (pow2_pos j ltac:(lia)). cbn in L1. nia.
  - inversion D1; subst. assert (2 <= 2 ^ j) by (change 2 with (2 ^ 1) at 1; apply Z.pow_le_mono_r; lia). cbn in L1. nia.
  - destruct (doc_inv _ _ _ _ D1) as (a & b & E & En & Hn & Hs & Da & Db). pose proof (pow2_pos j ltac:(lia)) as PJ. unfold fine in F.
    assert (NEW : inner_new ct M (Inner tl tr n) t2 = Ok (Inner (Inner tl tr n) t2 (Z.of_nat (List.length l1) + Z.of_nat (List.length l2)))).
    { eapply inner_new_ok; eassumption. }
    cbn [merge_trees]. rewrite py_len_ok by lia. cbn [bind]. rewrite (doc_len _ _ D2) by (unfold fine; lia). cbn [bind].
    assert (Hge : 2 ^ j <= n) by nia. rewrite L2. destruct (Z.leb_spec (2 ^ j) n) as [_|]; [|lia]. cbn [assert bind].
    assert (TB : Z.testbit n j = Z.odd q) by (replace n with (q * 2 ^ j) by lia; apply odd_multiple_bit; lia).
    rewrite land_pow2, TB by lia.
    destruct (Z.odd q) eqn:Oq.
    + destruct (Z.eqb_spec (2 ^ j) 0) as [|_]; [lia|]. destruct (Z.eqb_spec n (2 ^ j)) as [En2|Nn].
      * unfold is_perfect_tree. cbn [mlen]. rewrite py_len_ok by lia. cbn [bind].
        assert (perfect n = true) as -> by (apply perfect_spec; [lia|]; exists j; split; [lia|exact En2]). cbn [assert bind]. rewrite NEW.
        eexists. split; [reflexivity|]. apply doc_app; [exact D1|exact D2|lia|]. rewrite L2. replace (Z.of_nat (List.length l1) + 2 ^ j) with (2 * 2 ^ j) by lia.
        apply split_two. lia.
      * assert (Hq3 : 3 <= q). { assert (q <> 1) by nia. assert (q <> 2) by (intros ->; discriminate Oq). lia. }
        assert (Hb : Z.of_nat (List.length b) = 2 ^ j).
        { eapply split_unique; [exact Hs|]. replace n with (q * 2 ^ j) by lia. apply split_odd; [lia|lia|exact Oq]. }
        assert (Hla : Z.of_nat (List.length a) = (q - 1) * 2 ^ j). { subst l1. rewrite app_length in *. lia. }
        assert (LL : List.length l1 = (List.length a + List.length b)%nat) by (subst l1; apply app_length).
        rewrite (doc_len _ _ Db) by (unfold fine; lia). cbn [bind]. rewrite Hb, land_pow2 by lia.
        rewrite Z.pow2_bits_true by lia. destruct (Z.eqb_spec (2 ^ j) 0) as [|_]; [lia|]. cbn [negb assert bind].
        destruct (IHr b l2 t2 j 1 Db D2 Hj L2) as (t' & -> & D'); [lia|lia|unfold fine; lia|]. cbn [bind].
        destruct (Z.odd_spec q) as [O _]. destruct (O Oq) as (m & Em).
        destruct (IHl a (b ++ l2) t' (Z.succ j) m Da D') as (t & -> & D); [lia| | |lia| |].
        { rewrite app_length, Z.pow_succ_r by lia. lia. }
        { rewrite Z.pow_succ_r by lia. subst q. nia. }
        { unfold fine. rewrite app_length. lia. }
        exists t. split; [reflexivity|]. subst l1. rewrite <- app_assoc. exact D.
    + cbn [Z.eqb]. rewrite NEW. eexists. split; [reflexivity|]. apply doc_app; [exact D1|exact D2|lia|].
      rewrite L1, L2. replace (q * 2 ^ j + 2 ^ j) with ((q + 1) * 2 ^ j) by lia. apply split_odd; [lia|lia|].
      rewrite Z.odd_add, Oq. reflexivity.
  - inversion D1.
Qed.

Lemma append_ok ct M sr vs t v : wf_table ct -> is_mmr ct M sr -> documented vs t -> item ct M v -> fine (S (List.length vs)) ->
  exists t', append ct M t v = Ok t' /\ documented (vs ++ [v]) t'.
Proof.
  intros W I D IV F. unfold fine in F. pose proof (leaf_new_ok ct M v IV) as LV.
  assert (JOIN : forall tt n0, t = tt -> documented vs tt -> Z.of_nat (List.length vs) = n0 -> (n0 = 1 \/ 0 < n0 /\ Z.odd n0 = false) ->
    exists t', inner_new ct M tt (Leaf v) = Ok t' /\ documented (vs ++ [v]) t').
  { intros tt n0 _ Dt Hn0 C. rewrite (inner_new_ok ct M sr vs [v] tt (Leaf v) W I Dt (D_leaf v)) by (unfold fine; cbn [List.length]; lia).
    eexists. split; [reflexivity|]. apply doc_app; [exact Dt|constructor|cbn [List.length]; lia|]. cbn [List.length]. rewrite Hn0.
    destruct C as [->|[C1 C2]].
    - apply (split_two 0). lia.
    - pose proof (split_odd (n0 + 1) 0) as S. cbn in S. rewrite Z.mul_1_r in S. apply S; [lia|lia|]. rewrite Z.odd_add, C2. reflexivity. }
  destruct t as [|w|l r n|k dh].
  - inversion D; subst. cbn [append]. rewrite LV. eexists. split; [reflexivity|constructor].
  - inversion D; subst. cbn [append]. rewrite LV. cbn [bind]. eapply JOIN; [reflexivity|exact D|reflexivity|left; reflexivity].
  - destruct (doc_inv _ _ _ _ D) as (a & b & E & En & Hn & Hs & Da & Db).
    cbn [append]. rewrite py_len_ok by lia. cbn [bind]. change 1 with (2 ^ 0) at 1. rewrite land_pow2, Z.bit0_odd by lia.
    destruct (Z.odd n) eqn:On.
    + change (2 ^ 0 =? 0) with false. cbv iota.
      assert (Hb : Z.of_nat (List.length b) = 1).
      { eapply split_unique; [exact Hs|]. pose proof (split_odd n 0) as S. cbn in S. rewrite Z.mul_1_r in S. apply S; [lia|lia|exact On]. }
      destruct b as [|x [|]]; try (cbn in Hb; lia). inversion Db; subst; [|cbn in *; lia].
      cbn [append]. rewrite LV. cbn [bind]. rewrite (inner_new_ok ct M sr [x] [v] _ _ W I (D_leaf x) (D_leaf v)) by (unfold fine; cbn; lia). cbn [bind].
      assert (D2 : documented ([x] ++ [v]) (Inner (Leaf x) (Leaf v) (Z.of_nat (List.length [x]) + Z.of_nat (List.length [v])))).
      { apply doc_app; [constructor|constructor|cbn; lia|]. apply (split_two 0). lia. }
      rewrite app_length in *. cbn [List.length] in *.
      assert (exists m, Z.of_nat (List.length a) = m * 2 ^ 1 /\ 1 <= m) as (m & Hm & Hm1).
      { apply Z.odd_spec in On. destruct On as (m & Em). exists m. split; lia. }
      destruct (merge_ok ct M sr W I l a _ _ 1 m Da D2) as (t' & -> & D'); [lia|reflexivity|exact Hm|exact Hm1|unfold fine; cbn; lia|].
      exists t'. split; [reflexivity|]. rewrite <- app_assoc. exact D'.
    + cbn [Z.eqb]. rewrite LV. cbn [bind]. eapply JOIN; [reflexivity|exact D|symmetry; exact En|]. right. split; [lia|exact On].
  - inversion D.
Qed.

Lemma extend_ok ct M sr : wf_table ct -> is_mmr ct M sr -> forall vs' vs t, documented vs t -> Forall (item ct M) vs' -> fine (List.length vs + List.length vs') ->
  exists t', extend ct M t vs' = Ok t' /\ documented (vs ++ vs') t'.
Proof.
  intros W I. induction vs' as [|v vs' IH]; intros vs t D IV F.
  - exists t. rewrite app_nil_r. split; [reflexivity|exact D].
  - inversion IV; subst. unfold fine in F. cbn [List.length] in F.
    destruct (append_ok ct M sr vs t v W I D H1) as (t1 & E1 & D1); [unfold fine; lia|].
    destruct (IH _ _ D1 H2) as (t' & E & D'); [unfold fine; rewrite app_length; cbn; lia|].
    exists t'. cbn [extend]. rewrite E1. cbn [bind]. rewrite E. split; [reflexivity|]. rewrite <- app_assoc in D'. exact D'.
Qed.

Lemma built_ok ct M sr vs r : wf_table ct -> is_mmr ct M sr -> built ct M vs r -> Forall (item ct M) vs -> fine (List.length vs) ->
  exists t, r = Ok t /\ documented vs t.
Proof.
  intros W I B. induction B as [vs|vs r v B IH|vs r vs' B IH]; intros IV F.
  - destruct (extend_ok ct M sr W I vs [] Empty D_empty IV F) as (t & E & D). exists t. split; [exact E|exact D].
  - apply Forall_app in IV. destruct IV as (IV & IV'). inversion IV'; subst. unfold fine in F. rewrite app_length in F. cbn in F.
    destruct IH as (t & -> & D); [exact IV|unfold fine; lia|]. cbn [bind]. eapply append_ok; eauto. unfold fine; lia.
  - apply Forall_app in IV. destruct IV as (IV & IV'). unfold fine in F. rewrite app_length in F.
    destruct IH as (t & -> & D); [exact IV|unfold fine; lia|]. cbn [bind]. eapply extend_ok; eauto.
Qed.

(** ** Indexing *)

Lemma znth_app_l {A} (l1 l2 : list A) i : i < Z.of_nat (List.length l1) -> znth (l1 ++ l2) i = znth l1 i.
Proof. intros H. unfold znth. destruct (Z.ltb_spec i 0); [reflexivity|]. apply nth_error_app1. lia. Qed.
Lemma znth_app_r {A} (l1 l2 : list A) i : Z.of_nat (List.length l1) <= i -> znth (l1 ++ l2) i = znth l2 (i - Z.of_nat (List.length l1)).
Proof.
  intros H. unfold znth. destruct (Z.ltb_spec i 0); [lia|]. destruct (Z.ltb_spec (i - Z.of_nat (List.length l1)) 0); [lia|].
  rewrite nth_error_app2 by lia. f_equal. lia.
Qed.
Lemma znth_out {A} (l : list A) i : ~ (0 <= i < Z.of_nat (List.length l)) -> znth l i = None.
Proof. intros H. unfold znth. destruct (Z.ltb_spec i 0); [reflexivity|]. apply nth_error_None. lia. Qed.

Lemma getitem_ok vs t : documented vs t -> fine (List.length vs) -> forall i, getitem t i = py_index vs i.
Proof.
  revert vs; induction t as [|v|l IHl r IHr n|k dh]; intros vs D F i.
  - inversion D; subst. unfold py_index. rewrite znth_out by (cbn [List.length]; destruct (i <? 0); lia). reflexivity.
  - inversion D; subst. cbn [getitem]. unfold py_index. cbn [List.length].
    destruct (Z.eqb_spec i 0) as [->|N0]; [reflexivity|]. destruct (Z.eqb_spec i (-1)) as [->|N1]; [reflexivity|]. cbn [orb].
    rewrite znth_out; [reflexivity|]. cbn [List.length]. destruct (Z.ltb_spec i 0); lia.
  - destruct (doc_inv _ _ _ _ D) as (a & b & -> & En & Hn & Hs & Da & Db). unfold fine in F. rewrite app_length in *.
    cbn [getitem]. unfold py_index.
    rewrite py_len_ok by lia. rewrite app_length. set (j := if i <? 0 then i + Z.of_nat (List.length a + List.length b) else i).
    assert (Ej : (if i <? 0 then do n0 <- Ok n; Ok (n0 + i) else Ok i) = Ok j).
    { unfold j. destruct (i <? 0); cbn [bind]; [|reflexivity]. rewrite En. f_equal. lia. }
    rewrite Ej. cbn [bind]. clearbody j. clear Ej i.
    destruct (Z.leb_spec 0 j) as [J0|J0]; cbn [andb negb].
    2:{ rewrite znth_out by (rewrite app_length; lia). reflexivity. }
    destruct (Z.ltb_spec j n) as [J1|J1]; cbn [andb negb].
    2:{ rewrite znth_out by (rewrite app_length; lia). reflexivity. }
    rewrite (doc_len _ _ Da) by (unfold fine; lia). cbn [bind].
    destruct (Z.ltb_spec j (Z.of_nat (List.length a))) as [J2|J2].
    + rewrite (IHl _ Da) by (unfold fine; lia). unfold py_index. destruct (Z.ltb_spec j 0); [lia|]. rewrite znth_app_l by lia. reflexivity.
    + rewrite (doc_len _ _ Db) by (unfold fine; lia). cbn [bind].
      destruct (Z.leb_spec (Z.of_nat (List.length a)) j); [|lia].
      destruct (Z.ltb_spec j (Z.of_nat (List.length a) + Z.of_nat (List.length b))); [|lia]. cbn [andb].
      rewrite (IHr _ Db) by (unfold fine; lia). unfold py_index. destruct (Z.ltb_spec (j - Z.of_nat (List.length a)) 0); [lia|]. rewrite znth_app_r by lia. reflexivity.
  - inversion D.
Qed.

(** ** Slices *)

Lemma indices_unit a b len : 0 <= a -> 0 <= b -> 0 <= len ->
  slice_indices (Slice (Some a) (Some b) (Some 1)) len = Ok (Z.min a len, Z.min b len, 1).
Proof.
  intros. unfold slice_indices, adjust. cbn [sl_start sl_stop sl_step]. change (1 =? 0) with false. change (1 <? 0) with false. cbv iota zeta.
  destruct (Z.ltb_spec a 0); [lia|]. destruct (Z.ltb_spec b 0); [lia|]. reflexivity.
Qed.

Lemma seg_app_l {A} (l1 l2 : list A) i n : (i + n <= List.length l1)%nat -> firstn n (skipn i (l1 ++ l2)) = firstn n (skipn i l1).
Proof.
  intros H. rewrite skipn_app, firstn_app, skipn_length. replace (n - (List.length l1 - i))%nat with 0%nat by lia. cbn. apply app_nil_r.
Qed.
Lemma seg_app_r {A} (l1 l2 : list A) i n : (List.length l1 <= i)%nat -> firstn n (skipn i (l1 ++ l2)) = firstn n (skipn (i - List.length l1) l2).
Proof. intros H. rewrite skipn_app, skipn_all2 by lia. reflexivity. Qed.
Lemma seg_app_both {A} (l1 l2 : list A) i n : (i <= List.length l1)%nat -> (List.length l1 <= i + n)%nat ->
  firstn n (skipn i (l1 ++ l2)) = firstn (List.length l1 - i) (skipn i l1) ++ firstn (i + n - List.length l1) l2.
Proof.
  intros H1 H2. rewrite skipn_app, firstn_app, skipn_length. replace (i - List.length l1)%nat with 0%nat by lia. cbn [skipn].
  f_equal; [|f_equal; lia]. rewrite !firstn_all2 by (rewrite skipn_length; lia). reflexivity.
Qed.

Lemma getslice_ok ct M sr : wf_table ct -> is_mmr ct M sr -> forall t vs, documented vs t -> Forall (item ct M) vs -> fine (List.length vs) ->
  forall s a b, slice_indices s (Z.of_nat (List.length vs)) = Ok (a, b, 1) -> a <= b ->
  exists t', getslice ct M t s = Ok t' /\ documented (firstn (Z.to_nat (b - a)) (skipn (Z.to_nat a) vs)) t'.
Proof.
  intros W I. induction t as [|v|l IHl r IHr n|k dh]; intros vs D IV F s a b E LE; pose proof (slice_indices_bounds s (Z.of_nat (List.length vs)) a b 1 ltac:(lia) E) as BB.
  - inversion D; subst. cbn [getslice]. cbn [List.length] in E. change (Z.of_nat 0) with 0 in E. rewrite E. exists Empty. split; [reflexivity|].
    rewrite skipn_nil, firstn_nil. constructor.
  - inversion D; subst. cbn [List.length] in *. change (Z.of_nat 1) with 1 in *. cbn [getslice]. rewrite E. cbn [bind]. change (1 =? 1) with true. cbn [negb].
    destruct (Z.leb_spec a 0); [destruct (Z.leb_spec 1 b)|]; cbn [andb].
    + assert (a = 0) as -> by lia. assert (b = 1) as -> by lia. exists (Leaf v). split; [reflexivity|exact D].
    + assert (a = 0) as -> by lia. assert (b = 0) as -> by lia. exists Empty. split; [reflexivity|constructor].
    + assert (a = 1) as -> by lia. assert (b = 1) as -> by lia. exists Empty. split; [reflexivity|constructor].
  - destruct (doc_inv _ _ _ _ D) as (la & lb & -> & En & Hn & Hs & Da & Db). unfold fine in F. rewrite <- En in E, BB. rewrite app_length in *.
    apply Forall_app in IV. destruct IV as (IVa & IVb). cbn [getslice]. rewrite py_len_ok by lia. cbn [bind]. rewrite E. cbn [bind].
    change (1 =? 1) with true. cbn [negb].
    assert (BND : 0 <= a <= n /\ 0 <= b <= n) by lia. clear BB.
    destruct ((a <=? 0) && (n <=? b)) eqn:FULL.
    { assert (a = 0) as -> by lia. assert (b = n) as -> by lia. eexists. split; [reflexivity|]. change (Z.to_nat 0) with 0%nat. cbn [skipn].
      rewrite firstn_all2 by (rewrite app_length; lia). exact D. }
    rewrite (doc_len _ _ Da) by (unfold fine; lia). cbn [bind].
    destruct (Z.ltb_spec a (Z.of_nat (List.length la))) as [A1|A1].
    + destruct (IHl la Da IVa ltac:(unfold fine; lia) (Slice (Some a) (Some b) (Some 1)) a (Z.min b (Z.of_nat (List.length la)))) as (t1 & E1 & D1).
      { rewrite indices_unit by lia. rewrite (Z.min_l a) by lia. reflexivity. } { lia. }
      rewrite E1. cbn [bind]. destruct (Z.ltb_spec (Z.of_nat (List.length la)) b) as [B1|B1].
      * destruct (IHr lb Db IVb ltac:(unfold fine; lia) (Slice (Some 0) (Some (b - Z.of_nat (List.length la))) (Some 1)) 0 (b - Z.of_nat (List.length la))) as (t2 & E2 & D2).
        { rewrite indices_unit by lia. rewrite !Z.min_l by lia. reflexivity. } { lia. }
        rewrite E2. cbn [bind]. rewrite (doc_items _ _ D2). cbn [bind]. change (skipn (Z.to_nat 0) lb) with lb in D2 |- *. rewrite Z.sub_0_r in *.
        destruct (extend_ok ct M sr W I (firstn (Z.to_nat (b - Z.of_nat (List.length la))) lb) _ t1 D1) as (t' & E' & D').
        { apply Forall_forall. intros x Hx. rewrite Forall_forall in IVb. apply IVb. rewrite <- (firstn_skipn (Z.to_nat (b - Z.of_nat (List.length la))) lb). apply in_or_app. left. exact Hx. }
        { unfold fine. rewrite !firstn_length, skipn_length. lia. }
        exists t'. split; [exact E'|]. rewrite seg_app_both by lia.
        replace (List.length la - Z.to_nat a)%nat with (Z.to_nat (Z.min b (Z.of_nat (List.length la)) - a)) by lia.
        replace (Z.to_nat a + Z.to_nat (b - a) - List.length la)%nat with (Z.to_nat (b - Z.of_nat (List.length la))) by lia. exact D'.
      * exists t1. split; [reflexivity|]. rewrite seg_app_l by lia. replace (Z.min b (Z.of_nat (List.length la))) with b in D1 by lia. exact D1.
    + destruct (Z.leb_spec (Z.of_nat (List.length la)) a) as [_|]; [|lia]. destruct (Z.ltb_spec a n) as [A2|A2]; cbn [andb].
      * destruct (IHr lb Db IVb ltac:(unfold fine; lia) (Slice (Some (a - Z.of_nat (List.length la))) (Some (b - Z.of_nat (List.length la))) (Some 1))
          (a - Z.of_nat (List.length la)) (b - Z.of_nat (List.length la))) as (t2 & E2 & D2).
        { rewrite indices_unit by lia. rewrite !Z.min_l by lia. reflexivity. } { lia. }
        exists t2. split; [exact E2|]. rewrite seg_app_r by lia. replace (Z.to_nat a - List.length la)%nat with (Z.to_nat (a - Z.of_nat (List.length la))) by lia.
        replace (b - a) with (b - Z.of_nat (List.length la) - (a - Z.of_nat (List.length la))) by lia. exact D2.
      * assert (a = n) as -> by lia. assert (b = n) as -> by lia. exists Empty. split; [reflexivity|]. rewrite Z.sub_diag. constructor.
  - inversion D.
Qed.

(** ** Agreement of proof objects with equal hash *)

Inductive mirror (ct : ctable) : mmr -> mmr -> Prop :=
| M_empty : mirror ct Empty Empty
| M_leaf v w : agree ct v w -> mirror ct (Leaf v) (Leaf w)
| M_inner l r l' r' n : mirror ct l l' -> mirror ct r r' -> mirror ct (Inner l r n) (Inner l' r' n)
| M_left k dh t : kind_of t = k -> mirror ct (Pruned k dh) t
| M_right k dh t : kind_of t = k -> mirror ct t (Pruned k dh).

Lemma class_kind M t : class_of (node M t) = Some (kind_class M (kind_of t)).
Proof. destruct t; reflexivity. Qed.

Lemma kind_class_inj ct M sr k k' : is_mmr ct M sr -> kind_class M k = kind_class M k' -> k = k'.
Proof.
  intros I E. pose proof (mm_distinct _ _ _ I) as ND. inversion ND as [|? ? N1 ND1]; subst. inversion ND1 as [|? ? N2 ND2]; subst. inversion ND2 as [|? ? N3 _]; subst.
  cbn [In] in *. destruct k, k'; cbn in E; try reflexivity; exfalso; try rewrite <- E in *; try rewrite E in *; intuition congruence.
Qed.

Lemma mirror_refl ct t : mirror ct t t.
Proof. induction t; constructor; auto. apply A_refl. Qed.

Lemma agree_prim ct v w : agree ct (VPrim v) (VPrim w) -> v = w.
Proof. intros H. inversion H; reflexivity. Qed.

Lemma agree_kind ct M sr t1 t2 : is_mmr ct M sr -> agree ct (node M t1) (node M t2) -> kind_of t1 = kind_of t2.
Proof.
  intros I A. apply (kind_class_inj ct M sr); [exact I|].
  assert (X : class_of (node M t1) = class_of (node M t2)).
  { destruct A as [v|c fs1 fs2 F|c dh w E1 E2|c dh w E1 E2]; try reflexivity; rewrite E1; reflexivity. }
  rewrite !class_kind in X. congruence.
Qed.

Lemma agree_mirror ct M sr : is_mmr ct M sr -> forall t1 t2, agree ct (node M t1) (node M t2) -> mirror ct t1 t2.
Proof.
  intros I. induction t1 as [|v|l IHl r IHr n|k dh]; intros t2 A.
  all: pose proof (agree_kind ct M sr _ _ I A) as EK; destruct t2 as [|v2|l2 r2 n2|k2 dh2]; cbn [kind_of] in EK; try discriminate EK; try (first [apply M_empty|apply M_left; cbn; congruence|apply M_right; cbn; congruence]).
  - cbn [node] in A. apply M_leaf. inversion A as [? E|? ? ? F E E2| |]; subst; [apply A_refl|]. inversion F; subst. assumption.
  - cbn [node] in A. inversion A as [? E|? ? ? F E E2| |]; subst.
    + match goal with H : node M l = node M l2 |- _ => assert (agree ct (node M l) (node M l2)) by (rewrite H; apply A_refl) end.
      match goal with H : node M r = node M r2 |- _ => assert (agree ct (node M r) (node M r2)) by (rewrite H; apply A_refl) end.
      apply M_inner; auto.
    + inversion F as [|? ? ? ? F1 F']; subst. inversion F' as [|? ? ? ? F2 F'']; subst. inversion F'' as [|? ? ? ? F3 _]; subst.
      apply agree_prim in F3. inversion F3; subst. apply M_inner; auto.
Qed.

(** Equal hashes. *)
Lemma mmr_binding ct M sr t1 t2 h : wf_table ct -> wf_tags ct -> is_mmr ct M sr -> 
  holds ct (SerProof (m_base M)) (node M t1) -> holds ct (SerProof (m_base M)) (node M t2) ->
  phash ct (node M t1) = Ok h -> phash ct (node M t2) = Ok h -> mirror ct t1 t2 \/ hash_collision ct (node M t1) (node M t2).
Proof.
  intros W T I H1 H2 P1 P2. destruct (holds_class _ _ _ H1) as (k1 & K1 & S1), (holds_class _ _ _ H2) as (k2 & K2 & S2).
  destruct (hash_binding ct W T _ _ _ _ k1 k2 h H1 H2 K1 K2) as [A|C]; [|exact P1|exact P2|left; eapply agree_mirror; eassumption|right; exact C].
  eapply (tag_distinct ct T (m_inner M) "left" (SerProof (m_base M))); [rewrite (mm_inner _ _ _ I); left; reflexivity|exact S1|exact S2].
Qed.

Lemma mirror_items ct t1 t2 l1 l2 : mirror ct t1 t2 -> items t1 = Ok l1 -> items t2 = Ok l2 -> Forall2 (agree ct) l1 l2.
Proof.
  intros H. revert l1 l2. induction H; intros l1 l2 E1 E2.
  - cbn in *. inversion E1; inversion E2; constructor.
  - cbn in *. inversion E1; inversion E2; subst. repeat constructor. assumption.
  - cbn [items] in *. destruct (items l) as [x|]; cbn [bind] in E1; [|discriminate]. destruct (items r) as [y|]; cbn [bind] in E1; [|discriminate].
    destruct (items l') as [x'|]; cbn [bind] in E2; [|discriminate]. destruct (items r') as [y'|]; cbn [bind] in E2; [|discriminate].
    inversion E1; inversion E2; subst. apply Forall2_app; auto.
  - subst k. destruct t as [| | |[]]; cbn in *; try discriminate; inversion E1; inversion E2; constructor.
  - subst k. destruct t as [| | |[]]; cbn in *; try discriminate; inversion E1; inversion E2; constructor.
Qed.

Lemma mirror_len ct t1 t2 n1 n2 : mirror ct t1 t2 -> mlen t1 = Ok n1 -> mlen t2 = Ok n2 -> n1 = n2.
Proof.
  intros H E1 E2. destruct H; cbn in *; try congruence; subst k; destruct t as [| | |[]]; cbn in *; congruence.
Qed.

Lemma mirror_getitem ct t1 t2 : mirror ct t1 t2 -> forall i v1 v2, getitem t1 i = Ok v1 -> getitem t2 i = Ok v2 -> agree ct v1 v2.
Proof.
  induction 1; intros i v1 v2 E1 E2.
  - discriminate.
  - cbn [getitem] in *. destruct ((i =? 0) || (i =? -1)); [|discriminate]. inversion E1; inversion E2; subst. assumption.
  - cbn [getitem] in *. destruct (if i <? 0 then _ else _) as [j|]; cbn [bind] in *; [|discriminate].
    destruct (py_len n) as [m|]; cbn [bind] in *; [|discriminate]. destruct (negb ((0 <=? j) && (j <? m))); [discriminate|].
    destruct (mlen l) as [nl|] eqn:L1; cbn [bind] in *; [|discriminate]. destruct (mlen l') as [nl'|] eqn:L2; cbn [bind] in *; [|discriminate].
    rewrite <- (mirror_len _ _ _ _ _ H L1 L2) in *. destruct ((0 <=? j) && (j <? nl)); [eauto|].
    destruct (mlen r) as [nr|] eqn:R1; cbn [bind] in *; [|discriminate]. destruct (mlen r') as [nr'|] eqn:R2; cbn [bind] in *; [|discriminate].
    rewrite <- (mirror_len _ _ _ _ _ H0 R1 R2) in *. destruct ((nl <=? j) && (j <? nl + nr)); [eauto|discriminate].
  - destruct k; cbn [getitem] in E1; try discriminate. destruct ((i =? 0) || (i =? -1)); discriminate.
  - destruct k; cbn [getitem] in E2; try discriminate. destruct ((i =? 0) || (i =? -1)); discriminate.
Qed.

Lemma getitem_bounds t i v : getitem t i = Ok v -> exists n, mlen t = Ok n /\ - n <= i < n.
Proof.
  destruct t as [|w|l r n|[]]; cbn [getitem mlen]; try discriminate.
  - destruct (Z.eqb_spec i 0) as [->|]; [|destruct (Z.eqb_spec i (-1)) as [->|]]; cbn [orb]; try discriminate; exists 1; split; try reflexivity; lia.
  - unfold py_len. destruct (n <? 2 ^ 63); cbn [bind]; [|destruct (i <? 0); discriminate]. intros E. exists n. split; [reflexivity|].
    destruct (Z.ltb_spec i 0); cbn [bind] in E.
    + destruct (Z.leb_spec 0 (n + i)); [|discriminate]. lia.
    + destruct (Z.leb_spec 0 i); [|discriminate]. destruct (Z.ltb_spec i n); [|discriminate]. lia.
  - destruct ((i =? 0) || (i =? -1)); discriminate.
Qed.

(** ** Trees as proof objects *)

Lemma node_holds ct M sr vs t : is_mmr ct M sr -> documented vs t -> Forall (holds ct sr) vs -> fine (List.length vs) -> holds ct (SerProof (m_base M)) (node M t).
Proof.
  intros I. revert vs. 
  assert (DEC : forall k, k <> KBase -> declared ct (m_base M) (kind_class M k)).
  { intros k Nk. unfold declared. rewrite (mm_kinds _ _ _ I) by (left; reflexivity). destruct k; [congruence|cbn; auto ..]. }
  induction t as [|v|l IHl r IHr n|k dh]; intros vs D HV F.
  - inversion D; subst. apply Ho_full; [apply (DEC KEmpty); discriminate|]. rewrite (mm_empty _ _ _ I). constructor.
  - inversion D; subst. inversion HV; subst. apply Ho_full; [apply (DEC KLeaf); discriminate|]. rewrite (mm_leaf _ _ _ I). constructor; [assumption|constructor].
  - destruct (doc_inv _ _ _ _ D) as (la & lb & -> & En & Hn & Hs & Da & Db). unfold fine in F. rewrite app_length in *. apply Forall_app in HV. destruct HV.
    apply Ho_full; [apply (DEC KInner); discriminate|]. rewrite (mm_inner _ _ _ I).
    constructor; [eapply IHl; eauto; unfold fine; lia|]. constructor; [eapply IHr; eauto; unfold fine; lia|]. constructor; [|constructor].
    apply Ho_leaf; [reflexivity|]. constructor. unfold UInt64, prim_ok. lia.
  - inversion D.
Qed.

Lemma node_complete M vs t : documented vs t -> Forall complete vs -> complete (node M t).
Proof.
  revert vs; induction t as [|v|l IHl r IHr n|k dh]; intros vs D C.
  - constructor. constructor.
  - inversion D; subst. inversion C; subst. constructor. constructor; [assumption|constructor].
  - destruct (doc_inv _ _ _ _ D) as (la & lb & -> & En & Hn & Hs & Da & Db). apply Forall_app in C. destruct C.
    cbn [node]. constructor. constructor; [eauto|]. constructor; [eauto|]. constructor; [constructor|constructor].
  - inversion D.
Qed.

Lemma list_binding ct M sr vs1 vs2 t1 t2 h : wf_table ct -> wf_tags ct -> is_mmr ct M sr -> documented vs1 t1 -> documented vs2 t2 ->
  Forall (holds ct sr) vs1 -> Forall (holds ct sr) vs2 -> fine (List.length vs1) -> fine (List.length vs2) ->
  phash ct (node M t1) = Ok h -> phash ct (node M t2) = Ok h ->
  (Forall2 (agree ct) vs1 vs2 /\ (Forall complete vs1 -> Forall complete vs2 -> vs1 = vs2)) \/ hash_collision ct (node M t1) (node M t2).
Proof.
  intros W T I D1 D2 V1 V2 F1 F2 P1 P2.
  destruct (mmr_binding ct M sr t1 t2 h W T I) as [A|C]; [eapply node_holds; eassumption|eapply node_holds; eassumption|exact P1|exact P2|left|right; exact C].
  pose proof (mirror_items _ _ _ _ _ A (doc_items _ _ D1) (doc_items _ _ D2)) as B. split; [exact B|].
  clear -B. induction B; intros C1 C2; [reflexivity|]. inversion C1; inversion C2; subst. f_equal; [eapply agree_complete; eassumption|auto].
Qed.

Lemma no_contradiction ct M sr t1 t2 h : wf_table ct -> wf_tags ct -> is_mmr ct M sr -> any_object ct M t1 -> any_object ct M t2 ->
  phash ct (node M t1) = Ok h -> phash ct (node M t2) = Ok h ->
  ((forall n1 n2, mlen t1 = Ok n1 -> mlen t2 = Ok n2 -> n1 = n2) /\
   (forall i v1 v2, getitem t1 i = Ok v1 -> getitem t2 i = Ok v2 -> agree ct v1 v2) /\
   (forall l1 l2, items t1 = Ok l1 -> items t2 = Ok l2 -> Forall2 (agree ct) l1 l2) /\
   (forall i v1 n2, getitem t1 i = Ok v1 -> mlen t2 = Ok n2 -> - n2 <= i < n2)) \/ hash_collision ct (node M t1) (node M t2).
Proof.
  intros W T I [H1|(dh1 & ->)] A2 P1 P2; [destruct A2 as [H2|(dh2 & ->)]|].
  - destruct (mmr_binding ct M sr t1 t2 h W T I H1 H2 P1 P2) as [A|C]; [left|right; exact C].
    split; [intros; eapply mirror_len; eassumption|]. split; [intros i v1 v2; apply mirror_getitem, A|]. split; [intros; eapply mirror_items; eassumption|].
    intros i v1 n2 G L. destruct (getitem_bounds _ _ _ G) as (n1 & L1 & B). rewrite (mirror_len _ _ _ _ _ A L1 L) in B. exact B.
  - left. repeat split; intros; discriminate.
  - left. repeat split; intros; discriminate.
Qed.

Lemma index_bounds {A} (vs : list A) i : (py_index vs i = Err IndexError <-> ~ - Z.of_nat (List.length vs) <= i < Z.of_nat (List.length vs)) /\
  (- Z.of_nat (List.length vs) <= i < Z.of_nat (List.length vs) -> exists v, py_index vs i = Ok v).
Proof.
  unfold py_index. set (j := if i <? 0 then _ else _).
  assert (J : 0 <= j < Z.of_nat (List.length vs) <-> - Z.of_nat (List.length vs) <= i < Z.of_nat (List.length vs)) by (unfold j; destruct (Z.ltb_spec i 0); lia).
  clearbody j. rewrite <- J. clear J i. split.
  - split.
    + unfold znth. destruct (Z.ltb_spec j 0); [intros; lia|]. destruct (nth_error vs (Z.to_nat j)) eqn:E; [discriminate|]. apply nth_error_None in E. lia.
    + intros H. rewrite znth_out by exact H. reflexivity.
  - intros H. unfold znth. destruct (Z.ltb_spec j 0); [lia|]. destruct (nth_error vs (Z.to_nat j)) eqn:E; [eauto|]. apply nth_error_None in E. lia.
Qed.

(** ** Appending to a partly pruned tree *)

Lemma hides_kind ct M t t' : hides ct M t t' -> kind_of t' = kind_of t.
Proof. destruct 1; reflexivity. Qed.

Lemma hides_len ct M t t' : hides ct M t t' -> mlen t' = mlen t \/ mlen t' = Err PrunedError.
Proof. destruct 1 as [t|t dh H|]; auto. destruct t as [| | |[]]; cbn; auto. Qed.

Lemma tracks_err ct M r : tracks ct M r (Err PrunedError).
Proof. left. reflexivity. Qed.

Lemma check_kind ct M sr t t' : kind_of t = kind_of t' -> check ct (SerProof sr) (node M t) = check ct (SerProof sr) (node M t').
Proof.
  intros E. unfold check. destruct (c_kind (ct sr)) as [|u]; [reflexivity|].
  assert (X : forall c, isinst ct (node M t) c = isinst ct (node M t') c) by (intros c; unfold isinst; rewrite !class_kind, E; reflexivity).
  assert (existsb (isinst ct (node M t)) u = existsb (isinst ct (node M t')) u) as -> by (induction u; cbn; [reflexivity|]; rewrite X; congruence). reflexivity.
Qed.

Lemma inner_new_track ct M sr l l' r r' : is_mmr ct M sr -> hides ct M l l' -> hides ct M r r' -> tracks ct M (inner_new ct M l r) (inner_new ct M l' r').
Proof.
  intros I H1 H2. unfold inner_new. destruct (hides_len _ _ _ _ H1) as [E1|E1]; rewrite E1; [|apply tracks_err].
  destruct (mlen l) as [a|]; cbn [bind]; [|right; reflexivity].
  destruct (hides_len _ _ _ _ H2) as [E2|E2]; rewrite E2; [|apply tracks_err].
  destruct (mlen r) as [b|]; cbn [bind]; [|right; reflexivity].
  assert (X : forall w w', kind_of w = kind_of w' -> is_proof (node M w) = is_proof (node M w')) by (intros; unfold is_proof; rewrite !class_kind; reflexivity).
  assert (C : match construct ct (m_inner M) [("left"%string, node M l); ("right"%string, node M r); ("length"%string, VPrim (PyInt (a + b)))],
    construct ct (m_inner M) [("left"%string, node M l'); ("right"%string, node M r'); ("length"%string, VPrim (PyInt (a + b)))] with
    | Ok _, Ok _ => True | Err e, Err e' => e = e' | _, _ => False end).
  { unfold construct. rewrite (mm_inner _ _ _ I). cbn [construct_loop assoc]. change (String.eqb "left" "left") with true. change (String.eqb "left" "right") with false.
    change (String.eqb "right" "right") with true. change (String.eqb "left" "length") with false. change (String.eqb "right" "length") with false.
    change (String.eqb "length" "length") with true. cbn [bind].
    rewrite (check_kind ct M _ l' l), (check_kind ct M _ r' r), (X l' l), (X r' r) by (eapply hides_kind; eassumption).
    destruct (check ct (SerProof (m_base M)) (node M l)) as [[]|]; cbn [bind]; [|reflexivity]. destruct (is_proof (node M l)); cbn [bind]; [|reflexivity].
    destruct (check ct (SerProof (m_base M)) (node M r)) as [[]|]; cbn [bind]; [|reflexivity]. destruct (is_proof (node M r)); cbn [bind]; [|reflexivity].
    destruct (check ct (SerPrim UInt64) _) as [[]|]; cbn [bind]; [exact Logic.I|reflexivity]. }
  destruct (construct _ _ _) as [p|e]; destruct (construct _ _ _) as [p'|e']; try contradiction; cbn [bind].
  - eexists. split; [reflexivity|]. apply Hi_inner; assumption.
  - right. congruence.
Qed.

Lemma tracks_refl ct M r : tracks ct M r r.
Proof. destruct r; [eexists; split; [reflexivity|apply Hi_same]|right; reflexivity]. Qed.

Lemma inner_inv ct M t l' r' n : hides ct M t (Inner l' r' n) -> exists l r, t = Inner l r n /\ hides ct M l l' /\ hides ct M r r'.
Proof. intros H. inversion H; subst; eauto 10 using Hi_same. Qed.

Lemma merge_track ct M sr : is_mmr ct M sr -> forall t' t u u', hides ct M t t' -> hides ct M u u' -> tracks ct M (merge_trees ct M t u) (merge_trees ct M t' u').
Proof.
  intros I. induction t' as [|v|l' IHl r' IHr n|k dh]; intros t u u' H U.
  - inversion H; subst. right. reflexivity.
  - inversion H; subst. right. reflexivity.
  - destruct (inner_inv _ _ _ _ _ _ H) as (l & r & -> & Hl & Hr). cbn [merge_trees].
    destruct (py_len n) as [m|]; cbn [bind]; [|right; reflexivity].
    destruct (hides_len _ _ _ _ U) as [EU|EU]; rewrite EU; [|apply tracks_err]. destruct (mlen u) as [nn|]; cbn [bind]; [|right; reflexivity].
    destruct (assert (nn <=? m)); cbn [bind]; [|right; reflexivity].
    assert (NEW := inner_new_track ct M sr _ _ _ _ I H U).
    destruct (Z.land m nn =? 0); [exact NEW|]. destruct (m =? nn).
    + unfold is_perfect_tree. cbn [mlen]. destruct (py_len n); cbn [bind]; [|right; reflexivity]. destruct (assert (perfect a0)); cbn [bind]; [exact NEW|right; reflexivity].
    + destruct (hides_len _ _ _ _ Hr) as [ER|ER]; rewrite ER; [|apply tracks_err]. destruct (mlen r) as [nr|]; cbn [bind]; [|right; reflexivity].
      destruct (assert (negb _)); cbn [bind]; [|right; reflexivity].
      pose proof (IHr r u u' Hr U) as T. destruct (merge_trees ct M r' u') as [x'|e]; cbn [bind].
      * destruct T as (x & -> & Hx). cbn [bind]. apply IHl; assumption.
      * destruct T as [->| ->]; [apply tracks_err|right; reflexivity].
  - inversion H as [| ? ? Hd|]; subst.
    + destruct k; first [apply tracks_err|right; reflexivity].
    + destruct t as [| | |[]]; cbn; auto; right; reflexivity.
Qed.

Lemma append_track ct M sr v : is_mmr ct M sr -> forall t' t, hides ct M t t' -> tracks ct M (append ct M t v) (append ct M t' v).
Proof.
  intros I. induction t' as [|w|l' IHl r' IHr n|k dh]; intros t H.
  - inversion H; subst. apply tracks_refl.
  - inversion H; subst. apply tracks_refl.
  - destruct (inner_inv _ _ _ _ _ _ H) as (l & r & -> & Hl & Hr). cbn [append].
    destruct (py_len n) as [m|]; cbn [bind]; [|right; reflexivity]. destruct (Z.land m 1 =? 0).
    + destruct (leaf_new ct M v) as [x|]; cbn [bind]; [|right; reflexivity]. apply (inner_new_track ct M sr); [exact I|exact H|apply Hi_same].
    + pose proof (IHr r Hr) as T. destruct (append ct M r' v) as [x'|e]; cbn [bind].
      * destruct T as (x & -> & Hx). cbn [bind]. eapply merge_track; eassumption.
      * destruct T as [->| ->]; [apply tracks_err|right; reflexivity].
  - inversion H as [| ? ? Hd|]; subst; [apply tracks_refl|]. destruct t as [|w|l r n|[]]; cbn [kind_of append]; try apply tracks_refl; try apply tracks_err.
    + destruct (leaf_new ct M v) as [x|]; cbn [bind]; [|right; reflexivity]. apply (inner_new_track ct M sr); [exact I|exact H|apply Hi_same].
    + destruct (leaf_new ct M v) as [x|]; cbn [bind]; [|right; reflexivity]. apply (inner_new_track ct M sr); [exact I|exact H|apply Hi_same].
Qed.

Lemma extend_track ct M sr : is_mmr ct M sr -> forall vs t t', hides ct M t t' -> tracks ct M (extend ct M t vs) (extend ct M t' vs).
Proof.
  intros I. induction vs as [|v vs IH]; intros t t' H; cbn [extend].
  - exists t. split; [reflexivity|exact H].
  - pose proof (append_track ct M sr v I t' t H) as T. destruct (append ct M t' v) as [x'|e]; cbn [bind].
    + destruct T as (x & -> & Hx). cbn [bind]. apply IH, Hx.
    + destruct T as [->| ->]; [apply tracks_err|right; reflexivity].
Qed.

Lemma hides_hash ct M sr : wf_table ct -> is_mmr ct M sr -> forall t t', hides ct M t t' ->
  data_hash ct (node M t') = data_hash ct (node M t) /\ phash ct (node M t') = phash ct (node M t).
Proof.
  intros W I.
  assert (NT : forall k, c_hash (ct (kind_class M k)) <> HTx).
  { intros k E. destruct (wf_tx_class ct W _ E) as (P & _). rewrite (mm_kinds _ _ _ I) in P by (destruct k; cbn; auto). discriminate. }
  assert (K : forall t dh, data_hash ct (node M t) = Ok dh -> phash ct (node M t) = tagged ct (kind_class M (kind_of t)) (Ok dh)).
  { intros t dh D. specialize (NT (kind_of t)). unfold phash, data_hash in *. destruct t as [|v|l r n|k h]; cbn [node kind_of kind_class] in *;
      try (rewrite hashes_full in D |- *; cbn [fst snd] in D |- *; rewrite D;
        match goal with |- match ?c with _ => _ end = _ => destruct c; [reflexivity|congruence] end).
    cbn [hashes fst snd] in *. rewrite D. reflexivity. }
  induction 1 as [t|t dh H|l l' r r' n H1 [IH1 IP1] H2 [IH2 IP2]].
  - auto.
  - rewrite (K _ _ H). cbn [node]. unfold data_hash, phash. cbn [hashes fst snd]. split; [symmetry; exact H|reflexivity].
  - assert (D : data_hash ct (node M (Inner l' r' n)) = data_hash ct (node M (Inner l r n))).
    { cbn [node]. unfold data_hash. rewrite !hashes_full. cbn [fst]. rewrite (mm_inner _ _ _ I). cbn [hash_fields]. rewrite IP1, IP2. reflexivity. }
    split; [exact D|]. cbn [node] in *. unfold phash, data_hash in *. rewrite !hashes_full in *. cbn [fst snd] in *.
    specialize (NT KInner). cbn [kind_class] in NT. destruct (c_hash (ct (m_inner M))) eqn:E; [congruence|exfalso; apply NT; reflexivity].
Qed.

Lemma append_to_hidden ct M sr vs t t' vs' : wf_table ct -> is_mmr ct M sr -> built ct M vs (Ok t) -> Forall (item ct M) (vs ++ vs') -> fine (List.length (vs ++ vs')) -> hides ct M t t' ->
  extend ct M t' vs' = Err PrunedError \/
  exists u u', extend ct M t' vs' = Ok u' /\ documented (vs ++ vs') u /\ hides ct M u u' /\ phash ct (node M u') = phash ct (node M u).
Proof.
  intros W I B IV F H. destruct (built_ok ct M sr _ _ W I (B_extend ct M vs _ vs' B) IV F) as (u0 & E0 & D0). cbn [bind] in E0.
  pose proof (extend_track ct M sr I vs' t t' H) as T. destruct (extend ct M t' vs') as [u'|e].
  - destruct T as (u & E & Hu). right. exists u, u'. split; [reflexivity|]. assert (u0 = u) as -> by congruence. split; [exact D0|]. split; [exact Hu|].
    apply (hides_hash ct M sr W I _ _ Hu).
  - destruct T as [->|E]; [left; reflexivity|congruence].
Qed.
