(** Proofs about the cost of appending. *)
From Verif Require Import Base PySlice Serialize_Model Proof_Model Proof_Spec Mmr_Model Mmr_Spec Mmr_Proofs MmrCost_Model.
From Coq Require Import ZifyBool ZifyNat ZifyN.
Local Open Scope Z_scope.

(** ** The count changes nothing *)
Lemma cthen_fst {A B} (c : counted A) (f : A -> counted B) (g : A -> result B) r : fst c = r -> (forall a, fst (f a) = g a) -> fst (cthen c f) = bind r g.
Proof. intros <- H. destruct c as [[a|e] k]; cbn; [|reflexivity]. rewrite <- H. destruct (f a). reflexivity. Qed.
Lemma call_fst {A} (c : counted A) : fst (call c) = fst c. Proof. destruct c. reflexivity. Qed.
Lemma cmerge_merge ct M : forall t u, fst (cmerge ct M t u) = merge_trees ct M t u.
Proof.
  induction t as [|v|l IHl r IHr n|k dh]; intros u; try reflexivity; [|destruct k; reflexivity]. cbn [cmerge merge_trees]. rewrite call_fst.
  apply cthen_fst; [reflexivity|]. intros a. apply cthen_fst; [reflexivity|]. intros b. apply cthen_fst; [reflexivity|]. intros _.
  destruct (Z.land a b =? 0); [reflexivity|]. destruct (a =? b).
  - apply cthen_fst; [reflexivity|]. intros p. apply cthen_fst; [reflexivity|]. reflexivity.
  - apply cthen_fst; [reflexivity|]. intros c. apply cthen_fst; [reflexivity|]. intros _. apply cthen_fst; [apply IHr|]. intros d. apply IHl.
Qed.
Lemma cappend_append ct M v : forall t, fst (cappend ct M t v) = append ct M t v.
Proof.
  induction t as [|w|l IHl r IHr n|k dh]; cbn [cappend append]; rewrite call_fst; try (rewrite call_fst; reflexivity); try reflexivity.
  - apply cthen_fst; reflexivity.
  - apply cthen_fst; [reflexivity|]. intros a. destruct (Z.land a 1 =? 0); apply cthen_fst; try reflexivity; [exact IHr|]. intros b. apply cmerge_merge.
  - destruct k; cbn [fst]; try reflexivity. apply cthen_fst; reflexivity.
Qed.

(** ** The count *)
Lemma cthen_ok {A B} (c : counted A) (f : A -> counted B) a : fst c = Ok a -> snd (cthen c f) = (snd c + snd (f a))%nat.
Proof. destruct c as [r k]. cbn [fst]. intros ->. cbn. destruct (f a). reflexivity. Qed.
Lemma call_snd {A} (c : counted A) : snd (call c) = S (snd c). Proof. destruct c. reflexivity. Qed.

Lemma merge_cost ct M sr : wf_table ct -> is_mmr ct M sr -> forall t1 l1 l2 t2 j q, documented l1 t1 -> documented l2 t2 ->
  1 <= j -> Z.of_nat (List.length l2) = 2 ^ j -> Z.of_nat (List.length l1) = q * 2 ^ j -> 1 <= q -> fine (List.length l1 + List.length l2) ->
  Z.of_nat (snd (cmerge ct M t1 t2)) <= 3 + 4 * Z.log2 q.
Proof.
  intros W I. induction t1 as [|v|tl IHl tr IHr n|k dh]; intros l1 l2 t2 j q D1 D2 Hj L2 L1 Hq F; pose proof (Z.log2_nonneg q) as Lq.
  1,2: cbn [cmerge call free snd]; lia.
  2: inversion D1.
  destruct (doc_inv _ _ _ _ D1) as (a & b & E & En & Hn & Hs & Da & Db). pose proof (pow2_pos j ltac:(lia)) as PJ. unfold fine in F.
  cbn [cmerge]. rewrite call_snd. rewrite (cthen_ok _ _ n) by (apply py_len_ok; lia). rewrite (cthen_ok _ _ (2 ^ j)) by (cbn [free fst]; rewrite (doc_len _ _ D2) by (unfold fine; lia); congruence).
  assert (Hge : 2 ^ j <= n) by nia. rewrite (cthen_ok _ _ tt) by (cbn [free fst]; destruct (Z.leb_spec (2 ^ j) n); [reflexivity|lia]). cbn [free snd].
  assert (TB : Z.testbit n j = Z.odd q) by (replace n with (q * 2 ^ j) by lia; apply odd_multiple_bit; lia).
  rewrite land_pow2, TB by lia. destruct (Z.odd q) eqn:Oq; [|cbn [Z.eqb call free snd]; lia].
  destruct (Z.eqb_spec (2 ^ j) 0) as [|_]; [lia|]. destruct (Z.eqb_spec n (2 ^ j)) as [En2|Nn].
  - assert (P : perfect n = true) by (apply perfect_spec; [lia|]; exists j; split; [lia|exact En2]).
    rewrite (cthen_ok _ _ true) by (cbn [call free fst]; unfold is_perfect_tree; cbn [mlen]; rewrite py_len_ok by lia; cbn [bind]; rewrite P; reflexivity). cbn [cthen assert call free fst snd]. lia.
  - assert (Hq3 : 3 <= q). { assert (q <> 1) by nia. assert (q <> 2) by (intros ->; discriminate Oq). lia. }
    assert (Hb : Z.of_nat (List.length b) = 2 ^ j). { eapply split_unique; [exact Hs|]. replace n with (q * 2 ^ j) by lia. apply split_odd; [lia|lia|exact Oq]. }
    assert (Hla : Z.of_nat (List.length a) = (q - 1) * 2 ^ j). { subst l1. rewrite app_length in *. lia. }
    assert (LL : List.length l1 = (List.length a + List.length b)%nat) by (subst l1; apply app_length).
    rewrite (cthen_ok _ _ (2 ^ j)) by (cbn [free fst]; rewrite (doc_len _ _ Db) by (unfold fine; lia); congruence).
    rewrite (cthen_ok _ _ tt). 2:{ cbn [free fst]. rewrite land_pow2, Z.pow2_bits_true by lia. destruct (Z.eqb_spec (2 ^ j) 0) as [|_]; [lia|]. reflexivity. } cbn [free snd].
    destruct (merge_ok ct M sr W I tr b l2 t2 j 1 Db D2 Hj L2) as (t' & Et' & D'); [lia|lia|unfold fine; lia|].
    rewrite (cthen_ok _ _ t') by (rewrite cmerge_merge; exact Et').
    pose proof (IHr b l2 t2 j 1 Db D2 Hj L2 ltac:(lia) ltac:(lia) ltac:(unfold fine; lia)) as C1. change (Z.log2 1) with 0 in C1.
    destruct (Z.odd_spec q) as [O _]. destruct (O Oq) as (m & Em).
    pose proof (IHl a (b ++ l2) t' (Z.succ j) m Da D' ltac:(lia) ltac:(rewrite app_length, Z.pow_succ_r by lia; lia) ltac:(rewrite Z.pow_succ_r by lia; subst q; nia) ltac:(lia) ltac:(unfold fine; rewrite app_length; lia)) as C2.
    assert (Z.log2 q = Z.succ (Z.log2 m)) as -> by (rewrite Em; apply Z.log2_succ_double; lia). lia.
Qed.
Lemma append_cost ct M sr vs t v : wf_table ct -> is_mmr ct M sr -> documented vs t -> item ct M v -> fine (S (List.length vs)) ->
  Z.of_nat (snd (cappend ct M t v)) <= 3 + 4 * Z.log2 (Z.of_nat (S (List.length vs))).
Proof.
  intros W I D IV F. unfold fine in F. pose proof (leaf_new_ok ct M v IV) as LV. pose proof (Z.log2_nonneg (Z.of_nat (S (List.length vs)))) as Ln.
  destruct t as [|w|l r n|k dh]; [cbn [cappend call free snd]; lia| | |inversion D].
  - cbn [cappend]. rewrite call_snd, (cthen_ok _ _ (Leaf v)) by exact LV. cbn [call free snd]. lia.
  - destruct (doc_inv _ _ _ _ D) as (a & b & E & En & Hn & Hs & Da & Db).
    cbn [cappend]. rewrite call_snd, (cthen_ok _ _ n) by (apply py_len_ok; lia). change 1 with (2 ^ 0) at 1. rewrite land_pow2, Z.bit0_odd by lia.
    destruct (Z.odd n) eqn:On.
    + change (2 ^ 0 =? 0) with false. cbv iota.
      assert (Hb : Z.of_nat (List.length b) = 1).
      { eapply split_unique; [exact Hs|]. pose proof (split_odd n 0) as S. cbn in S. rewrite Z.mul_1_r in S. apply S; [lia|lia|exact On]. }
      destruct b as [|x [|]]; try (cbn in Hb; lia). inversion Db; subst; [|cbn in *; lia].
      pose proof (inner_new_ok ct M sr [x] [v] _ _ W I (D_leaf x) (D_leaf v) ltac:(unfold fine; cbn; lia)) as IN.
      assert (D2 : documented ([x] ++ [v]) (Inner (Leaf x) (Leaf v) (Z.of_nat (List.length [x]) + Z.of_nat (List.length [v])))).
      { apply doc_app; [constructor|constructor|cbn; lia|]. apply (split_two 0). lia. }
      rewrite app_length in *. cbn [List.length] in *.
      assert (exists m, Z.of_nat (List.length a) = m * 2 ^ 1 /\ 1 <= m) as (m & Hm & Hm1). { apply Z.odd_spec in On. destruct On as (m & Em). exists m. split; lia. }
      erewrite (cthen_ok (cappend ct M (Leaf x) v)) by (rewrite cappend_append; cbn [append]; rewrite LV; cbn [bind]; exact IN).
      pose proof (merge_cost ct M sr W I l a _ _ 1 m Da D2 ltac:(lia) eq_refl Hm Hm1 ltac:(unfold fine; cbn; lia)) as C.
      cbn [cappend]. rewrite call_snd, (cthen_ok _ _ (Leaf v)) by exact LV.
      assert (Z.succ (Z.log2 m) <= Z.log2 (Z.of_nat (S (List.length a + 1)))). { rewrite <- Z.log2_double by lia. apply Z.log2_le_mono. change (2 ^ 1) with 2 in Hm. lia. }
      cbn [free call snd fst] in *. lia.
    + cbn [Z.eqb]. rewrite (cthen_ok _ _ (Leaf v)) by exact LV. cbn [call free snd]. lia.
Qed.
