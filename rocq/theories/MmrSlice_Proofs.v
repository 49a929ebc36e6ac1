(** What the slice of an MMR gives when the stop is before the start (C26). *)
From Coq Require Import ZifyBool ZifyNat ZifyN.
From Verif Require Import Base PySlice PySlice_Proofs Serialize_Model Proof_Model Proof_Spec Proof_Proofs ProofHash_Proofs Mmr_Model Mmr_Spec Mmr_Proofs.
Local Open Scope Z_scope.

Lemma odd_times n : 0 < n -> exists q j, 0 <= j /\ 0 < q /\ Z.odd q = true /\ n = q * 2 ^ j.
Proof.
  intros H. remember (Z.to_nat n) as m eqn:E. assert (HM : (Z.to_nat n <= m)%nat) by lia. clear E. revert n H HM.
  induction m as [|m IH]; intros n H HM; [lia|]. destruct (Z.odd n) eqn:O.
  - exists n, 0. repeat split; [lia|exact H|exact O|]. rewrite Z.pow_0_r. lia.
  - rewrite <- Z.negb_even, Bool.negb_false_iff, Z.even_spec in O. destruct O as (p & ->).
    destruct (IH p ltac:(lia) ltac:(lia)) as (q & j & Hj & Hq & Oq & ->). exists q, (Z.succ j). split; [lia|]. split; [exact Hq|]. split; [exact Oq|].
    rewrite Z.pow_succ_r by exact Hj. ring.
Qed.

(** The right half is not the bigger one. *)
Lemma split_half n k : 1 < n -> split_at n k -> 2 * k <= n.
Proof.
  intros Hn Hs. destruct (odd_times n ltac:(lia)) as (q & j & Hj & Hq & Oq & ->). pose proof (pow2_pos j Hj).
  destruct (Z.eq_dec q 1) as [->|Hq1].
  - destruct (Z.eq_dec j 0) as [->|Hj0]; [rewrite Z.pow_0_r in Hn; lia|]. replace j with (Z.succ (j - 1)) in Hs |- * by lia.
    rewrite Z.mul_1_l, Z.pow_succ_r in * by lia. rewrite (split_unique _ _ _ Hs (split_two (j - 1) ltac:(lia))). lia.
  - rewrite (split_unique _ _ _ Hs (split_odd q j Hj ltac:(lia) Oq)). nia.
Qed.

(** A stop before the start: what comes out is a run of the items from the start on. *)
Lemma indices_low a b len : 0 <= a -> b < 0 -> 0 <= len ->
  slice_indices (Slice (Some a) (Some b) (Some 1)) len = Ok (Z.min a len, Z.max 0 (b + len), 1).
Proof.
  intros. unfold slice_indices, adjust. cbn [sl_start sl_stop sl_step]. change (1 =? 0) with false. change (1 <? 0) with false. cbv iota zeta.
  destruct (Z.ltb_spec a 0); [lia|]. destruct (Z.ltb_spec b 0); [|lia]. rewrite Z.max_comm. reflexivity.
Qed.

Lemma run_nil {A} i (l : list A) : firstn 0 (skipn i l) = [].
Proof. reflexivity. Qed.

Lemma getslice_back ct M sr : wf_table ct -> is_mmr ct M sr -> forall t vs, documented vs t -> Forall (item ct M) vs -> fine (List.length vs) ->
  forall s a b, slice_indices s (Z.of_nat (List.length vs)) = Ok (a, b, 1) -> b < a ->
  exists t' k, getslice ct M t s = Ok t' /\ documented (firstn k (skipn (Z.to_nat a) vs)) t' /\ (b = 0 -> k = 0%nat).
Proof.
  intros W I. induction t as [|v|l IHl r IHr n|k dh]; intros vs D IV F s a b E LT; pose proof (slice_indices_bounds s (Z.of_nat (List.length vs)) a b 1 ltac:(lia) E) as BB.
  - inversion D; subst. cbn [List.length] in *. change (Z.of_nat 0) with 0 in *. lia.
  - inversion D; subst. cbn [List.length] in *. change (Z.of_nat 1) with 1 in *. cbn [getslice]. rewrite E. cbn [bind]. change (1 =? 1) with true. cbn [negb].
    destruct (Z.leb_spec a 0); [lia|]. cbn [andb]. exists Empty, 0%nat. split; [reflexivity|]. split; [rewrite run_nil; constructor|reflexivity].
  - destruct (doc_inv _ _ _ _ D) as (la & lb & -> & En & Hn & Hs & Da & Db). unfold fine in F. rewrite <- En in E, BB. rewrite app_length in *.
    pose proof IV as IVab. apply Forall_app in IV. destruct IV as (IVa & IVb). cbn [getslice]. rewrite py_len_ok by lia. cbn [bind]. rewrite E. cbn [bind].
    change (1 =? 1) with true. cbn [negb].
    assert (BND : 0 <= a <= n /\ 0 <= b <= n) by lia. clear BB.
    destruct (Z.leb_spec a 0); [lia|]. cbn [andb].
    rewrite (doc_len _ _ Da) by (unfold fine; lia). cbn [bind].
    destruct (Z.ltb_spec a (Z.of_nat (List.length la))) as [A1|A1].
    + destruct (IHl la Da IVa ltac:(unfold fine; lia) (Slice (Some a) (Some b) (Some 1)) a b) as (t1 & k & E1 & D1 & K1).
      { rewrite indices_unit by lia. rewrite !Z.min_l by lia. reflexivity. } { lia. }
      rewrite E1. cbn [bind]. destruct (Z.ltb_spec (Z.of_nat (List.length la)) b) as [B1|B1]; [lia|].
      exists t1, (Nat.min k (List.length la - Z.to_nat a)). split; [reflexivity|]. split; [|intros ->; rewrite K1; reflexivity].
      rewrite seg_app_l by lia. destruct (Nat.le_ge_cases k (List.length la - Z.to_nat a)) as [Hk|Hk].
      * rewrite Nat.min_l by lia. exact D1.
      * rewrite Nat.min_r by lia. rewrite firstn_all2 in D1 by (rewrite skipn_length; lia). rewrite firstn_all2 by (rewrite skipn_length; lia). exact D1.
    + destruct (Z.leb_spec (Z.of_nat (List.length la)) a) as [_|]; [|lia]. destruct (Z.ltb_spec a n) as [A2|A2]; cbn [andb].
      * set (a' := a - Z.of_nat (List.length la)) in *.
        set (b' := if b <? Z.of_nat (List.length la) then Z.max 0 (b - Z.of_nat (List.length la) + Z.of_nat (List.length lb)) else b - Z.of_nat (List.length la)).
        assert (E' : slice_indices (Slice (Some a') (Some (b - Z.of_nat (List.length la))) (Some 1)) (Z.of_nat (List.length lb)) = Ok (a', b', 1)).
        { unfold b'. destruct (Z.ltb_spec b (Z.of_nat (List.length la))).
          - rewrite indices_low by lia. rewrite (Z.min_l a') by lia. reflexivity.
          - rewrite indices_unit by lia. rewrite !Z.min_l by lia. reflexivity. }
        assert (Z0 : b = 0 -> b' = 0).
        { intros ->. unfold b'. pose proof (split_half _ _ Hn Hs). destruct (Z.ltb_spec 0 (Z.of_nat (List.length la))); lia. }
        assert (SK : skipn (Z.to_nat a) (la ++ lb) = skipn (Z.to_nat a') lb).
        { rewrite skipn_app, skipn_all2 by lia. cbn [app]. f_equal. lia. }
        rewrite SK. destruct (Z_lt_le_dec b' a') as [L|L].
        -- destruct (IHr lb Db IVb ltac:(unfold fine; lia) _ a' b' E' L) as (t2 & k & E2 & D2 & K2). exists t2, k. split; [exact E2|]. split; [exact D2|].
           intros Hb. apply K2, Z0, Hb.
        -- destruct (getslice_ok ct M sr W I r lb Db IVb ltac:(unfold fine; lia) _ a' b' E' L) as (t2 & E2 & D2). exists t2, (Z.to_nat (b' - a')).
           split; [exact E2|]. split; [exact D2|]. intros Hb. rewrite (Z0 Hb). lia.
      * exists Empty, 0%nat. split; [reflexivity|]. split; [rewrite run_nil; constructor|reflexivity].
  - inversion D.
Qed.
