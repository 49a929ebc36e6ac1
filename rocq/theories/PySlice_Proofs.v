(** Facts about Python slicing. *)
From Verif Require Import Base PySlice.
From Coq Require Import ZifyBool ZifyNat ZifyN.
Ltac Zify.zify_post_hook ::= Z.div_mod_to_equations.
Local Open Scope Z_scope.

Lemma slice_indices_bounds s len a b st : 0 <= len -> slice_indices s len = Ok (a, b, st) ->
  (0 < st /\ 0 <= a <= len /\ 0 <= b <= len) \/ (st < 0 /\ -1 <= a <= len - 1 /\ -1 <= b <= len - 1).
Proof.
  intros Hl. unfold slice_indices.
  set (step := match sl_step s with None => 1 | Some v => v end).
  destruct (Z.eqb_spec step 0) as [|H0]; [discriminate|].
  unfold adjust. intros E. injection E as <- <- <-.
  destruct (Z.ltb_spec step 0) as [Hn|Hn]; [right|left];
    (split; [lia|]); destruct (sl_start s) as [x|], (sl_stop s) as [y|];
    repeat match goal with |- context [if ?c <? 0 then _ else _] => destruct (Z.ltb_spec c 0) end; lia.
Qed.

Lemma py_range_bounds a b st x : st <> 0 -> In x (py_range a b st) ->
  (0 < st -> a <= x < b) /\ (st < 0 -> b < x <= a).
Proof.
  intros H0 Hin. unfold py_range in Hin. apply in_map_iff in Hin. destruct Hin as (k & <- & Hk).
  apply in_seq in Hk. unfold range_count in Hk.
  split; intros Hs.
  - replace (0 <? st) with true in Hk by lia.
    destruct (Z.ltb_spec a b); [|cbn in Hk; lia].
    assert (Z.of_nat k <= (b - a - 1) / st) as Hk' by lia.
    pose proof (Z.mul_div_le (b - a - 1) st Hs).
    assert (st * Z.of_nat k <= st * ((b - a - 1) / st)) by (apply Z.mul_le_mono_nonneg_l; lia).
    nia.
  - replace (0 <? st) with false in Hk by lia.
    destruct (Z.ltb_spec b a); [|cbn in Hk; lia].
    assert (Z.of_nat k <= (a - b - 1) / (- st)) as Hk' by lia.
    pose proof (Z.mul_div_le (a - b - 1) (- st) ltac:(lia)).
    assert (- st * Z.of_nat k <= - st * ((a - b - 1) / - st)) by (apply Z.mul_le_mono_nonneg_l; lia).
    nia.
Qed.

Lemma pick_some {A} (l : list A) is :
  (forall i, In i is -> 0 <= i < Z.of_nat (List.length l)) -> exists r, pick l is = Some r.
Proof.
  induction is as [|i is IH]; intros H; cbn; [eauto|].
  destruct IH as [r Hr]; [intros; apply H; right; assumption|].
  unfold znth. pose proof (H i (or_introl eq_refl)).
  replace (i <? 0) with false by lia.
  destruct (nth_error l (Z.to_nat i)) eqn:E; [|apply nth_error_None in E; lia].
  rewrite Hr. eauto.
Qed.

(** List slicing fails only for step zero. *)
Lemma py_slice_total {A} (l : list A) s :
  (py_slice l s = Err ValueError /\ sl_step s = Some 0) \/ (exists r, py_slice l s = Ok r /\ sl_step s <> Some 0).
Proof.
  unfold py_slice. destruct (slice_indices s (Z.of_nat (List.length l))) as [[[a b] st]|e] eqn:E.
  - right. pose proof E as E'. apply slice_indices_bounds in E'; [|lia].
    destruct (pick_some l (py_range a b st)) as [r Hr].
    { intros i Hi. apply py_range_bounds in Hi; lia. }
    exists r. cbn [bind]. rewrite Hr. split; [reflexivity|]. intros H0. unfold slice_indices in E. rewrite H0 in E.
    discriminate.
  - left. unfold slice_indices in E. cbn [bind].
    destruct (sl_step s) as [st|]; [|cbn in E; discriminate].
    destruct (Z.eqb_spec st 0); [|discriminate]. subst. split; congruence.
Qed.

Lemma pick_map {A B} (f : A -> B) l is : pick (map f l) is = option_map (map f) (pick l is).
Proof.
  induction is as [|i is IH]; [reflexivity|]. cbn. rewrite IH. unfold znth.
  destruct (i <? 0); [reflexivity|]. rewrite nth_error_map.
  destruct (nth_error l (Z.to_nat i)); [|reflexivity]. cbn.
  destruct (pick l is); reflexivity.
Qed.

Lemma py_slice_map {A B} (f : A -> B) l s :
  py_slice (map f l) s = match py_slice l s with Ok r => Ok (map f r) | Err e => Err e end.
Proof.
  unfold py_slice. rewrite map_length.
  destruct (slice_indices s (Z.of_nat (List.length l))) as [[[a b] st]|e]; cbn [bind]; [|reflexivity].
  rewrite pick_map. destruct (pick l (py_range a b st)); reflexivity.
Qed.

Lemma pick_range1 {A} (l : list A) : forall (n i : nat), (i + n <= List.length l)%nat ->
  pick l (map (fun k => Z.of_nat i + Z.of_nat k * 1) (seq 0 n)) = Some (firstn n (skipn i l)).
Proof.
  induction n as [|n IH]; intros i H; [reflexivity|].
  cbn [seq map pick]. rewrite <- seq_shift, map_map.
  replace (map (fun x => Z.of_nat i + Z.of_nat (S x) * 1) (seq 0 n))
     with (map (fun k => Z.of_nat (S i) + Z.of_nat k * 1) (seq 0 n)) by (apply map_ext; intros; lia).
  rewrite IH by lia. unfold znth.
  replace (Z.of_nat i + Z.of_nat 0 * 1 <? 0) with false by lia.
  replace (Z.to_nat (Z.of_nat i + Z.of_nat 0 * 1)) with i by lia.
  destruct (skipn i l) as [|x r] eqn:E.
  - apply (f_equal (@List.length _)) in E. rewrite skipn_length in E. cbn in E. lia.
  - assert (nth_error l i = Some x) as ->.
    { rewrite <- (firstn_skipn i l), E, nth_error_app2 by (rewrite firstn_length; lia).
      rewrite firstn_length. replace (i - Nat.min i (List.length l))%nat with 0%nat by lia. reflexivity. }
    assert (skipn (S i) l = r) as ->.
    { replace (S i) with (i + 1)%nat by lia. rewrite <- skipn_skipn', E. reflexivity. }
    reflexivity.
Qed.

(** Unit step: the segment between the two clamped bounds. *)
Lemma py_slice_unit {A} (l : list A) s a b :
  slice_indices s (Z.of_nat (List.length l)) = Ok (a, b, 1) ->
  py_slice l s = Ok (firstn (Z.to_nat (b - a)) (skipn (Z.to_nat a) l)).
Proof.
  intros E. unfold py_slice. rewrite E. cbn [bind].
  apply slice_indices_bounds in E; [|lia].
  unfold py_range, range_count. replace (0 <? 1) with true by lia.
  destruct (Z.ltb_spec a b).
  - rewrite Z.div_1_r. replace (b - a - 1 + 1) with (b - a) by lia.
    pose proof (pick_range1 l (Z.to_nat (b - a)) (Z.to_nat a) ltac:(lia)) as P.
    rewrite Z2Nat.id in P by lia. rewrite P. reflexivity.
  - replace (Z.to_nat (b - a)) with 0%nat by lia. reflexivity.
Qed.

(** Sanity checks of the slicing definition against well-known Python behaviour. *)
Example py_slice_rev : py_slice [1;2;3;4;5] (Slice None None (Some (-1))) = Ok [5;4;3;2;1].
Proof. reflexivity. Qed.
Example py_slice_step : py_slice [0;1;2;3;4;5;6;7] (Slice (Some 1) (Some (-1)) (Some 2)) = Ok [1;3;5].
Proof. reflexivity. Qed.
Example py_slice_neg : py_slice [0;1;2;3;4;5;6;7] (Slice (Some (-3)) (Some 100) None) = Ok [5;6;7].
Proof. reflexivity. Qed.
Example py_slice_neg_step : py_slice [0;1;2;3;4;5;6;7] (Slice (Some 6) (Some (-100)) (Some (-3))) = Ok [6;3;0].
Proof. reflexivity. Qed.
