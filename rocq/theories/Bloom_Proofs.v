(** Proofs about bloom filters. *)
From Coq Require Import QArith.
From Verif Require Import Base Tx_Model Bloom_Model Grammar_Spec Bloom_Spec Tx_Proofs Grammar_Proofs Wire_Proofs.
From Coq Require Import ZifyBool ZifyNat ZifyN.
Local Open Scope Z_scope.

(** ** Words *)

Lemma land_W x : Z.land x M32 = W x.
Proof. unfold M32, W. change 0xFFFFFFFF with (Z.ones 32). apply Z.land_ones. lia. Qed.
Lemma W_range x : 0 <= W x < 2 ^ 32. Proof. apply Z.mod_pos_bound. lia. Qed.
Lemma W_id x : 0 <= x < 2 ^ 32 -> W x = x. Proof. apply Z.mod_small. Qed.
Lemma W_W x : W (W x) = W x. Proof. apply W_id, W_range. Qed.
Lemma W_lxor a b : W (Z.lxor a b) = Z.lxor (W a) (W b).
Proof.
  rewrite <- !land_W. apply Z.bits_inj'. intros n Hn. rewrite ?Z.land_spec, ?Z.lxor_spec, ?Z.land_spec.
  destruct (Z.testbit M32 n), (Z.testbit a n), (Z.testbit b n); reflexivity.
Qed.
Lemma lxor_range a b : 0 <= a < 2 ^ 32 -> 0 <= b < 2 ^ 32 -> 0 <= Z.lxor a b < 2 ^ 32.
Proof. intros A B. rewrite <- (W_id _ A), <- (W_id _ B), <- W_lxor. apply W_range. Qed.

Lemma lor_add a b r : 0 <= r -> 0 <= b < 2 ^ r -> (2 ^ r | a) -> Z.lor a b = a + b.
Proof.
  intros R B [q ->]. assert (Z.land (q * 2 ^ r) b = 0) as L.
  { apply Z.bits_inj'. intros n Hn. rewrite Z.land_spec, Z.bits_0. destruct (Z_lt_ge_dec n r).
    - rewrite Z.mul_pow2_bits_low by lia. reflexivity.
    - replace (Z.testbit b n) with false; [apply andb_false_r|]. symmetry.
      destruct (Z.eq_dec b 0) as [->|]; [apply Z.bits_0|]. apply Z.bits_above_log2; [lia|].
      apply Z.log2_lt_pow2; [lia|]. apply Z.lt_le_trans with (2 ^ r); [lia|]. apply Z.pow_le_mono_r; lia. }
  rewrite <- Z.lxor_lor by assumption. symmetry. apply Z.add_nocarry_lxor, L.
Qed.

Lemma ROTL32_rotl x r : 0 <= x < 2 ^ 32 -> 0 <= r <= 32 -> ROTL32 x r = Ok (rotl r x).
Proof.
  intros X R. unfold ROTL32, assert. destruct (x <=? M32) eqn:E; [|unfold M32 in E; lia]. cbn [bind].
  rewrite land_W, Z.shiftl_mul_pow2, Z.shiftr_div_pow2 by lia. unfold rotl. f_equal. apply lor_add with r; [lia| |].
  - split; [apply Z.div_pos; lia|]. apply Z.div_lt_upper_bound; [lia|]. rewrite <- Z.pow_add_r by lia. replace (32 - r + r) with 32 by lia. lia.
  - unfold W. replace 32 with (32 - r + r) by lia. rewrite Z.pow_add_r by lia. rewrite Z.mul_mod_distr_r by lia. eexists. reflexivity.
Qed.
Lemma rotl_range x r : 0 <= x < 2 ^ 32 -> 0 <= r <= 32 -> 0 <= rotl r x < 2 ^ 32.
Proof.
  intros X R. unfold rotl, W. replace (2 ^ 32) with (2 ^ (32 - r) * 2 ^ r) by (rewrite <- Z.pow_add_r by lia; f_equal; lia).
  rewrite Z.mul_mod_distr_r by lia.
  assert (0 <= x mod 2 ^ (32 - r) < 2 ^ (32 - r)) by (apply Z.mod_pos_bound; lia).
  assert (0 <= x / 2 ^ (32 - r) < 2 ^ r).
  { split; [apply Z.div_pos; lia|]. apply Z.div_lt_upper_bound; [lia|]. rewrite <- Z.pow_add_r by lia. replace (32 - r + r) with 32 by lia. lia. }
  nia.
Qed.

Lemma scramble_mix k : scramble k = Ok (mix k).
Proof.
  unfold scramble. rewrite land_W. rewrite ROTL32_rotl by (try apply W_range; lia). cbn [bind]. rewrite land_W. reflexivity.
Qed.
Lemma mix_range k : 0 <= mix k < 2 ^ 32. Proof. apply W_range. Qed.

Lemma little_le_dec b : Z.of_N (le_dec b) = little b.
Proof. induction b as [|x b IH]; [reflexivity|]. cbn [le_dec little]. lia. Qed.

Lemma absorb_all_range d : forall h, 0 <= h < 2 ^ 32 -> 0 <= absorb_all h d < 2 ^ 32.
Proof.
  remember (List.length d) as n eqn:E. revert d E. induction n as [n IH] using lt_wf_ind. intros d E h H.
  destruct d as [|a [|b [|c [|e d]]]]; try (cbn [absorb_all]; apply lxor_range; [assumption|apply mix_range]).
  cbn [absorb_all]. apply (IH (List.length d)); [cbn in E; lia|reflexivity|apply W_range].
Qed.

(** What is left after the whole words. *)
Fixpoint rest_of (d : bytes) : bytes :=
  match d with _ :: _ :: _ :: _ :: d' => rest_of d' | _ => d end.
Fixpoint words (h : Z) (d : bytes) : Z :=
  match d with
  | w :: x :: y :: z :: d' => words (absorb h (little [w; x; y; z])) d'
  | _ => h
  end.
Lemma absorb_all_words d : forall h, absorb_all h d = Z.lxor (words h d) (mix (little (rest_of d))).
Proof.
  remember (List.length d) as n eqn:E. revert d E. induction n as [n IH] using lt_wf_ind. intros d E h.
  destruct d as [|a [|b [|c [|e d]]]]; try reflexivity.
  cbn [absorb_all words rest_of]. apply (IH (List.length d)); [cbn in E; lia|reflexivity].
Qed.
Lemma words_range d : forall h, 0 <= h < 2 ^ 32 -> 0 <= words h d < 2 ^ 32.
Proof.
  remember (List.length d) as n eqn:E. revert d E. induction n as [n IH] using lt_wf_ind. intros d E h H.
  destruct d as [|a [|b [|c [|e d]]]]; try (cbn [words]; assumption).
  cbn [words]. apply (IH (List.length d)); [cbn in E; lia|reflexivity|apply W_range].
Qed.

Lemma skipn_plus {A} (l : list A) a b : skipn (a + b) l = skipn b (skipn a l).
Proof. revert l. induction a as [|a IH]; intros [|x l]; try reflexivity; [cbn; destruct b; reflexivity|apply IH]. Qed.

Lemma body_loop_words data : forall fuel i h, 0 <= h < 2 ^ 32 -> (i mod 4 = 0)%nat -> (i <= List.length data)%nat ->
  (List.length data <= i + 4 * fuel)%nat -> body_loop fuel data i h = Ok (words h (skipn i data)).
Proof.
  induction fuel as [|fuel IH]; intros i h H M L F.
  - cbn [body_loop]. rewrite skipn_all2 by lia. reflexivity.
  - cbn [body_loop]. destruct ((i <? List.length data - List.length data mod 4) && (4 <=? List.length data - i))%nat eqn:E.
    + pose proof (skipn_length i data) as K. destruct (skipn i data) as [|a [|b [|c [|e d]]]] eqn:S; cbn [List.length] in K; try (exfalso; lia).
      rewrite scramble_mix. cbn [bind firstn]. rewrite little_le_dec. rewrite ROTL32_rotl by (try (apply lxor_range; [assumption|apply mix_range]); lia). cbn [bind].
      rewrite IH; [| | |lia|lia].
      * cbn [words]. f_equal. replace (skipn (i + 4) data) with d.
        { f_equal. unfold absorb. rewrite !land_W. unfold W. rewrite Z.add_mod_idemp_l by lia. reflexivity. }
        { rewrite skipn_plus, S. reflexivity. }
      * rewrite land_W. apply W_range.
      * rewrite Nat.add_mod, M by lia. reflexivity.
    + f_equal. pose proof (skipn_length i data) as K. destruct (skipn i data) as [|a [|b [|c [|e d]]]] eqn:S; try reflexivity.
      cbn [List.length] in K. exfalso.
      pose proof (Nat.div_mod (List.length data) 4 ltac:(lia)). pose proof (Nat.div_mod i 4 ltac:(lia)). pose proof (Nat.mod_upper_bound (List.length data) 4 ltac:(lia)). lia.
Qed.

Lemma rest_of_skipn d : rest_of d = skipn (List.length d / 4 * 4) d.
Proof.
  remember (List.length d) as n eqn:E. revert d E. induction n as [n IH] using lt_wf_ind. intros d E.
  destruct d as [|a [|b [|c [|e d]]]]; subst n; try reflexivity.
  cbn [rest_of]. rewrite (IH (List.length d)); [|cbn; lia|reflexivity].
  replace (List.length (a :: b :: c :: e :: d) / 4 * 4)%nat with (4 + List.length d / 4 * 4)%nat; [reflexivity|].
  cbn [List.length]. replace (S (S (S (S (List.length d))))) with (List.length d + 1 * 4)%nat by lia. rewrite Nat.div_add by lia. lia.
Qed.

Lemma nth_error_skipn {A} (l : list A) j k : nth_error l (j + k) = nth_error (skipn j l) k.
Proof. revert l. induction j as [|j IH]; intros [|x l]; try reflexivity; [destruct k; reflexivity|apply IH]. Qed.

Lemma tail_word_rest data : tail_word data = Ok (little (rest_of data)).
Proof.
  unfold tail_word, at_. rewrite rest_of_skipn. set (j := (List.length data / 4 * 4)%nat).
  assert (Z.land (Z.of_nat (List.length data)) 3 = Z.of_nat (List.length (skipn j data))) as ->.
  { change 3 with (Z.ones 2). rewrite Z.land_ones by lia. rewrite skipn_length. unfold j. change (2 ^ 2) with (Z.of_nat 4). rewrite <- Nat2Z.inj_mod.
    f_equal. pose proof (Nat.div_mod (List.length data) 4 ltac:(lia)). lia. }
  assert (List.length (skipn j data) < 4)%nat as K.
  { rewrite skipn_length. unfold j. pose proof (Nat.div_mod (List.length data) 4 ltac:(lia)). pose proof (Nat.mod_upper_bound (List.length data) 4 ltac:(lia)). lia. }
  rewrite !nth_error_skipn. replace (nth_error data j) with (nth_error (skipn j data) 0) by (rewrite <- nth_error_skipn, Nat.add_0_r; reflexivity).
  assert (Bd : forall x : byte, 0 <= bZ x < 2 ^ 8) by (intros x; unfold bZ; pose proof (bN_lt x); lia).
  assert (X : forall x y r, 0 <= r -> 0 <= y < 2 ^ r -> Z.lxor (Z.shiftl x r) y = x * 2 ^ r + y).
  { intros x y r R Y. rewrite Z.shiftl_mul_pow2 by assumption. rewrite <- (lor_add _ _ r) by (try assumption; eexists; reflexivity). apply Z.lxor_lor.
    assert (L := lor_add (x * 2 ^ r) y r R Y ltac:(eexists; reflexivity)). apply Z.bits_inj'. intros n Hn. rewrite Z.land_spec, Z.bits_0.
    destruct (Z_lt_ge_dec n r); [rewrite Z.mul_pow2_bits_low by lia; reflexivity|].
    replace (Z.testbit y n) with false; [apply andb_false_r|]. symmetry. destruct (Z.eq_dec y 0) as [->|]; [apply Z.bits_0|]. apply Z.bits_above_log2; [lia|].
    apply Z.log2_lt_pow2; [lia|]. apply Z.lt_le_trans with (2 ^ r); [lia|]. apply Z.pow_le_mono_r; lia. }
  destruct (skipn j data) as [|a [|b [|c [|e d]]]]; cbn [List.length] in *; [| | | |exfalso; lia]; cbn [nth_error bind].
  all: repeat (match goal with |- context [?x <=? Z.of_nat ?n] => let v := eval vm_compute in (x <=? Z.of_nat n) in change (x <=? Z.of_nat n) with v end); cbv iota; cbn [bind]; f_equal; cbn [little].
  - rewrite Z.lxor_0_l. unfold bZ. lia.
  - rewrite Z.lxor_0_l, X by (try apply Bd; lia). unfold bZ. lia.
  - rewrite Z.lxor_0_l, Z.lxor_assoc, (X (bZ b) (bZ a) 8) by (try apply Bd; lia). pose proof (Bd a). pose proof (Bd b). rewrite X by lia. unfold bZ. lia.
Qed.

Lemma finish_spec h n : 0 <= h < 2 ^ 32 -> finish h n = avalanche (Z.lxor h (W (Z.of_nat n))).
Proof.
  intros H. unfold finish. rewrite !land_W. set (h0 := Z.lxor h (W (Z.of_nat n))).
  assert (R0 : 0 <= h0 < 2 ^ 32) by (apply lxor_range; [assumption|apply W_range]). clearbody h0. rewrite (W_id _ R0).
  rewrite !Z.shiftr_div_pow2 by lia. unfold avalanche, down.
  assert (S : forall x k, 0 <= k -> 0 <= W x / 2 ^ k < 2 ^ 32).
  { intros x k K. pose proof (W_range x). assert (0 < 2 ^ k) by (apply Z.pow_pos_nonneg; lia). split; [apply Z.div_pos; lia|]. apply Z.le_lt_trans with (W x); [apply Z.div_le_upper_bound; nia|lia]. }
  set (h1 := Z.lxor h0 (h0 / 2 ^ 16)). set (p1 := h1 * 2246822507).
  set (h2 := Z.lxor p1 (W p1 / 2 ^ 13)).
  assert (E2 : W h2 = Z.lxor (W p1) (W p1 / 2 ^ 13)) by (unfold h2; rewrite W_lxor, (W_id (W p1 / _)) by (apply S; lia); reflexivity).
  set (p2 := h2 * 3266489909). assert (E3 : W p2 = W (Z.lxor (W p1) (W p1 / 2 ^ 13) * 3266489909)).
  { rewrite <- E2. unfold p2, W. rewrite Z.mul_mod_idemp_l by lia. reflexivity. }
  rewrite W_lxor, (W_id (W p2 / _)) by (apply S; lia). rewrite E3. reflexivity.
Qed.

Lemma murmur_model seed d : 0 <= seed < 2 ^ 32 -> MurmurHash3 seed d = Ok (murmur seed d).
Proof.
  intros S. unfold MurmurHash3, assert. destruct (seed <=? M32) eqn:E; [|unfold M32 in E; lia]. cbn [bind].
  rewrite body_loop_words by (try assumption; try reflexivity; lia). cbn [bind skipn]. rewrite tail_word_rest. cbn [bind]. rewrite scramble_mix. cbn [bind].
  assert (L : 0 <= little (rest_of d) < 2 ^ 32).
  { pose proof (le_bound (List.length (rest_of d)) (little (rest_of d)) (rest_of d) (conj eq_refl eq_refl)) as B.
    rewrite rest_of_skipn, skipn_length in B. pose proof (Nat.div_mod (List.length d) 4 ltac:(lia)). pose proof (Nat.mod_upper_bound (List.length d) 4 ltac:(lia)).
    rewrite <- rest_of_skipn in B. split; [apply B|]. apply Z.lt_le_trans with (1 := proj2 B). apply Z.pow_le_mono_r; lia. }
  rewrite land_W, (W_id _ L). f_equal. unfold murmur. rewrite absorb_all_words. apply finish_spec. apply lxor_range; [apply words_range, S|apply mix_range].
Qed.
Lemma murmur_range seed d : 0 <= seed < 2 ^ 32 -> 0 <= murmur seed d < 2 ^ 32.
Proof.
  intros S. pose proof (murmur_model seed d S) as M. unfold MurmurHash3 in M.
  repeat (match type of M with bind ?x _ = _ => destruct x as [?|?] eqn:?; [cbn [bind] in M|discriminate] end).
  injection M as M. rewrite <- M. unfold finish. rewrite land_W. apply W_range.
Qed.

(** ** Filters *)

Definition position (f : filter) (i : Z) (d : bytes) : Z :=
  murmur (W (i * 0xFBA4C795 + f_nTweak f)) d mod (8 * Z.of_nat (List.length (f_vData f))).

Lemma bloom_hash_position f i d : f_vData f <> [] -> bloom_hash f i d = Ok (position f i d).
Proof.
  intros H. unfold bloom_hash. rewrite land_W, murmur_model by apply W_range. cbn [bind].
  destruct (f_vData f) as [|b v] eqn:E; [congruence|]. unfold blen. destruct (_ =? 0) eqn:Q; [cbn in Q; lia|]. unfold position. rewrite E.
  replace (8 * Z.of_nat (List.length (b :: v))) with (Z.of_N (N.of_nat (List.length (b :: v))) * 8) by lia. reflexivity.
Qed.
Lemma position_range f i d : f_vData f <> [] -> 0 <= position f i d < 8 * Z.of_nat (List.length (f_vData f)).
Proof. intros H. apply Z.mod_pos_bound. destruct (f_vData f); [congruence|cbn; lia]. Qed.

Lemma bit_mask_pow n : bit_mask (Z.land 7 n) = 2 ^ (n mod 8).
Proof.
  rewrite Z.land_comm. change 7 with (Z.ones 3). rewrite Z.land_ones by lia. change (2 ^ 3) with 8.
  pose proof (Z.mod_pos_bound n 8 ltac:(lia)) as B.
  assert (n mod 8 = 0 \/ n mod 8 = 1 \/ n mod 8 = 2 \/ n mod 8 = 3 \/ n mod 8 = 4 \/ n mod 8 = 5 \/ n mod 8 = 6 \/ n mod 8 = 7) as C by lia.
  repeat (destruct C as [->|C]; [reflexivity|]). rewrite C. reflexivity.
Qed.

Lemma or_at_spec l : forall i m, (i < List.length l)%nat -> exists l' b, or_at l i m = Ok l' /\ List.length l' = List.length l /\
  nth_error l i = Some b /\ nth_error l' i = Some (Nb (N.lor (bN b) m)) /\ (forall j, j <> i -> nth_error l' j = nth_error l j).
Proof.
  induction l as [|x l IH]; intros i m L; [cbn in L; lia|]. destruct i as [|i].
  - exists (Nb (N.lor (bN x) m) :: l), x. repeat split. intros [|j] J; [congruence|reflexivity].
  - destruct (IH i m) as (l' & b & E & Le & A & B & C); [cbn in L; lia|]. exists (x :: l'), b. cbn [or_at]. rewrite E. repeat split; cbn; try congruence.
    intros [|j] J; [reflexivity|]. apply C. congruence.
Qed.

Lemma testbit_or b n j : 0 <= j < 8 -> 0 <= n < 8 ->
  Z.testbit (bZ (Nb (N.lor (bN b) (Z.to_N (2 ^ n))))) j = Z.testbit (bZ b) j || (j =? n).
Proof.
  intros J N. unfold bZ. rewrite bN_Nb_small.
  - replace (Z.of_N (N.lor (bN b) (Z.to_N (2 ^ n)))) with (Z.lor (Z.of_N (bN b)) (2 ^ n)).
    + rewrite Z.lor_spec, Z.pow2_bits_eqb by lia. rewrite (Z.eqb_sym n j). reflexivity.
    + apply Z.bits_inj'. intros k K. rewrite Z.lor_spec. rewrite <- (Z2N.id (2 ^ n)) at 1 by lia.
      rewrite <- (Z2N.id k) by lia. rewrite !N2Z.inj_testbit. rewrite N.lor_spec. reflexivity.
  - pose proof (bN_lt b) as B.
    assert (Z.to_N (2 ^ n) < 256)%N as P by (assert (2 ^ n < 2 ^ 8) by (apply Z.pow_lt_mono_r; lia); lia).
    destruct (N.eq_dec (N.lor (bN b) (Z.to_N (2 ^ n))) 0) as [->|Z0]; [reflexivity|].
    change 256%N with (2 ^ 8)%N. apply N.log2_lt_pow2; [lia|]. rewrite N.log2_lor.
    apply N.max_lub_lt.
    + destruct (N.eq_dec (bN b) 0) as [->|]; [reflexivity|]. apply N.log2_lt_pow2; [lia|exact B].
    + destruct (N.eq_dec (Z.to_N (2 ^ n)) 0) as [->|]; [reflexivity|]. apply N.log2_lt_pow2; [lia|exact P].
Qed.

Lemma bit_set_or l n l' : 0 <= n < 8 * Z.of_nat (List.length l) ->
  or_at l (Z.to_nat (Z.shiftr n 3)) (Z.to_N (bit_mask (Z.land 7 n))) = Ok l' ->
  List.length l' = List.length l /\ forall k, bit_set l' k <-> bit_set l k \/ k = n.
Proof.
  intros N H. rewrite bit_mask_pow, Z.shiftr_div_pow2 in H by lia. change (2 ^ 3) with 8 in H.
  assert (Q : 0 <= n / 8 < Z.of_nat (List.length l)) by (split; [apply Z.div_pos; lia|apply Z.div_lt_upper_bound; lia]).
  destruct (or_at_spec l (Z.to_nat (n / 8)) (Z.to_N (2 ^ (n mod 8)))) as (l2 & b & E & Le & A & B & C); [lia|].
  rewrite E in H. injection H as <-. split; [exact Le|]. pose proof (Z.mod_pos_bound n 8 ltac:(lia)) as Mn. intros k. unfold bit_set.
  pose proof (Z.mod_pos_bound k 8 ltac:(lia)) as Mk. destruct (Z.eq_dec (k / 8) (n / 8)) as [Eq|Ne].
  - rewrite Eq, A, B. split.
    + intros (K & x & X & T). injection X as <-. rewrite testbit_or in T by assumption. apply orb_true_iff in T. destruct T as [T|T]; [left; eauto|right].
      rewrite (Z.div_mod k 8), (Z.div_mod n 8) by lia. lia.
    + intros [(K & x & X & T)| ->].
      * injection X as <-. split; [exact K|]. eexists. split; [reflexivity|]. rewrite testbit_or, T by assumption. reflexivity.
      * split; [lia|]. eexists. split; [reflexivity|]. rewrite testbit_or by assumption. rewrite Z.eqb_refl. apply orb_true_r.
  - split.
    + intros (K & x & X & T). assert (0 <= k / 8) by (apply Z.div_pos; lia). rewrite C in X by lia. left. eauto.
    + intros [(K & x & X & T)| ->]; [|congruence]. assert (0 <= k / 8) by (apply Z.div_pos; lia). split; [exact K|]. exists x. rewrite C by lia. auto.
Qed.

Lemma at_bit l n : 0 <= n < 8 * Z.of_nat (List.length l) -> exists b, at_ l (Z.to_nat (Z.shiftr n 3)) = Ok (bZ b) /\
  ((Z.land (bZ b) (bit_mask (Z.land 7 n)) =? 0) = false <-> bit_set l n).
Proof.
  intros N. rewrite bit_mask_pow, Z.shiftr_div_pow2 by lia. change (2 ^ 3) with 8. unfold at_, bit_set.
  assert (Q : 0 <= n / 8 < Z.of_nat (List.length l)) by (split; [apply Z.div_pos; lia|apply Z.div_lt_upper_bound; lia]).
  destruct (nth_error l (Z.to_nat (n / 8))) as [b|] eqn:E; [|apply nth_error_None in E; lia].
  exists b. split; [reflexivity|]. pose proof (Z.mod_pos_bound n 8 ltac:(lia)) as Mn. rewrite Z.eqb_neq. split.
  - intros H. split; [lia|]. exists b. split; [reflexivity|]. destruct (Z.testbit (bZ b) (n mod 8)) eqn:T; [reflexivity|]. exfalso. apply H.
    apply Z.bits_inj'. intros k K. rewrite Z.land_spec, Z.pow2_bits_eqb, Z.bits_0 by lia. destruct (n mod 8 =? k) eqn:X; [|apply andb_false_r].
    apply Z.eqb_eq in X. rewrite <- X, T. reflexivity.
  - intros (_ & x & X & T) Z0. injection X as <-. assert (Z.testbit (Z.land (bZ b) (2 ^ (n mod 8))) (n mod 8) = true) as F.
    { rewrite Z.land_spec, T, Z.pow2_bits_true by lia. reflexivity. }
    rewrite Z0, Z.bits_0 in F. discriminate.
Qed.

Lemma same_shape_refl f : same_shape f f. Proof. repeat split. Qed.
Lemma same_shape_trans f g h : same_shape f g -> same_shape g h -> same_shape f h.
Proof. unfold same_shape. intros (A & B & C & D) (A' & B' & C' & D'). repeat split; congruence. Qed.
Lemma position_shape f g i d : same_shape f g -> position g i d = position f i d.
Proof. intros (_ & B & _ & D). unfold position. rewrite B, D. reflexivity. Qed.
Lemma occupies_shape f g d k : same_shape f g -> (occupies g d k <-> occupies f d k).
Proof. intros (A & B & _ & D). unfold occupies. rewrite A, B, D. reflexivity. Qed.

Lemma insert_loop_spec d : forall is f, f_vData f <> [] -> exists g, insert_loop is f d = Ok g /\ same_shape f g /\
  forall k, bit_set (f_vData g) k <-> bit_set (f_vData f) k \/ exists i, In i is /\ k = position f i d.
Proof.
  induction is as [|i is IH]; intros f H.
  - exists f. split; [reflexivity|]. split; [apply same_shape_refl|]. intros k. split; [tauto|]. intros [K|(i & [] & _)]. exact K.
  - cbn [insert_loop]. rewrite bloom_hash_position by exact H. cbn [bind]. pose proof (position_range f i d H) as R.
    destruct (or_at_spec (f_vData f) (Z.to_nat (Z.shiftr (position f i d) 3)) (Z.to_N (bit_mask (Z.land 7 (position f i d))))) as (l' & b & E & _).
    { rewrite Z.shiftr_div_pow2 by lia. change (2 ^ 3) with 8. assert (position f i d / 8 < Z.of_nat (List.length (f_vData f))) by (apply Z.div_lt_upper_bound; lia).
      assert (0 <= position f i d / 8) by (apply Z.div_pos; lia). lia. }
    destruct (bit_set_or _ _ _ R E) as [Le B]. rewrite E. cbn [bind]. set (f1 := mkFilter l' _ _ _).
    assert (Sh : same_shape f f1) by (repeat split; exact Le).
    destruct (IH f1) as (g & G & Sg & Bg). { unfold f1. cbn [f_vData]. destruct l'; [|discriminate]. destruct (f_vData f); [congruence|discriminate]. }
    exists g. split; [exact G|]. split; [eapply same_shape_trans; eauto|]. intros k. rewrite Bg. unfold f1 at 1. cbn [f_vData]. rewrite B. split.
    + intros [[K| ->]|(j & J & ->)]; [tauto|right; exists i; split; [left; reflexivity|reflexivity]|].
      right. exists j. split; [right; exact J|]. apply position_shape, Sh.
    + intros [K|(j & [->|J] & ->)]; [tauto|tauto|]. right. exists j. split; [exact J|]. symmetry. apply position_shape, Sh.
Qed.

Lemma contains_loop_spec d f : f_vData f <> [] -> forall is, exists r, contains_loop is f d = Ok r /\
  (r = true <-> forall i, In i is -> bit_set (f_vData f) (position f i d)).
Proof.
  intros H. induction is as [|i is (r & E & R)].
  - exists true. split; [reflexivity|]. split; [intros _ i []|reflexivity].
  - cbn [contains_loop]. rewrite bloom_hash_position by exact H. cbn [bind]. destruct (at_bit _ _ (position_range f i d H)) as (b & A & B). rewrite A. cbn [bind].
    destruct (Z.land _ _ =? 0).
    + exists false. split; [reflexivity|]. split; [discriminate|]. intros K. assert (true = false) as C; [apply B, K; left; reflexivity|congruence].
    + exists r. split; [exact E|]. rewrite R. split; [intros K j [<-|J]; [apply B; reflexivity|auto]|intros K j J; apply K; right; exact J].
Qed.

Lemma range0_in n i : In i (range0 n) <-> 0 <= i < n.
Proof.
  unfold range0. rewrite in_map_iff. split.
  - intros (x & <- & X). apply in_seq in X. lia.
  - intros H. exists (Z.to_nat i). split; [lia|]. apply in_seq. lia.
Qed.
Lemma range0_nil n : n <= 0 -> range0 n = [].
Proof. intros H. unfold range0. replace (Z.to_nat n) with 0%nat by lia. reflexivity. Qed.

Lemma full_bits v k : is_full v = true -> 0 <= k < 8 * Z.of_nat (List.length v) -> bit_set v k.
Proof.
  destruct v as [|b [|]]; try discriminate. cbn [is_full List.length]. intros H K. apply N.eqb_eq in H. split; [lia|]. exists b.
  replace (k / 8) with 0 by (symmetry; apply Z.div_small; lia). split; [reflexivity|]. unfold bZ. rewrite H. rewrite Z.mod_small by lia.
  assert (k = 0 \/ k = 1 \/ k = 2 \/ k = 3 \/ k = 4 \/ k = 5 \/ k = 6 \/ k = 7) as C by lia. repeat (destruct C as [->|C]; [reflexivity|]). rewrite C. reflexivity.
Qed.
Lemma full_nonempty v : is_full v = true -> v <> []. Proof. destruct v; [discriminate|congruence]. Qed.

Lemma occupies_position f d k : occupies f d k <-> exists i, In i (range0 (f_nHashFuncs f)) /\ k = position f i d.
Proof. unfold occupies. split; intros (i & I & E); exists i; (split; [apply range0_in; exact I|exact E]). Qed.

Lemma stands_for_iff e d : stands_for e d <-> elem_bytes e = Ok d.
Proof.
  destruct e as [b|o]; cbn [elem_bytes].
  - split; [inversion 1; reflexivity|]. intros H. injection H as ->. constructor.
  - rewrite outpoint_writes. split; [inversion 1; assumption|]. constructor. assumption.
Qed.

Lemma usable_shape f g : same_shape f g -> usable f -> usable g.
Proof. intros (A & _ & _ & D) [U|U]; [left|right; lia]. destruct (f_vData g); [destruct (f_vData f); [congruence|discriminate]|discriminate]. Qed.

Lemma insert_spec f e d : usable f -> stands_for e d -> exists g, insert f e = Ok g /\ same_shape f g /\
  forall k, bit_set (f_vData g) k <-> bit_set (f_vData f) k \/ occupies f d k.
Proof.
  intros U E. apply stands_for_iff in E. unfold insert. rewrite E. cbn [bind]. destruct (is_full (f_vData f)) eqn:F.
  - exists f. split; [reflexivity|]. split; [apply same_shape_refl|]. intros k. split; [tauto|]. intros [K|K]; [exact K|].
    apply occupies_position in K. destruct K as (i & _ & ->). apply full_bits; [exact F|]. apply position_range, full_nonempty, F.
  - destruct (f_vData f) as [|b v] eqn:V.
    + destruct U as [U|U]; [congruence|]. rewrite range0_nil by exact U. exists f. split; [reflexivity|]. split; [apply same_shape_refl|].
      intros k. rewrite V. split; [tauto|]. intros [K|(i & I & _)]; [exact K|lia].
    + destruct (insert_loop_spec d (range0 (f_nHashFuncs f)) f) as (g & G & S & B); [congruence|]. exists g. split; [exact G|]. split; [exact S|].
      intros k. rewrite B, V. rewrite occupies_position. reflexivity.
Qed.

Lemma contains_spec f e d : usable f -> stands_for e d -> exists r, contains f e = Ok r /\
  (r = true <-> forall k, occupies f d k -> bit_set (f_vData f) k).
Proof.
  intros U E. apply stands_for_iff in E. unfold contains. rewrite E. cbn [bind]. destruct (is_full (f_vData f)) eqn:F.
  - exists true. split; [reflexivity|]. split; [|reflexivity]. intros _ k K. apply occupies_position in K. destruct K as (i & _ & ->).
    apply full_bits; [exact F|]. apply position_range, full_nonempty, F.
  - destruct (f_vData f) as [|b v] eqn:V.
    + destruct U as [U|U]; [congruence|]. rewrite range0_nil by exact U. exists true. split; [reflexivity|]. split; [|reflexivity]. intros _ k (i & I & _). lia.
    + destruct (contains_loop_spec d f) with (is := range0 (f_nHashFuncs f)) as (r & R & B); [congruence|]. exists r. split; [exact R|]. rewrite B, V. split.
      * intros H k K. apply occupies_position in K. destruct K as (i & I & ->). auto.
      * intros H i I. apply H, occupies_position. eauto.
Qed.

Lemma insert_all_spec es : forall f, usable f -> (forall e, In e es -> exists d, stands_for e d) ->
  exists g, insert_all f es = Ok g /\ same_shape f g /\
  forall k, bit_set (f_vData g) k <-> bit_set (f_vData f) k \/ exists e d, In e es /\ stands_for e d /\ occupies f d k.
Proof.
  induction es as [|e es IH]; intros f U H.
  - exists f. split; [reflexivity|]. split; [apply same_shape_refl|]. intros k. split; [tauto|]. intros [K|(e & d & [] & _)]. exact K.
  - destruct (H e (or_introl eq_refl)) as (d & D). destruct (insert_spec f e d U D) as (f1 & E & S & B). cbn [insert_all]. rewrite E. cbn [bind].
    destruct (IH f1 (usable_shape _ _ S U) (fun e' I => H e' (or_intror I))) as (g & G & S' & B'). exists g. split; [exact G|].
    split; [eapply same_shape_trans; eauto|]. intros k. rewrite B', B. split.
    + intros [[K|K]|(e' & d' & I & D' & K)]; [tauto|right; exists e, d; split; [left; reflexivity|auto]|].
      right. exists e', d'. split; [right; exact I|]. split; [exact D'|]. apply (occupies_shape _ _ _ _ S), K.
    + intros [K|(e' & d' & [<-|I] & D' & K)]; [tauto| |].
      * left. right. assert (d' = d) as -> by (apply stands_for_iff in D, D'; congruence). exact K.
      * right. exists e', d'. split; [exact I|]. split; [exact D'|]. apply (occupies_shape _ _ _ _ S), K.
Qed.

Lemma no_false_negative f es g e d : usable f -> (forall e, In e es -> exists d, stands_for e d) -> insert_all f es = Ok g ->
  In e es -> stands_for e d -> contains g e = Ok true.
Proof.
  intros U H G I D. destruct (insert_all_spec es f U H) as (g' & G' & S & B). rewrite G in G'. injection G' as <-.
  destruct (contains_spec g e d (usable_shape _ _ S U) D) as (r & R & T). rewrite R. f_equal. apply T. intros k K. apply B. right. exists e, d.
  split; [exact I|]. split; [exact D|]. apply (occupies_shape _ _ _ _ S), K.
Qed.

Lemma bits_determine v : forall w, List.length v = List.length w -> (forall k, bit_set v k <-> bit_set w k) -> v = w.
Proof.
  intros w L H. apply nth_ext with x00 x00; [exact L|]. intros n N. pose proof (nth_error_nth' v x00 N) as V. pose proof (nth_error_nth' w x00 (n := n) ltac:(lia)) as Q.
  set (a := nth n v x00) in *. set (b := nth n w x00) in *. apply bN_inj. apply N2Z.inj. change (bZ a = bZ b).
  assert (R : forall x : byte, 0 <= bZ x < 2 ^ 8) by (intros x; unfold bZ; pose proof (bN_lt x); lia).
  apply Z.bits_inj'. intros j J. destruct (Z_lt_ge_dec j 8) as [J8|J8].
  - assert (K : forall l x, nth_error l n = Some x -> (bit_set l (8 * Z.of_nat n + j) <-> Z.testbit (bZ x) j = true)).
    { intros l x X. unfold bit_set. replace ((8 * Z.of_nat n + j) / 8) with (Z.of_nat n).
      2:{ rewrite Z.mul_comm, Z.div_add_l by lia. rewrite Z.div_small by lia. lia. }
      replace ((8 * Z.of_nat n + j) mod 8) with j by (rewrite Z.add_comm, Z.mul_comm, Z.mod_add, Z.mod_small by lia; reflexivity). rewrite Nat2Z.id, X.
      split; [intros (_ & y & Y & T); congruence|]. intros T. split; [lia|]. eauto. }
    specialize (H (8 * Z.of_nat n + j)). rewrite (K _ _ V), (K _ _ Q) in H. destruct (Z.testbit (bZ a) j), (Z.testbit (bZ b) j); intuition congruence.
  - assert (T : forall x : byte, Z.testbit (bZ x) j = false); [|rewrite !T; reflexivity]. intros x. pose proof (R x).
    destruct (Z.eq_dec (bZ x) 0) as [->|]; [apply Z.bits_0|]. apply Z.bits_above_log2; [lia|]. apply Z.log2_lt_pow2; [lia|]. apply Z.lt_le_trans with (2 ^ 8); [lia|]. apply Z.pow_le_mono_r; lia.
Qed.

Lemma set_determines f es es' g g' : usable f -> (forall e, In e es -> exists d, stands_for e d) -> (forall e, In e es' -> exists d, stands_for e d) ->
  (forall d, (exists e, In e es /\ stands_for e d) <-> (exists e, In e es' /\ stands_for e d)) ->
  insert_all f es = Ok g -> insert_all f es' = Ok g' -> g = g'.
Proof.
  intros U H H' S G G'. destruct (insert_all_spec es f U H) as (x & X & (A & B & C & D) & K). rewrite G in X. injection X as <-.
  destruct (insert_all_spec es' f U H') as (x & X & (A' & B' & C' & D') & K'). rewrite G' in X. injection X as <-.
  assert (f_vData g = f_vData g') as V.
  { apply bits_determine; [congruence|]. intros k. rewrite K, K'. split; intros [Q|(e & d & I & E & O)]; auto; right.
    - destruct (proj1 (S d)) as (e' & I' & E'); eauto 6.
    - destruct (proj2 (S d)) as (e' & I' & E'); eauto 6. }
  destruct g, g'. cbn in *. congruence.
Qed.

Lemma insert_fails f e : f_vData f = [] -> 0 < f_nHashFuncs f -> forall d, stands_for e d -> insert f e = Err ZeroDivisionError /\ contains f e = Err ZeroDivisionError.
Proof.
  intros V H d D. apply stands_for_iff in D. unfold insert, contains. rewrite D, V. cbn [bind is_full].
  destruct (range0 (f_nHashFuncs f)) as [|i is] eqn:R.
  - assert (In 0 (range0 (f_nHashFuncs f))) as I by (apply range0_in; lia). rewrite R in I. destruct I.
  - cbn [insert_loop contains_loop]. unfold bloom_hash. rewrite land_W, murmur_model by apply W_range. rewrite V. split; reflexivity.
Qed.

(** ** Construction and serialization *)

Lemma fint_le x k n : 0 <= k -> fint (fmin x k) = Ok n -> n <= k.
Proof.
  intros K. unfold fmin. assert (I : fint (Fin (inject_Z k)) = Ok k) by (cbn; f_equal; apply Z.quot_1_r).
  destruct x as [q| | |]; try discriminate.
  - destruct (Qlt_le_dec (inject_Z k) q) as [L|L]; [rewrite I; intros H; injection H as <-; lia|].
    cbn [fint]. intros H. injection H as <-. unfold Qle in L. cbn [Qnum Qden inject_Z] in L.
    destruct (Z_lt_ge_dec (Qnum q) 0) as [Neg|Pos].
    + apply Z.le_trans with 0; [|lia]. rewrite <- (Z.opp_involutive (Qnum q)), Z.quot_opp_l by lia.
      assert (0 <= Z.quot (- Qnum q) (QDen q)) by (apply Z.quot_pos; lia). lia.
    + rewrite Z.quot_div_nonneg by lia. apply Z.div_le_upper_bound; lia.
  - rewrite I. intros H. injection H as <-. lia.
Qed.

Lemma fint_le8 x k n : 0 <= k -> fint (fdiv8 (fmin x (k * 8))) = Ok n -> n <= k.
Proof.
  intros K. unfold fmin, fdiv8. assert (I : fint (Fin (inject_Z (k * 8) / 8)%Q) = Ok k).
  { cbn [fint inject_Z Qdiv Qinv Qmult Qnum Qden]. f_equal. cbn. rewrite Z.mul_1_r. apply Z.quot_mul. lia. }
  destruct x as [q| | |]; try discriminate.
  - destruct (Qlt_le_dec (inject_Z (k * 8)) q) as [L|L]; [rewrite I; intros H; injection H as <-; lia|].
    cbn [fint Qdiv Qinv Qmult Qnum Qden]. intros H. injection H as <-. unfold Qle in L. cbn [Qnum Qden inject_Z] in L. cbn [Qnum Qden Qinv Qmult]. rewrite Z.mul_1_r.
    destruct (Z_lt_ge_dec (Qnum q) 0) as [Neg|Pos].
    + apply Z.le_trans with 0; [|lia]. rewrite <- (Z.opp_involutive (Qnum q)), Z.quot_opp_l by lia.
      assert (0 <= Z.quot (- Qnum q) (Z.pos (Qden q * 8))) by (apply Z.quot_pos; lia). lia.
    + rewrite Z.quot_div_nonneg by lia. apply Z.div_le_upper_bound; lia.
  - rewrite I. intros H. injection H as <-. lia.
Qed.

Lemma filter_new_within size funcs t g f : filter_new size funcs t g = Ok f ->
  Z.of_nat (List.length (f_vData f)) <= 36000 /\ f_nHashFuncs f <= 50 /\ (forall k, ~ bit_set (f_vData f) k) /\ f_nTweak f = t /\ f_nFlags f = g.
Proof.
  unfold filter_new. intros H. destruct size as [x|]; [|discriminate]. cbn [bind] in H.
  destruct (fint (fdiv8 (fmin x (MAX_BLOOM_FILTER_SIZE * 8)))) as [n|] eqn:N; [|discriminate]. cbn [bind] in H. apply fint_le8 in N; [|unfold MAX_BLOOM_FILTER_SIZE; lia].
  unfold bytearray_new in H. destruct (n <? 0) eqn:Q; [discriminate|]. cbn [bind] in H. destruct (funcs _) as [y|]; [|discriminate]. cbn [bind] in H.
  destruct (fint (fmin y MAX_HASH_FUNCS)) as [k|] eqn:K; [|discriminate]. cbn [bind] in H. injection H as <-. apply fint_le in K; [|unfold MAX_HASH_FUNCS; lia].
  unfold MAX_BLOOM_FILTER_SIZE, MAX_HASH_FUNCS in *. cbn [f_vData f_nHashFuncs f_nTweak f_nFlags]. rewrite repeat_length. split; [lia|]. split; [lia|]. split; [|split; reflexivity].
  intros j (J & b & B & T). apply nth_error_In, repeat_spec in B. subst b. change (bZ x00) with 0 in T. rewrite Z.bits_0 in T. discriminate.
Qed.

Lemma filter_writes f s : filter_ser f = Ok s -> filter_text f s.
Proof.
  unfold filter_ser, bytes_ser. intros H. destruct (varint_ser _) as [c|] eqn:C; [|discriminate]. cbn [bind] in H.
  destruct (pack_u 4 (f_nHashFuncs f)) as [h|] eqn:Hh; [|discriminate]. cbn [bind] in H.
  destruct (pack_u 4 (f_nTweak f)) as [t|] eqn:Ht; [|discriminate]. cbn [bind] in H.
  destruct (pack_u 1 (f_nFlags f)) as [g|] eqn:Hg; [|discriminate]. cbn [bind] in H. injection H as <-. rewrite <- app_assoc.
  apply varint_count in C. apply pack_le in Hh, Ht, Hg. constructor; assumption.
Qed.

Lemma count_inj n n' b b' r r' : count n b -> count n' b' -> b ++ r = b' ++ r' -> n = n' /\ r = r'.
Proof.
  intros C C' E. assert (0 <= n) by (destruct C as [x X|? L|? L|? L]; [lia|apply le_bound in L; lia..]).
  assert (0 <= n') by (destruct C' as [x X|? L|? L|? L]; [lia|apply le_bound in L; lia..]).
  assert (A : varint_de (b ++ r) = Ok (Z.to_N n, r)) by (apply varint_reads; exists b; split; [reflexivity|rewrite Z2N.id; assumption]).
  assert (A' : varint_de (b' ++ r') = Ok (Z.to_N n', r')) by (apply varint_reads; exists b'; split; [reflexivity|rewrite Z2N.id; assumption]).
  rewrite E, A' in A. injection A as A B. split; [lia|congruence].
Qed.

Lemma filter_text_inj f f' s : filter_text f s -> filter_text f' s -> f = f'.
Proof.
  intros H H'. destruct H as [c h t g C Hh Ht Hg]. remember (c ++ f_vData f ++ h ++ t ++ g) as s eqn:E. destruct H' as [c' h' t' g' C' Hh' Ht' Hg'].
  destruct (count_inj _ _ _ _ _ _ C' C E) as [N R]. apply app_inj_len in R; [|unfold blen in N; lia]. destruct R as [V R].
  apply app_inj_len in R; [|destruct Hh as [-> _], Hh' as [-> _]; reflexivity]. destruct R as [-> R].
  apply app_inj_len in R; [|destruct Ht as [-> _], Ht' as [-> _]; reflexivity]. destruct R as [-> ->].
  destruct Hh as [_ A], Hh' as [_ A'], Ht as [_ B], Ht' as [_ B'], Hg as [_ D], Hg' as [_ D']. destruct f, f'. cbn in *. congruence.
Qed.

Lemma filter_de_fails s : exists e, filter_deserialize s = Err e /\ (e = UnboundLocalError \/ e = SerializationError \/ e = SerializationTruncationError).
Proof.
  unfold filter_deserialize, filter_de. destruct (bytes_de s) as [[v r]|e] eqn:E; cbn [bind]; [eauto|]. exists e. split; [reflexivity|]. right.
  unfold bytes_de, varint_de, ser_read in E.
  repeat (first [ match type of E with Err _ = Err _ => injection E as <-; auto end | discriminate
    | match type of E with context [if ?c then _ else _] => destruct c; cbn [bind] in E end ]).
Qed.
Lemma filter_de_unbound f s : filter_text f s -> (blen (f_vData f) <= 0x02000000)%N -> filter_deserialize s = Err UnboundLocalError.
Proof.
  intros H B. destruct H as [c h t g C Hh Ht Hg]. unfold filter_deserialize, filter_de, bytes_de.
  assert (varint_de (c ++ f_vData f ++ h ++ t ++ g) = Ok (blen (f_vData f), f_vData f ++ h ++ t ++ g)) as -> by (apply varint_reads; eauto).
  cbn [bind]. rewrite ser_read_app; [reflexivity|reflexivity|]. unfold MAX_SIZE. lia.
Qed.

Lemma insert_keeps_size f e g : insert f e = Ok g -> IsWithinSizeConstraints g = IsWithinSizeConstraints f.
Proof.
  intros H. destruct (elem_bytes e) as [d|] eqn:D; [|unfold insert in H; rewrite D in H; discriminate].
  destruct (f_vData f) as [|b v] eqn:V.
  - destruct (Z_le_gt_dec (f_nHashFuncs f) 0) as [L|G].
    + destruct (insert_spec f e d (or_intror L) (proj2 (stands_for_iff e d) D)) as (g' & G' & (A & _ & _ & B) & _). rewrite H in G'. injection G' as <-.
      unfold IsWithinSizeConstraints, blen. rewrite A, B. reflexivity.
    + destruct (insert_fails f e V ltac:(lia) d (proj2 (stands_for_iff e d) D)) as [X _]. congruence.
  - assert (NE : f_vData f <> []) by (rewrite V; discriminate). destruct (insert_spec f e d (or_introl NE) (proj2 (stands_for_iff e d) D)) as (g' & G' & (A & _ & _ & B) & _). rewrite H in G'. injection G' as <-.
    unfold IsWithinSizeConstraints, blen. rewrite A, B. reflexivity.
Qed.
