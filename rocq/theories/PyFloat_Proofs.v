(** Doubles: rounding to the nearest, and amounts that go through floating point. *)
From Verif Require Import Base PyText_Spec Repr_Spec.
From Coq Require Import Lia ZifyBool ZifyNat ZifyN.
Local Open Scope Z_scope.

(** ** Rounding to an integer *)

Lemma half_even_close a b : 0 < b -> 2 * Z.abs (half_even a b * b - a) <= b.
Proof.
  intros B. unfold half_even. pose proof (Z.div_mod a b ltac:(lia)) as D. pose proof (Z.mod_pos_bound a b B).
  destruct (2 * (a mod b) <? b) eqn:E; [nia|]. destruct (b <? 2 * (a mod b)) eqn:F; [nia|].
  destruct (Z.even (a / b)); nia.
Qed.

Lemma half_even_exact q b : 0 < b -> half_even (q * b) b = q.
Proof. intros B. unfold half_even. rewrite Z.div_mul, Z.mod_mul by lia. destruct (2 * 0 <? b) eqn:E; lia. Qed.

Lemma half_even_scale c a b : 0 < c -> 0 < b -> half_even (c * a) (c * b) = half_even a b.
Proof.
  intros C B. unfold half_even. rewrite Z.div_mul_cancel_l by lia. rewrite Z.mul_mod_distr_l by lia.
  assert ((2 * (c * (a mod b)) <? c * b) = (2 * (a mod b) <? b)) as -> by nia.
  assert ((c * b <? 2 * (c * (a mod b))) = (b <? 2 * (a mod b))) as -> by nia. reflexivity.
Qed.

(** ** The exponent *)

Lemma pow2_pos e : 0 <= e -> 0 < 2 ^ e.
Proof. intros. apply Z.pow_pos_nonneg; lia. Qed.

(** [n * 2^k <= d * 2^j] does not change when both exponents grow. *)
Lemma scale_pos n d e : 0 < n -> 0 < d -> 0 < fst (scale n d e) /\ 0 < snd (scale n d e).
Proof. intros N D. unfold scale. destruct (0 <=? e) eqn:E; cbn [fst snd]; (split; [|]); try lia; apply Z.mul_pos_pos; try lia; apply pow2_pos; lia. Qed.

(** Comparing [n / d] with [x * 2 ^ e]. *)
Definition below (n d x e : Z) : Prop := if 0 <=? e then n < x * (d * 2 ^ e) else n * 2 ^ (- e) < x * d.
Lemma below_scale n d x e : below n d x e <-> fst (scale n d e) < x * snd (scale n d e).
Proof. unfold below, scale. destruct (0 <=? e); cbn [fst snd]; reflexivity. Qed.

(** The same comparison with common shifts. *)
Lemma below_shift n d x e k : 0 <= k -> 0 <= k + e -> 0 < d -> below n d x e <-> n * 2 ^ k < x * (d * 2 ^ (k + e)).
Proof.
  intros K KE D. unfold below. destruct (0 <=? e) eqn:E.
  - rewrite Z.pow_add_r by lia. pose proof (pow2_pos k K). pose proof (pow2_pos e ltac:(lia)).
    replace (x * (d * (2 ^ k * 2 ^ e))) with (x * (d * 2 ^ e) * 2 ^ k) by ring. apply Z.mul_lt_mono_pos_r. assumption.
  - replace (2 ^ k) with (2 ^ (k + e) * 2 ^ (- e)) by (rewrite <- Z.pow_add_r by lia; f_equal; lia). pose proof (pow2_pos (k + e) KE).
    replace (n * (2 ^ (k + e) * 2 ^ (- e))) with (n * 2 ^ (- e) * 2 ^ (k + e)) by ring.
    replace (x * (d * 2 ^ (k + e))) with (x * d * 2 ^ (k + e)) by ring. apply Z.mul_lt_mono_pos_r. assumption.
Qed.

(** Halving: [n/d < 2x * 2^e] is [n/d < x * 2^(e+1)]. *)
Lemma below_double n d x e : 0 < d -> below n d (2 * x) e <-> below n d x (e + 1).
Proof.
  intros D. pose (k := Z.abs e + 1). rewrite (below_shift n d (2 * x) e k) by (unfold k; lia). rewrite (below_shift n d x (e + 1) k) by (unfold k; lia).
  replace (k + (e + 1)) with (k + e + 1) by lia. rewrite (Z.pow_add_r 2 (k + e) 1) by (unfold k; lia). change (2 ^ 1) with 2.
  replace (x * (d * (2 ^ (k + e) * 2))) with (2 * x * (d * 2 ^ (k + e))) by ring. reflexivity.
Qed.

Lemma below_mono n d x e e' : 0 < d -> 0 < x -> e <= e' -> below n d x e -> below n d x e'.
Proof.
  intros D X E B. pose (k := Z.abs e + Z.abs e'). rewrite (below_shift n d x e' k) by (unfold k; lia).
  rewrite (below_shift n d x e k) in B by (unfold k; lia). eapply Z.lt_le_trans; [exact B|].
  apply Z.mul_le_mono_nonneg_l; [lia|]. apply Z.mul_le_mono_nonneg_l; [lia|]. apply Z.pow_le_mono_r; lia.
Qed.

(** The quotient is between powers of two given by the logarithms. *)
Lemma log_bounds n d : 0 < n -> 0 < d -> let e := Z.log2 n - Z.log2 d - 52 in
  below n d (2 ^ 53) e /\ ~ below n d (2 ^ 51) e.
Proof.
  intros N D e. pose proof (Z.log2_spec n N) as [L1 L2]. pose proof (Z.log2_spec d D) as [M1 M2].
  pose proof (Z.log2_nonneg n). pose proof (Z.log2_nonneg d).
  pose (k := Z.log2 d + 52). rewrite !(below_shift n d _ e k) by (unfold k, e; lia).
  replace (k + e) with (Z.log2 n) by (unfold k, e; lia). unfold k. rewrite Z.pow_add_r by lia.
  rewrite Z.pow_succ_r in L2, M2 by lia. set (A := 2 ^ Z.log2 n) in *. set (B := 2 ^ Z.log2 d) in *.
  change (2 ^ 53) with (2 * 2 ^ 52). change (2 ^ 51) with 2251799813685248. change (2 ^ 52) with (2 * 2251799813685248).
  assert (0 < A) by (apply pow2_pos; lia). assert (0 < B) by (apply pow2_pos; lia). split; nia.
Qed.

(** The exponent is the least one, not under -1074, with which the mantissa has at most 53 digits. *)
Definition fits (n d e : Z) : Prop := -1074 <= e /\ below n d (2 ^ 53) e /\ (e = -1074 \/ ~ below n d (2 ^ 52) e).

Lemma exponent_fits n d : 0 < n -> 0 < d -> fits n d (exponent n d).
Proof.
  intros N D. destruct (log_bounds n d N D) as [U L]. unfold exponent. set (e := Z.log2 n - Z.log2 d - 52) in *.
  pose proof (below_scale n d (2 ^ 52) e) as S. destruct (scale n d e) as [a b]. cbn [fst snd] in S.
  assert (H : exists e', (if a <? 2 ^ 52 * b then e - 1 else e) = e' /\ below n d (2 ^ 53) e' /\ ~ below n d (2 ^ 52) e').
  { destruct (a <? 2 ^ 52 * b) eqn:C.
    - exists (e - 1). split; [reflexivity|]. split.
      + change (2 ^ 53) with (2 * 2 ^ 52). apply below_double; [exact D|]. replace (e - 1 + 1) with e by lia. apply S. lia.
      + change (2 ^ 52) with (2 * 2 ^ 51). intros B. apply L. apply below_double in B; [|exact D]. replace (e - 1 + 1) with e in B by lia. exact B.
    - exists e. split; [reflexivity|]. split; [exact U|]. intros B. apply S in B. lia. }
  destruct H as (e' & -> & U' & L'). destruct (Z.max_spec e' (-1074)) as [[M ->]|[M ->]].
  - split; [lia|]. split; [|left; reflexivity]. eapply below_mono; [exact D|reflexivity| |exact U']. lia.
  - split; [lia|]. split; [exact U'|right; exact L'].
Qed.

Lemma fits_unique n d e e' : 0 < d -> fits n d e -> fits n d e' -> e = e'.
Proof.
  intros D. assert (H : forall e e', e < e' -> fits n d e -> fits n d e' -> False).
  { clear e e'. intros e e' E (A & B & _) (_ & _ & [Q|L]); [lia|]. apply L. change (2 ^ 53) with (2 * 2 ^ 52) in B.
    apply below_double in B; [|exact D]. eapply below_mono; [exact D|reflexivity| |exact B]. lia. }
  intros F F'. destruct (Z.lt_trichotomy e e') as [E|[E|E]]; [exfalso; eauto|exact E|exfalso; eauto].
Qed.

Lemma scale_common c n d e : scale (c * n) (c * d) e = (c * fst (scale n d e), c * snd (scale n d e)).
Proof. unfold scale. destruct (0 <=? e); cbn [fst snd]; f_equal; ring. Qed.

Lemma below_common c n d x e : 0 < c -> below (c * n) (c * d) x e <-> below n d x e.
Proof. intros C. rewrite !below_scale, scale_common. cbn [fst snd]. replace (x * (c * snd (scale n d e))) with (c * (x * snd (scale n d e))) by ring. symmetry. apply Z.mul_lt_mono_pos_l. exact C. Qed.

(** The nearest double depends on the quotient only. *)
Lemma nearest_common c n d : 0 < c -> 0 < n -> 0 < d -> nearest (c * n) (c * d) = nearest n d.
Proof.
  intros C N D. unfold nearest.
  assert (exponent (c * n) (c * d) = exponent n d) as ->.
  { apply (fits_unique n d); [exact D| |apply exponent_fits; assumption].
    destruct (exponent_fits (c * n) (c * d) ltac:(nia) ltac:(nia)) as (A & B & E). unfold fits.
    rewrite below_common in B by exact C. split; [exact A|]. split; [exact B|]. rewrite below_common in E by exact C. exact E. }
  rewrite scale_common. pose proof (scale_pos n d (exponent n d) N D) as [_ P]. destruct (scale n d (exponent n d)) as [a b]. cbn [fst snd] in *.
  rewrite half_even_scale by assumption. reflexivity.
Qed.

(** ** Integers are exact *)

Lemma exponent_int z d : 0 < z < 2 ^ 53 -> 0 < d -> -1074 <= exponent (z * d) d <= 0.
Proof.
  intros Z D. destruct (exponent_fits (z * d) d ltac:(nia) D) as (A & B & C). split; [exact A|]. destruct C as [->|C]; [lia|].
  destruct (Z.le_gt_cases (exponent (z * d) d) 0) as [L|L]; [exact L|]. exfalso. apply C.
  eapply (below_mono _ _ _ 1); [exact D|reflexivity|lia|]. unfold below. cbn [Z.leb Z.compare]. change (2 ^ 1) with 2. nia.
Qed.

Lemma nearest_int z d : 0 < z < 2 ^ 53 -> 0 < d -> exists k, 0 <= k <= 1074 /\ nearest (z * d) d = Double (z * 2 ^ k) (- k).
Proof.
  intros Z D. pose proof (exponent_int z d Z D) as E. unfold nearest. set (e := exponent (z * d) d) in *.
  exists (- e). split; [lia|]. rewrite Z.opp_involutive. unfold scale. destruct (0 <=? e) eqn:L.
  - assert (e = 0) as -> by lia. change (- 0) with 0. change (2 ^ 0) with 1. rewrite !Z.mul_1_r. rewrite half_even_exact by exact D. reflexivity.
  - replace (z * d * 2 ^ (- e)) with (z * 2 ^ (- e) * d) by ring. rewrite half_even_exact by exact D. reflexivity.
Qed.

Lemma ratio_int z k : 0 <= k -> ratio (Double (z * 2 ^ k) (- k)) = (z * 2 ^ k, 1 * 2 ^ k).
Proof. intros K. unfold ratio, scale. cbn [mant expo]. rewrite Z.opp_involutive. destruct (0 <=? k) eqn:E; [reflexivity|lia]. Qed.

Lemma to_int_int z k : 0 <= k -> to_int (Double (z * 2 ^ k) (- k)) = z.
Proof. intros K. unfold to_int. rewrite ratio_int by exact K. rewrite Z.mul_1_l. apply Z.div_mul. pose proof (pow2_pos k K). lia. Qed.

Lemma product_int z k w j : 0 <= k -> 0 <= j -> 0 < z * w < 2 ^ 53 -> to_int (double_mul (Double (z * 2 ^ k) (- k)) (Double (w * 2 ^ j) (- j))) = z * w.
Proof.
  intros K J P. unfold double_mul. rewrite !ratio_int by assumption.
  replace (z * 2 ^ k * (w * 2 ^ j)) with (z * w * (1 * 2 ^ k * (1 * 2 ^ j))) by ring.
  pose proof (pow2_pos k K). pose proof (pow2_pos j J). destruct (nearest_int (z * w) (1 * 2 ^ k * (1 * 2 ^ j)) P ltac:(nia)) as (i & I & ->).
  apply to_int_int. lia.
Qed.

Lemma whole_coins k : 0 <= k -> k * 10 ^ 8 < 2 ^ 53 -> in_floats (k * 10 ^ 8) = k * 10 ^ 8.
Proof.
  intros K L. destruct (Z.eq_dec k 0) as [->|N]; [reflexivity|]. unfold in_floats, of_int.
  destruct (nearest_int k (10 ^ 8) ltac:(lia) ltac:(lia)) as (i & I & ->).
  destruct (nearest_int (10 ^ 8) 1 ltac:(lia) ltac:(lia)) as (j & J & E). rewrite Z.mul_1_r in E. rewrite E.
  apply product_int; lia.
Qed.

(** ** Other amounts are off by one at most *)

Lemma amount_near v : 0 <= v <= 2 ^ 51 -> in_floats v = v \/ in_floats v = v - 1.
Proof.
  intros V. destruct (Z.eq_dec v 0) as [->|N]; [left; reflexivity|].
  enough (X : exists w, in_floats v = w /\ (w = v \/ w = v - 1)) by (destruct X as (w & -> & X); exact X). unfold in_floats, of_int.
  destruct (nearest_int (10 ^ 8) 1 ltac:(lia) ltac:(lia)) as (j & J & EJ). rewrite Z.mul_1_r in EJ. rewrite EJ. clear EJ.
  (* the decimal fraction *)
  destruct (exponent_fits v (10 ^ 8) ltac:(lia) ltac:(lia)) as (A1 & U1 & L1). unfold nearest at 1.
  set (e1 := exponent v (10 ^ 8)) in *.
  assert (E1 : -1074 < e1 < 0).
  { split.
    - destruct (Z.eq_dec e1 (-1074)) as [Q|]; [|lia]. exfalso. rewrite Q in U1. unfold below in U1. cbn [Z.leb Z.compare] in U1.
      change (- (-1074)) with 1074 in U1. assert (2 ^ 80 <= 2 ^ 1074) by (apply Z.pow_le_mono_r; lia). change (10 ^ 8) with 100000000 in U1.
      assert (2 ^ 80 * 1 <= v * 2 ^ 1074) by nia. change (2 ^ 80 * 1) with 1208925819614629174706176 in H0. lia.
    - destruct (Z.lt_ge_cases e1 0) as [L|L]; [exact L|]. exfalso. destruct L1 as [Q|L1]; [lia|]. apply L1.
      eapply (below_mono _ _ _ 0); [lia|lia|exact L|]. unfold below. cbn [Z.leb Z.compare]. change (2 ^ 0) with 1. lia. }
  destruct L1 as [Q|L1]; [lia|]. unfold below in L1, U1. unfold scale at 1. destruct (0 <=? e1) eqn:Q1; [lia|].
  set (P := 2 ^ (- e1)) in *. assert (HP : 0 < P) by (apply pow2_pos; lia).
  pose proof (half_even_close (v * P) (10 ^ 8) ltac:(lia)) as C1. set (M := half_even (v * P) (10 ^ 8)) in *.
  unfold double_mul at 1. rewrite ratio_int by lia.
  assert (R1 : ratio (Double M e1) = (M, P)).
  { unfold ratio, scale. cbn [mant expo]. destruct (0 <=? - e1) eqn:Q; [|lia]. rewrite Z.mul_1_l. reflexivity. }
  rewrite R1. rewrite Z.mul_1_l.
  replace (M * (10 ^ 8 * 2 ^ j)) with (2 ^ j * (M * 10 ^ 8)) by ring. rewrite (Z.mul_comm P (2 ^ j)).
  assert (HM : 0 < M) by (change (10 ^ 8) with 100000000 in *; change (2 ^ 52) with 4503599627370496 in *; lia).
  rewrite nearest_common; [|apply pow2_pos; lia|lia|exact HP].
  (* the product *)
  destruct (exponent_fits (M * 10 ^ 8) P ltac:(lia) HP) as (A2 & U2 & L2). unfold nearest. set (e2 := exponent (M * 10 ^ 8) P) in *.
  change (10 ^ 8) with 100000000 in *. change (2 ^ 52) with 4503599627370496 in *. change (2 ^ 53) with 9007199254740992 in *. change (2 ^ 51) with 2251799813685248 in *.
  assert (PB : 200000000 <= P) by nia.
  assert (E2 : e2 < 0).
  { destruct (Z.lt_ge_cases e2 0) as [L|L]; [exact L|]. exfalso. destruct L2 as [Q|L2]; [lia|]. apply L2.
    eapply (below_mono _ _ _ 0); [exact HP|lia|exact L|]. unfold below. cbn [Z.leb Z.compare]. change (2 ^ 0) with 1. nia. }
  unfold scale. destruct (0 <=? e2) eqn:Q2; [lia|]. set (R := 2 ^ (- e2)). assert (HR : 2 <= R).
  { unfold R. replace (- e2) with (1 + (- e2 - 1)) by lia. rewrite Z.pow_add_r by lia. pose proof (pow2_pos (- e2 - 1) ltac:(lia)). lia. }
  pose proof (half_even_close (M * 100000000 * R) P HP) as C2. set (K := half_even (M * 100000000 * R) P) in *.
  unfold to_int. assert (R2 : ratio (Double K e2) = (K, R)).
  { unfold ratio, scale. cbn [mant expo]. destruct (0 <=? - e2) eqn:Q; [|lia]. rewrite Z.mul_1_l. reflexivity. }
  rewrite R2. clear R2 R1 U2 L2 A2 U1 A1.
  assert (B1 : (v - 1) * R <= K < (v + 1) * R).
  { assert (D1 : 2 * Z.abs (M * 100000000 * R - v * P * R) <= 100000000 * R) by nia.
    assert (D2 : 2 * Z.abs (K * P - v * P * R) <= P + 100000000 * R) by lia.
    assert (D5 : P * 2 <= P * R) by (apply Z.mul_le_mono_nonneg_l; lia).
    assert (D6 : 200000000 * R <= P * R) by (apply Z.mul_le_mono_nonneg_r; lia).
    assert (D3 : P + 100000000 * R < 2 * (P * R)) by lia.
    assert (D4 : - (P * R) < K * P - v * P * R < P * R) by lia.
    assert (D7 : (v - 1) * R * P < K * P) by (replace ((v - 1) * R * P) with (v * P * R - P * R) by ring; lia).
    assert (D8 : K * P < (v + 1) * R * P) by (replace ((v + 1) * R * P) with (v * P * R + P * R) by ring; lia).
    apply Z.mul_lt_mono_pos_r in D7; [|exact HP]. apply Z.mul_lt_mono_pos_r in D8; [|exact HP]. lia. }
  assert (v - 1 <= K / R) by (apply Z.div_le_lower_bound; [lia|]; rewrite Z.mul_comm; apply B1).
  assert (K / R < v + 1) by (apply Z.div_lt_upper_bound; [lia|]; rewrite Z.mul_comm; apply B1). exists (K / R). split; [reflexivity|lia].
Qed.
