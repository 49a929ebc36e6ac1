(** Difficulties: scaling by powers of two is exact. *)
From Verif Require Import Base PyText_Spec PyFloat_Proofs Difficulty_Model Difficulty_Spec Block_Model.
From Coq Require Import Lia ZifyBool.
Local Open Scope Z_scope.

Lemma ratio_pos x : 0 < snd (ratio x).
Proof. unfold ratio, scale. destruct (0 <=? - expo x) eqn:E; cbn [snd]; [pose proof (pow2_pos (- expo x)); lia|lia]. Qed.

Lemma ratio_mant x : 0 < mant x -> 0 < fst (ratio x).
Proof. intros M. unfold ratio. apply scale_pos; lia. Qed.

Lemma same_alt x y : same x y <-> fst (ratio x) * snd (ratio y) = fst (ratio y) * snd (ratio x).
Proof. unfold same. destruct (ratio x), (ratio y). reflexivity. Qed.
Lemma at_most_alt x y : at_most x y <-> fst (ratio x) * snd (ratio y) <= fst (ratio y) * snd (ratio x).
Proof. unfold at_most. destruct (ratio x), (ratio y). reflexivity. Qed.

Lemma same_refl x : same x x.
Proof. apply same_alt. reflexivity. Qed.
Lemma same_sym x y : same x y -> same y x.
Proof. rewrite !same_alt. auto. Qed.
Lemma same_trans x y z : same x y -> same y z -> same x z.
Proof.
  rewrite !same_alt. pose proof (ratio_pos x). pose proof (ratio_pos y). pose proof (ratio_pos z). intros A B.
  apply Z.mul_reg_r with (snd (ratio y)); [lia|]. transitivity (fst (ratio x) * snd (ratio y) * snd (ratio z)); [ring|]. rewrite A.
  transitivity (fst (ratio y) * snd (ratio z) * snd (ratio x)); [ring|]. rewrite B. ring.
Qed.

(** The value of a double over a common power of two. *)
Lemma ratio_shift M e k : 0 <= k -> 0 <= k + e -> fst (ratio (Double M e)) * 2 ^ k = M * 2 ^ (k + e) * snd (ratio (Double M e)).
Proof.
  intros K E. unfold ratio, scale. cbn [mant expo]. destruct (0 <=? - e) eqn:L; cbn [fst snd].
  - replace k with ((k + e) + - e) at 1 by lia. rewrite (Z.pow_add_r 2 (k + e) (- e)) by lia. ring.
  - rewrite Z.opp_involutive. rewrite (Z.pow_add_r 2 k e) by lia. ring.
Qed.

(** [n / d] is [M * 2 ^ e]. *)
Definition worth (n d M e : Z) : Prop := n * snd (ratio (Double M e)) = fst (ratio (Double M e)) * d.

Lemma worth_shift n d M e k : 0 < d -> 0 <= k -> 0 <= k + e -> worth n d M e <-> n * 2 ^ k = M * 2 ^ (k + e) * d.
Proof.
  intros D K E. unfold worth. pose proof (ratio_shift M e k K E) as R. pose proof (ratio_pos (Double M e)) as P. pose proof (pow2_pos k K) as Q.
  split; intros H.
  - apply Z.mul_reg_r with (snd (ratio (Double M e))); [lia|]. transitivity (n * snd (ratio (Double M e)) * 2 ^ k); [ring|]. rewrite H.
    transitivity (fst (ratio (Double M e)) * 2 ^ k * d); [ring|]. rewrite R. ring.
  - apply Z.mul_reg_r with (2 ^ k); [lia|]. transitivity (n * 2 ^ k * snd (ratio (Double M e))); [ring|]. rewrite H.
    transitivity (M * 2 ^ (k + e) * snd (ratio (Double M e)) * d); [ring|]. rewrite <- R. ring.
Qed.

Lemma half_even_ratio a b a' b' : 0 < b -> 0 < b' -> a * b' = a' * b -> half_even a b = half_even a' b'.
Proof. intros B B' E. rewrite <- (half_even_scale b' a b), <- (half_even_scale b a' b') by assumption. f_equal; lia. Qed.

(** The mantissa chosen for [n / d], over common powers of two. *)
Lemma nearest_shift n d e k : 0 < n -> 0 < d -> fits n d e -> 0 <= k -> 0 <= k + e -> nearest n d = Double (half_even (n * 2 ^ k) (d * 2 ^ (k + e))) e.
Proof.
  intros N D F K E. unfold nearest. rewrite (fits_unique n d _ e D (exponent_fits n d N D) F). pose proof (pow2_pos k K). pose proof (pow2_pos (k + e) E).
  pose proof (scale_pos n d e N D) as [A B]. unfold scale in *. destruct (0 <=? e) eqn:L; cbn [fst snd] in *; f_equal; apply half_even_ratio; try assumption; try nia.
  - rewrite (Z.pow_add_r 2 k e) by lia. ring.
  - replace k with ((k + e) + - e) at 2 by lia. rewrite (Z.pow_add_r 2 (k + e) (- e)) by lia. ring.
Qed.

(** A number with at most 53 digits is its own nearest double. *)
Lemma nearest_same n d M e : 0 < d -> 0 < M < 2 ^ 53 -> -1074 <= e -> worth n d M e -> same (nearest n d) (Double M e).
Proof.
  intros D HM E W. set (k := 1074 + Z.abs e). rewrite (worth_shift n d M e k) in W by (unfold k; lia).
  pose proof (pow2_pos k ltac:(unfold k; lia)) as PK. pose proof (pow2_pos (k + e) ltac:(unfold k; lia)) as PE.
  assert (N : 0 < n) by (apply (Z.mul_pos_cancel_r n (2 ^ k)); [lia|]; rewrite W; apply Z.mul_pos_pos; [apply Z.mul_pos_pos|]; lia).
  pose proof (exponent_fits n d N D) as F. set (x := exponent n d) in *.
  assert (X : x <= e).
  { destruct F as (_ & _ & [->|L]); [exact E|]. destruct (Z.le_gt_cases x e) as [G|G]; [exact G|]. exfalso. apply L.
    apply (below_mono n d (2 ^ 52) (e + 1) x D); [lia|lia|]. apply (proj1 (below_double n d (2 ^ 52) e D)).
    apply (below_shift n d _ e k); [unfold k; lia|unfold k; lia|exact D|]. rewrite W. replace (M * 2 ^ (k + e) * d) with (M * (d * 2 ^ (k + e))) by ring.
    apply Z.mul_lt_mono_pos_r; [nia|]. change (2 * 2 ^ 52) with (2 ^ 53). lia. }
  destruct F as (X0 & F2 & F3). rewrite (nearest_shift n d x k) by (try assumption; try (unfold k; lia); repeat split; assumption).
  rewrite W. replace (k + e) with ((e - x) + (k + x)) by lia. rewrite Z.pow_add_r by (unfold k; lia).
  replace (M * (2 ^ (e - x) * 2 ^ (k + x)) * d) with (M * 2 ^ (e - x) * (d * 2 ^ (k + x))) by ring.
  pose proof (pow2_pos (k + x) ltac:(unfold k; lia)). rewrite half_even_exact by nia.
  apply same_alt. pose proof (ratio_shift (M * 2 ^ (e - x)) x k ltac:(unfold k; lia) ltac:(unfold k; lia)) as R1.
  pose proof (ratio_shift M e k ltac:(unfold k; lia) ltac:(unfold k; lia)) as R2.
  apply Z.mul_reg_r with (2 ^ k); [lia|].
  transitivity (fst (ratio (Double (M * 2 ^ (e - x)) x)) * 2 ^ k * snd (ratio (Double M e))); [ring|]. rewrite R1.
  transitivity (fst (ratio (Double M e)) * 2 ^ k * snd (ratio (Double (M * 2 ^ (e - x)) x))); [|ring]. rewrite R2.
  replace (k + e) with ((e - x) + (k + x)) by lia. rewrite (Z.pow_add_r 2 (e - x) (k + x)) by (unfold k; lia). ring.
Qed.

Lemma nearest_same' n d M e : 0 < d -> 0 < M <= 2 ^ 53 -> -1074 <= e -> worth n d M e -> same (nearest n d) (Double M e).
Proof.
  intros D HM E W. destruct (Z.eq_dec M (2 ^ 53)) as [->|Q]; [|apply nearest_same; auto; lia].
  assert (S : same (Double (2 ^ 52) (e + 1)) (Double (2 ^ 53) e)).
  { apply same_alt. set (k := Z.abs e). pose proof (ratio_shift (2 ^ 53) e k ltac:(unfold k; lia) ltac:(unfold k; lia)) as R1.
    pose proof (ratio_shift (2 ^ 52) (e + 1) k ltac:(unfold k; lia) ltac:(unfold k; lia)) as R2.
    pose proof (pow2_pos k ltac:(unfold k; lia)). apply Z.mul_reg_r with (2 ^ k); [lia|].
    transitivity (fst (ratio (Double (2 ^ 52) (e + 1))) * 2 ^ k * snd (ratio (Double (2 ^ 53) e))); [ring|]. rewrite R2.
    transitivity (fst (ratio (Double (2 ^ 53) e)) * 2 ^ k * snd (ratio (Double (2 ^ 52) (e + 1)))); [|ring]. rewrite R1.
    replace (k + (e + 1)) with ((k + e) + 1) by lia. rewrite (Z.pow_add_r 2 (k + e) 1) by (unfold k; lia). change (2 ^ 53) with (2 ^ 52 * 2). ring. }
  eapply same_trans; [|exact S]. apply nearest_same; [exact D|lia|lia|].
  set (k := Z.abs e). rewrite (worth_shift n d _ e k) in W by (unfold k; lia). rewrite (worth_shift n d _ (e + 1) k) by (unfold k; lia).
  rewrite W. replace (k + (e + 1)) with ((k + e) + 1) by lia. rewrite (Z.pow_add_r 2 (k + e) 1) by (unfold k; lia). change (2 ^ 53) with (2 ^ 52 * 2). ring.
Qed.

(** ** The loops *)

Lemma worth_of x M e : same x (Double M e) -> worth (fst (ratio x)) (snd (ratio x)) M e.
Proof. rewrite same_alt. intros H. exact H. Qed.

Lemma worth_up n d M e j : 0 < d -> 0 <= j -> worth n d M e -> worth (n * 2 ^ j) d M (e + j).
Proof.
  intros D J. rewrite (worth_shift n d M e (Z.abs e)) by lia. rewrite (worth_shift _ d M (e + j) (Z.abs e)) by lia. intros H.
  replace (Z.abs e + (e + j)) with ((Z.abs e + e) + j) by lia. rewrite (Z.pow_add_r 2 (Z.abs e + e) j) by lia.
  transitivity (n * 2 ^ Z.abs e * 2 ^ j); [ring|]. rewrite H. ring.
Qed.

Lemma worth_down n d M e j : 0 < d -> 0 <= j -> worth n d M e -> worth n (d * 2 ^ j) M (e - j).
Proof.
  intros D J. pose proof (pow2_pos j J). rewrite (worth_shift n d M e (Z.abs e + j)) by lia. rewrite (worth_shift _ (d * 2 ^ j) M (e - j) (Z.abs e + j)) by nia. intros H'.
  rewrite H'. replace (Z.abs e + j + (e - j)) with (Z.abs e + e) by lia. replace (Z.abs e + j + e) with ((Z.abs e + e) + j) by lia.
  rewrite (Z.pow_add_r 2 (Z.abs e + e) j) by lia. ring.
Qed.

Lemma ratio_256 : ratio (of_int 256) = (256 * 2 ^ 44, 1 * 2 ^ 44).
Proof. reflexivity. Qed.

Lemma mul_256 x M e : 0 < M <= 2 ^ 53 -> -1074 <= e -> same x (Double M e) -> same (double_mul x (of_int 256)) (Double M (e + 8)).
Proof.
  intros HM E S. apply worth_of in S. unfold double_mul. rewrite ratio_256. pose proof (ratio_pos x) as P. destruct (ratio x) as [a b]. cbn [fst snd] in *.
  apply nearest_same'; [nia|assumption|lia|]. apply (worth_up _ _ _ _ 8) in S; [|lia|lia].
  unfold worth in *. change (2 ^ 8) with 256 in S. set (u := snd (ratio (Double M (e + 8)))) in *. set (v := fst (ratio (Double M (e + 8)))) in *.
  transitivity (a * 256 * u * 2 ^ 44); [ring|]. rewrite S. ring.
Qed.

Lemma div_256 x M e : 0 < M <= 2 ^ 53 -> -1074 + 8 <= e -> same x (Double M e) -> same (double_div x (of_int 256)) (Double M (e - 8)).
Proof.
  intros HM E S. apply worth_of in S. unfold double_div. rewrite ratio_256. pose proof (ratio_pos x) as P. destruct (ratio x) as [a b]. cbn [fst snd] in *.
  apply nearest_same'; [nia|assumption|lia|]. apply (worth_down _ _ _ _ 8) in S; [|lia|lia].
  unfold worth in *. change (2 ^ 8) with 256 in S. set (u := snd (ratio (Double M (e - 8)))) in *. set (v := fst (ratio (Double M (e - 8)))) in *.
  transitivity (a * u * 2 ^ 44); [ring|]. rewrite S. ring.
Qed.

Lemma times_256_same k : forall x M e, 0 < M <= 2 ^ 53 -> -1074 <= e -> same x (Double M e) -> same (times_256 k x) (Double M (e + 8 * Z.of_nat k)).
Proof.
  induction k as [|k IH]; intros x M e HM E S; cbn [times_256].
  - replace (e + 8 * Z.of_nat 0) with e by lia. exact S.
  - replace (e + 8 * Z.of_nat (Datatypes.S k)) with (e + 8 + 8 * Z.of_nat k) by lia. apply IH; [exact HM|lia|]. apply mul_256; assumption.
Qed.

Lemma over_256_same k : forall x M e, 0 < M <= 2 ^ 53 -> -1074 + 8 * Z.of_nat k <= e -> same x (Double M e) -> same (over_256 k x) (Double M (e - 8 * Z.of_nat k)).
Proof.
  induction k as [|k IH]; intros x M e HM E S; cbn [over_256].
  - replace (e - 8 * Z.of_nat 0) with e by lia. exact S.
  - replace (e - 8 * Z.of_nat (Datatypes.S k)) with (e - 8 - 8 * Z.of_nat k) by lia. apply IH; [exact HM|lia|]. apply div_256; [exact HM|lia|assumption].
Qed.

(** ** Scaling before rounding *)

Lemma below_up n d x e j : 0 < d -> 0 <= j -> below (n * 2 ^ j) d x (e + j) <-> below n d x e.
Proof.
  intros D J. rewrite (below_shift _ d x (e + j) (Z.abs e)) by lia. rewrite (below_shift n d x e (Z.abs e)) by lia.
  replace (Z.abs e + (e + j)) with ((Z.abs e + e) + j) by lia. rewrite (Z.pow_add_r 2 (Z.abs e + e) j) by lia. pose proof (pow2_pos j J).
  replace (n * 2 ^ j * 2 ^ Z.abs e) with (n * 2 ^ Z.abs e * 2 ^ j) by ring.
  replace (x * (d * (2 ^ (Z.abs e + e) * 2 ^ j))) with (x * (d * 2 ^ (Z.abs e + e)) * 2 ^ j) by ring. symmetry. apply Z.mul_lt_mono_pos_r. assumption.
Qed.

Lemma below_down n d x e j : 0 < d -> 0 <= j -> below n (d * 2 ^ j) x (e - j) <-> below n d x e.
Proof.
  intros D J. pose proof (pow2_pos j J). rewrite (below_shift n d x e (Z.abs e + j)) by lia. rewrite (below_shift n (d * 2 ^ j) x (e - j) (Z.abs e + j)) by nia.
  replace (Z.abs e + j + (e - j)) with (Z.abs e + e) by lia. replace (Z.abs e + j + e) with ((Z.abs e + e) + j) by lia.
  rewrite (Z.pow_add_r 2 (Z.abs e + e) j) by lia. replace (d * 2 ^ j * 2 ^ (Z.abs e + e)) with (d * (2 ^ (Z.abs e + e) * 2 ^ j)) by ring. reflexivity.
Qed.

Lemma nearest_up n d j : 0 < n -> 0 < d -> 0 <= j -> ~ below n d (2 ^ 52) (exponent n d) ->
  nearest (n * 2 ^ j) d = Double (mant (nearest n d)) (exponent n d + j).
Proof.
  intros N D J L. pose proof (exponent_fits n d N D) as F. set (e := exponent n d) in *. pose proof (pow2_pos j J).
  rewrite (nearest_shift n d e (Z.abs e)) by (try assumption; lia). cbn [mant]. destruct F as (A & B & _).
  rewrite (nearest_shift (n * 2 ^ j) d (e + j) (Z.abs e)); [| nia | exact D | | lia | lia].
  - f_equal. apply half_even_ratio; [pose proof (pow2_pos (Z.abs e + (e + j))); nia|pose proof (pow2_pos (Z.abs e + e)); nia|].
    replace (Z.abs e + (e + j)) with ((Z.abs e + e) + j) by lia. rewrite (Z.pow_add_r 2 (Z.abs e + e) j) by lia. ring.
  - split; [lia|]. rewrite !below_up by assumption. auto.
Qed.

Lemma nearest_down n d j : 0 < n -> 0 < d -> 0 <= j -> -1074 + j <= exponent n d -> ~ below n d (2 ^ 52) (exponent n d) ->
  nearest n (d * 2 ^ j) = Double (mant (nearest n d)) (exponent n d - j).
Proof.
  intros N D J E L. pose proof (exponent_fits n d N D) as F. set (e := exponent n d) in *. pose proof (pow2_pos j J).
  rewrite (nearest_shift n d e (Z.abs e + j)) by (try assumption; lia). cbn [mant]. destruct F as (A & B & _).
  rewrite (nearest_shift n (d * 2 ^ j) (e - j) (Z.abs e + j)); [| exact N | nia | | lia | lia].
  - f_equal. apply half_even_ratio; [pose proof (pow2_pos (Z.abs e + j + (e - j))); nia|pose proof (pow2_pos (Z.abs e + j + e)); nia|].
    replace (Z.abs e + j + (e - j)) with (Z.abs e + e) by lia. replace (Z.abs e + j + e) with ((Z.abs e + e) + j) by lia.
    rewrite (Z.pow_add_r 2 (Z.abs e + e) j) by lia. ring.
  - split; [lia|]. rewrite !below_down by assumption. auto.
Qed.

Lemma mant_bounds n d : 0 < n -> 0 < d -> ~ below n d (2 ^ 52) (exponent n d) -> 0 < mant (nearest n d) <= 2 ^ 53.
Proof.
  intros N D L. unfold nearest. pose proof (exponent_fits n d N D) as (_ & B & _). rewrite below_scale in B, L. pose proof (scale_pos n d (exponent n d) N D) as [P Q].
  destruct (scale n d (exponent n d)) as [a b]. cbn [fst snd mant] in *. pose proof (half_even_close a b Q) as C. change (2 ^ 52) with (2 ^ 53 / 2) in L.
  change (2 ^ 53 / 2) with 4503599627370496 in L. change (2 ^ 53) with 9007199254740992 in *. nia.
Qed.

(** ** The quotient of the mantissas *)

Lemma quotient a b : 0 < a < 2 ^ 53 -> 0 < b < 2 ^ 53 -> double_div (of_int a) (of_int b) = nearest a b.
Proof.
  intros A B. unfold of_int. destruct (nearest_int a 1 A ltac:(lia)) as (k & K & E). destruct (nearest_int b 1 B ltac:(lia)) as (j & J & E').
  rewrite Z.mul_1_r in E, E'. rewrite E, E'. unfold double_div. rewrite !ratio_int by lia. pose proof (pow2_pos k). pose proof (pow2_pos j).
  rewrite <- (nearest_common (2 ^ k * 2 ^ j) a b) by nia. f_equal; ring.
Qed.

Lemma quotient_exponent m : 0 < m < 2 ^ 24 -> -61 <= exponent 65535 m /\ ~ below 65535 m (2 ^ 52) (exponent 65535 m).
Proof.
  intros M. destruct (exponent_fits 65535 m ltac:(lia) ltac:(lia)) as (_ & B & C).
  assert (L : -61 <= exponent 65535 m).
  { destruct (Z.le_gt_cases (-61) (exponent 65535 m)) as [L|L]; [exact L|]. exfalso.
    apply (below_mono _ _ _ _ (-62)) in B; [|lia|lia|lia]. unfold below in B. cbn [Z.leb Z.compare Z.opp] in B.
    change (2 ^ 62) with 4611686018427387904 in B. change (2 ^ 53) with 9007199254740992 in B. change (2 ^ 24) with 16777216 in M. lia. }
  split; [exact L|]. destruct C as [C|C]; [lia|exact C].
Qed.

Definition mantissa (nBits : Z) : Z := nBits mod 2 ^ 24.
Definition size (nBits : Z) : Z := nBits / 2 ^ 24 mod 256.

Lemma land_mantissa z : Z.land z 16777215 = mantissa z.
Proof. change 16777215 with (Z.ones 24). apply Z.land_ones. lia. Qed.
Lemma land_size z : Z.land (Z.shiftr z 24) 255 = size z.
Proof. change 255 with (Z.ones 8). rewrite Z.land_ones by lia. rewrite Z.shiftr_div_pow2 by lia. reflexivity. Qed.

Lemma pow256 k : 0 <= k -> 256 ^ k = 2 ^ (8 * k).
Proof. intros K. change 256 with (2 ^ 8). rewrite <- Z.pow_mul_r by lia. reflexivity. Qed.

Lemma difficulty_exact nBits : size nBits <= 155 ->
  (mantissa nBits = 0 -> calc_difficulty nBits = Err ZeroDivisionError) /\
  (0 < mantissa nBits -> exists x, calc_difficulty nBits = Ok x /\
    same x (nearest (65535 * 256 ^ Z.max (29 - size nBits) 0) (mantissa nBits * 256 ^ Z.max (size nBits - 29) 0))).
Proof.
  intros S. unfold calc_difficulty. rewrite land_mantissa, land_size.
  assert (SB : 0 <= size nBits < 256) by (apply Z.mod_pos_bound; lia). assert (MB : mantissa nBits < 2 ^ 24) by (apply Z.mod_pos_bound; lia).
  set (m := mantissa nBits) in *. set (s := size nBits) in *. split; intros M.
  - rewrite M. reflexivity.
  - destruct (m =? 0) eqn:Q; [lia|]. eexists. split; [reflexivity|]. rewrite quotient; [|lia|lia].
    destruct (quotient_exponent m ltac:(lia)) as [L B]. pose proof (mant_bounds 65535 m ltac:(lia) ltac:(lia) B) as MM.
    assert (N : nearest 65535 m = Double (mant (nearest 65535 m)) (exponent 65535 m)).
    { unfold nearest. destruct (scale 65535 m (exponent 65535 m)). reflexivity. }
    rewrite !pow256 by lia. destruct (Z.le_gt_cases s 29) as [C|C].
    + replace (Z.to_nat (s - 29)) with O by lia. cbn [over_256]. replace (Z.max (s - 29) 0) with 0 by lia. change (2 ^ (8 * 0)) with 1. rewrite Z.mul_1_r.
      rewrite nearest_up by (try assumption; lia). replace (8 * Z.max (29 - s) 0) with (8 * Z.of_nat (Z.to_nat (29 - s))) by lia.
      apply times_256_same; [exact MM|lia|]. rewrite N at 1. apply same_refl.
    + replace (Z.to_nat (29 - s)) with O by lia. cbn [times_256]. replace (Z.max (29 - s) 0) with 0 by lia. change (2 ^ (8 * 0)) with 1. rewrite Z.mul_1_r.
      rewrite nearest_down by (try assumption; lia). replace (8 * Z.max (s - 29) 0) with (8 * Z.of_nat (Z.to_nat (s - 29))) by lia.
      apply over_256_same; [exact MM|lia|]. rewrite N at 1. apply same_refl.
Qed.

(** ** In terms of targets *)

Lemma target_of nBits t : uint256_from_compact nBits = Ok t -> 3 <= size nBits /\ t = mantissa nBits * 256 ^ (size nBits - 3).
Proof.
  unfold uint256_from_compact. rewrite land_mantissa, land_size. destruct (_ <? 0) eqn:E; [discriminate|]. intros H. assert (S : 3 <= size nBits) by lia.
  assert (t = Z.shiftl (mantissa nBits) (8 * (size nBits - 3))) as -> by congruence. split; [exact S|]. rewrite Z.shiftl_mul_pow2 by lia. rewrite pow256 by lia. reflexivity.
Qed.

Lemma difficulty_target nBits t : uint256_from_compact nBits = Ok t ->
  (t = 0 -> calc_difficulty nBits = Err ZeroDivisionError) /\
  (0 < t < 2 ^ 256 -> exists x, calc_difficulty nBits = Ok x /\ same x (nearest unit_target t)).
Proof.
  intros T. apply target_of in T. destruct T as [S ->]. assert (MB : 0 <= mantissa nBits < 2 ^ 24) by (apply Z.mod_pos_bound; lia).
  assert (P : 0 < 256 ^ (size nBits - 3)) by (apply Z.pow_pos_nonneg; lia). split.
  - intros Q. assert (M : mantissa nBits = 0) by nia. unfold calc_difficulty. rewrite land_mantissa, M. reflexivity.
  - intros [H U]. assert (M : 0 < mantissa nBits) by nia.
    assert (S' : size nBits <= 34).
    { destruct (Z.le_gt_cases (size nBits) 34) as [L|L]; [exact L|]. exfalso. assert (256 ^ 32 <= 256 ^ (size nBits - 3)) by (apply Z.pow_le_mono_r; lia).
      change (256 ^ 32) with (2 ^ 256) in *. nia. }
    destruct (difficulty_exact nBits ltac:(lia)) as [_ D]. destruct (D M) as (x & X & Y). exists x. split; [exact X|].
    enough (nearest unit_target (mantissa nBits * 256 ^ (size nBits - 3)) = nearest (65535 * 256 ^ Z.max (29 - size nBits) 0) (mantissa nBits * 256 ^ Z.max (size nBits - 29) 0)) as -> by exact Y.
    assert (A1 : 0 < 256 ^ Z.max (29 - size nBits) 0) by (apply Z.pow_pos_nonneg; lia). assert (A2 : 0 < 256 ^ Z.max (size nBits - 29) 0) by (apply Z.pow_pos_nonneg; lia).
    unfold unit_target. change 0xffff with 65535. destruct (Z.le_gt_cases (size nBits) 29) as [C|C].
    + rewrite <- (nearest_common (256 ^ (size nBits - 3)) (65535 * 256 ^ Z.max (29 - size nBits) 0)) by (try apply Z.mul_pos_pos; lia). f_equal.
      * replace (Z.max (29 - size nBits) 0) with (29 - size nBits) by lia. assert (256 ^ 26 = 256 ^ (29 - size nBits) * 256 ^ (size nBits - 3)) as -> by (rewrite <- Z.pow_add_r by lia; f_equal; lia). ring.
      * replace (Z.max (size nBits - 29) 0) with 0 by lia. change (256 ^ 0) with 1. ring.
    + rewrite <- (nearest_common (256 ^ 26) (65535 * 256 ^ Z.max (29 - size nBits) 0)) by (try apply Z.mul_pos_pos; lia). f_equal.
      * replace (Z.max (29 - size nBits) 0) with 0 by lia. change (256 ^ 0) with 1. ring.
      * replace (Z.max (size nBits - 29) 0) with (size nBits - 29) by lia. assert (256 ^ (size nBits - 3) = 256 ^ (size nBits - 29) * 256 ^ 26) as -> by (rewrite <- Z.pow_add_r by lia; f_equal; lia). ring.
Qed.

(** ** Rounding keeps order *)

Lemma half_even_mono a b a' b' : 0 < b -> 0 < b' -> a * b' <= a' * b -> half_even a b <= half_even a' b'.
Proof.
  assert (H : forall x y c, 0 < c -> x <= y -> half_even x c <= half_even y c).
  { intros x y c C L. pose proof (half_even_close x c C). pose proof (half_even_close y c C).
    destruct (Z.le_gt_cases (half_even x c) (half_even y c)) as [Q|Q]; [exact Q|]. exfalso.
    assert (E : half_even x c = half_even y c + 1 /\ x = y) by nia. destruct E as [E ->]. lia. }
  intros B B' L. rewrite <- (half_even_scale b' a b), <- (half_even_scale b a' b') by assumption. replace (b' * b) with (b * b') by ring. apply H; nia.
Qed.

Lemma at_most_shift M e M' e' k : 0 <= k -> 0 <= k + e -> 0 <= k + e' -> M * 2 ^ (k + e) <= M' * 2 ^ (k + e') -> at_most (Double M e) (Double M' e').
Proof.
  intros K E E' H. apply at_most_alt. pose proof (ratio_shift M e k K E) as R. pose proof (ratio_shift M' e' k K E') as R'.
  pose proof (ratio_pos (Double M e)). pose proof (ratio_pos (Double M' e')). pose proof (pow2_pos k K).
  apply (Z.mul_le_mono_pos_r _ _ (2 ^ k)); [lia|].
  replace (fst (ratio (Double M e)) * snd (ratio (Double M' e')) * 2 ^ k) with (fst (ratio (Double M e)) * 2 ^ k * snd (ratio (Double M' e'))) by ring. rewrite R.
  replace (fst (ratio (Double M' e')) * snd (ratio (Double M e)) * 2 ^ k) with (fst (ratio (Double M' e')) * 2 ^ k * snd (ratio (Double M e))) by ring. rewrite R'.
  set (u := M * 2 ^ (k + e)) in *. set (v := M' * 2 ^ (k + e')) in *. clearbody u v.
  rewrite <- !Z.mul_assoc. rewrite (Z.mul_comm (snd (ratio (Double M' e')))). apply Z.mul_le_mono_nonneg_r; [nia|exact H].
Qed.

Lemma below_le n d n' d' x e : 0 < d -> 0 < d' -> 0 < x -> n * d' <= n' * d -> below n' d' x e -> below n d x e.
Proof.
  intros D D' X L. rewrite (below_shift n' d' x e (Z.abs e)) by lia. rewrite (below_shift n d x e (Z.abs e)) by lia.
  pose proof (pow2_pos (Z.abs e) ltac:(lia)) as PA. pose proof (pow2_pos (Z.abs e + e) ltac:(lia)) as PB.
  set (A := 2 ^ Z.abs e) in *. set (B := 2 ^ (Z.abs e + e)) in *. clearbody A B. intros H.
  apply (Z.mul_lt_mono_pos_r d'); [exact D'|]. apply Z.le_lt_trans with (n' * d * A); [nia|].
  apply (Z.mul_lt_mono_pos_r d) in H; [|exact D]. nia.
Qed.

Lemma nearest_mono n d n' d' : 0 < n -> 0 < d -> 0 < n' -> 0 < d' -> n * d' <= n' * d -> at_most (nearest n d) (nearest n' d').
Proof.
  intros N D N' D' L. pose proof (exponent_fits n d N D) as F. pose proof (exponent_fits n' d' N' D') as F'. set (e := exponent n d) in *. set (e' := exponent n' d') in *.
  set (k := Z.abs e + Z.abs e'). rewrite (nearest_shift n d e k) by (try assumption; unfold k; lia). rewrite (nearest_shift n' d' e' k) by (try assumption; unfold k; lia).
  pose proof (pow2_pos k ltac:(unfold k; lia)) as PK. pose proof (pow2_pos (k + e) ltac:(unfold k; lia)) as PE. pose proof (pow2_pos (k + e') ltac:(unfold k; lia)) as PE'.
  apply (at_most_shift _ _ _ _ k); [unfold k; lia|unfold k; lia|unfold k; lia|].
  destruct (Z.lt_trichotomy e e') as [C|[C|C]].
  - (* the smaller is at most 2^53 * 2^e, the larger at least 2^52 * 2^e' *)
    destruct F as (A & B & _). destruct F' as (A' & B' & [Q|G']); [lia|].
    rewrite (below_shift n d _ e k) in B by (unfold k; lia). rewrite (below_shift n' d' _ e' k) in G' by (unfold k; lia).
    assert (U : half_even (n * 2 ^ k) (d * 2 ^ (k + e)) <= 2 ^ 53).
    { rewrite <- (half_even_exact (2 ^ 53) 1) by lia. apply half_even_mono; [nia|lia|]. nia. }
    assert (V : 2 ^ 52 <= half_even (n' * 2 ^ k) (d' * 2 ^ (k + e'))).
    { rewrite <- (half_even_exact (2 ^ 52) 1) by lia. apply half_even_mono; [lia|nia|]. nia. }
    apply Z.le_trans with (2 ^ 53 * 2 ^ (k + e)); [apply Z.mul_le_mono_nonneg_r; lia|].
    apply Z.le_trans with (2 ^ 52 * 2 ^ (k + e')); [|apply Z.mul_le_mono_nonneg_r; lia].
    change (2 ^ 53) with (2 ^ 52 * 2). rewrite <- Z.mul_assoc. apply Z.mul_le_mono_nonneg_l; [lia|].
    change 2 with (2 ^ 1) at 1. rewrite <- Z.pow_add_r by (unfold k; lia). apply Z.pow_le_mono_r; lia.
  - rewrite <- C in *. apply Z.mul_le_mono_nonneg_r; [lia|]. apply half_even_mono; [nia|nia|].
    replace (n * 2 ^ k * (d' * 2 ^ (k + e))) with (n * d' * (2 ^ k * 2 ^ (k + e))) by ring. replace (n' * 2 ^ k * (d * 2 ^ (k + e))) with (n' * d * (2 ^ k * 2 ^ (k + e))) by ring.
    apply Z.mul_le_mono_nonneg_r; [nia|exact L].
  - exfalso. destruct F as (A & B & [Q|G]); [destruct F'; lia|]. destruct F' as (A' & B' & _). apply G. apply (below_mono n d (2 ^ 52) (e' + 1) e); [exact D|lia|lia|].
    apply (proj1 (below_double n d (2 ^ 52) e' D)). apply (below_le n d n' d'); try assumption. lia.
Qed.

Lemma at_most_same x y x' y' : same x x' -> same y y' -> at_most x y -> at_most x' y'.
Proof.
  rewrite !same_alt, !at_most_alt. pose proof (ratio_pos x). pose proof (ratio_pos y). pose proof (ratio_pos x'). pose proof (ratio_pos y').
  destruct (ratio x) as [a b], (ratio y) as [c d], (ratio x') as [a' b'], (ratio y') as [c' d']. cbn [fst snd] in *. intros E F L.
  apply (Z.mul_le_mono_pos_r _ _ (b * d)); [nia|]. replace (a' * d' * (b * d)) with (a' * b * d' * d) by ring. rewrite <- E.
  replace (c' * b' * (b * d)) with (c' * d * b' * b) by ring. rewrite <- F. replace (a * b' * d' * d) with (a * d * (b' * d')) by ring.
  replace (c * d' * b' * b) with (c * b * (b' * d')) by ring. apply Z.mul_le_mono_nonneg_r; nia.
Qed.

Lemma difficulty_order nBits nBits' t t' x x' : uint256_from_compact nBits = Ok t -> uint256_from_compact nBits' = Ok t' -> 0 < t -> t <= t' -> t' < 2 ^ 256 ->
  calc_difficulty nBits = Ok x -> calc_difficulty nBits' = Ok x' -> at_most x' x.
Proof.
  intros T T' P L U X X'. destruct (difficulty_target _ _ T) as [_ D]. destruct (difficulty_target _ _ T') as [_ D'].
  destruct (D ltac:(lia)) as (y & Y & S). destruct (D' ltac:(lia)) as (y' & Y' & S'). assert (y = x) as -> by congruence. assert (y' = x') as -> by congruence.
  eapply at_most_same; [apply same_sym, S'|apply same_sym, S|]. apply nearest_mono; [reflexivity|lia|reflexivity|lia|].
  apply Z.mul_le_mono_nonneg_l; [unfold unit_target; lia|exact L].
Qed.
