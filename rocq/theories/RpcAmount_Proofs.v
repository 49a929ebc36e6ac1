(** Proofs about Rpc_Model.v: amounts as Decimals and floats. *)
From Verif Require Import Base Block_Model Rpc_Model Rpc_Spec.
From Coq Require Import ZifyBool ZifyNat ZifyN.
#[local] Open Scope Z_scope.

(** ** Decimals *)

Lemma ndigits_spec f : forall n, (0 < n)%N -> (n < 2 ^ N.of_nat f)%N ->
  10 ^ (Z.of_nat (ndigits f n) - 1) <= Z.of_N n < 10 ^ Z.of_nat (ndigits f n).
Proof.
  induction f as [|f IH]; intros n P B; [cbn in B; lia|]. cbn [ndigits].
  destruct (n <? 10)%N eqn:E; [change (Z.of_nat 1 - 1) with 0; change (Z.of_nat 1) with 1; change (10 ^ 0) with 1; change (10 ^ 1) with 10; lia|].
  assert (10 <= n)%N by lia. pose proof (N.div_mod n 10 ltac:(lia)) as D. pose proof (N.mod_lt n 10 ltac:(lia)).
  destruct (IH (n / 10)%N) as [L U].
  - apply N.div_str_pos. lia.
  - apply N.div_lt_upper_bound; [lia|]. replace (N.of_nat (S f)) with (N.succ (N.of_nat f)) in B by lia. rewrite N.pow_succ_r' in B. lia.
  - set (k := ndigits f (n / 10)) in *. assert (1 <= Z.of_nat k) by (destruct k; [|lia]; change (10 ^ Z.of_nat 0) with 1 in U; change (10 ^ (Z.of_nat 0 - 1)) with 0 in L; assert (1 <= n / 10)%N by (apply N.div_le_lower_bound; lia); lia).
    replace (Z.of_nat (S k) - 1) with (Z.succ (Z.of_nat k - 1)) by lia. replace (Z.of_nat (S k)) with (Z.succ (Z.of_nat k)) by lia.
    rewrite !Z.pow_succ_r by lia. lia.
Qed.
Lemma length10_spec a : 0 < a -> 10 ^ (Z.of_nat (length10 (Z.to_N a)) - 1) <= a < 10 ^ Z.of_nat (length10 (Z.to_N a)).
Proof.
  intros P. unfold length10. pose proof (ndigits_spec (S (N.size_nat (Z.to_N a))) (Z.to_N a)) as H. rewrite Z2N.id in H by lia. apply H; [lia|].
  assert (Z.to_N a < 2 ^ N.of_nat (N.size_nat (Z.to_N a)))%N.
  { pose proof (N.size_gt (Z.to_N a)). destruct (Z.to_N a) as [|p]; [lia|]. cbn [N.size N.size_nat] in *.
    replace (N.of_nat (Pos.size_nat p)) with (N.pos (Pos.size p)); [assumption|]. clear. induction p; cbn [Pos.size Pos.size_nat]; lia. }
  replace (N.of_nat (S (N.size_nat (Z.to_N a)))) with (N.succ (N.of_nat (N.size_nat (Z.to_N a)))) by lia. rewrite N.pow_succ_r'. lia.
Qed.
Lemma length10_pos n : 1 <= Z.of_nat (length10 n).
Proof. unfold length10. cbn [ndigits]. destruct (n <? 10)%N; lia. Qed.

Lemma pow10_lt a b : 10 ^ a < 10 ^ b -> 0 <= b -> a < b.
Proof. intros H B. destruct (Z_lt_ge_dec a b) as [|G]; [assumption|]. assert (10 ^ b <= 10 ^ a) by (apply Z.pow_le_mono_r; lia). lia. Qed.

(** A decimal with the value [v] in base units, before and after rounding. *)
Definition worth (c e v : Z) : Prop := (0 <= e /\ v = c * 10 ^ e) \/ (e < 0 /\ c = v * 10 ^ (- e)).

Lemma worth_int c e v : worth c e v -> dec_int (Dec c e) = v.
Proof.
  unfold worth, dec_int. cbn [d_coef d_exp]. intros [[E ->]|[E ->]].
  - assert (0 <=? e = true) as -> by lia. reflexivity.
  - assert (0 <=? e = false) as -> by lia. apply Z.quot_mul. assert (0 < 10 ^ (- e)) by (apply Z.pow_pos_nonneg; lia). lia.
Qed.
Lemma worth_size c e v : worth c e v -> v <> 0 -> Z.abs v < 10 ^ 28 -> e + Z.of_nat (length10 (Z.to_N (Z.abs c))) - 1 < 28.
Proof.
  intros W N B. pose proof (length10_pos (Z.to_N (Z.abs c))).
  destruct W as [[E V]|[E V]].
  - assert (c <> 0) by (intros ->; lia). pose proof (length10_spec (Z.abs c) ltac:(lia)) as [L _]. set (l := Z.of_nat (length10 (Z.to_N (Z.abs c)))) in *.
    enough (e + (l - 1) < 28) by lia. apply pow10_lt; [|lia]. rewrite Z.pow_add_r by lia. rewrite V, Z.abs_mul in B. assert (0 < 10 ^ e) by (apply Z.pow_pos_nonneg; lia).
    rewrite (Z.abs_eq (10 ^ e)) in B by lia. nia.
  - assert (0 < 10 ^ (- e)) by (apply Z.pow_pos_nonneg; lia). assert (Z.abs c = Z.abs v * 10 ^ (- e)) as C by (rewrite V, Z.abs_mul; lia).
    pose proof (length10_spec (Z.abs c) ltac:(nia)) as [L _]. set (l := Z.of_nat (length10 (Z.to_N (Z.abs c)))) in *.
    enough (l - 1 < 28 + - e) by lia. apply pow10_lt; [|lia]. rewrite Z.pow_add_r by lia. nia.
Qed.
Lemma dec_fix_worth c e v : worth c e v -> Z.abs v < 10 ^ 28 -> exists c' e', dec_fix (Dec c e) = Dec c' e' /\ worth c' e' v.
Proof.
  intros W B. destruct (Z.eq_dec v 0) as [->|N].
  - assert (c = 0) as ->. { destruct W as [[E V]|[E V]]; [|lia]. assert (0 < 10 ^ e) by (apply Z.pow_pos_nonneg; lia). nia. }
    exists 0, e. split; [reflexivity|exact W].
  - pose proof (worth_size c e v W N B) as S. unfold dec_fix. cbn [d_coef d_exp]. set (l := Z.of_nat (length10 (Z.to_N (Z.abs c)))) in *.
    destruct (l - 28 <=? 0) eqn:K; [eauto|]. set (k := l - 28) in *. assert (0 < k) by lia.
    destruct W as [[E V]|[E V]]; [lia|]. assert (k <= - e) by lia.
    assert (0 < 10 ^ k) by (apply Z.pow_pos_nonneg; lia). assert (0 < 10 ^ (- e - k)) by (apply Z.pow_pos_nonneg; lia).
    assert (Z.abs c = Z.abs v * 10 ^ (- e - k) * 10 ^ k) as C.
    { rewrite V, Z.abs_mul, <- Z.mul_assoc, <- Z.pow_add_r by lia. replace (- e - k + k) with (- e) by lia. rewrite (Z.abs_eq (10 ^ (- e))); [reflexivity|]. apply Z.lt_le_incl, Z.pow_pos_nonneg; lia. }
    rewrite C, Z.div_mul, Z.mod_mul by lia.
    assert ((10 ^ k <? 2 * 0) || ((2 * 0 =? 10 ^ k) && Z.odd (Z.abs v * 10 ^ (- e - k))) = false) as -> by (assert (10 ^ k <? 2 * 0 = false) as -> by lia; assert (2 * 0 =? 10 ^ k = false) as -> by lia; reflexivity).
    exists (v * 10 ^ (- e - k)), (e + k). split.
    + f_equal. rewrite V, Z.sgn_mul, (Z.sgn_pos (10 ^ (- e))) by (apply Z.pow_pos_nonneg; lia). rewrite Z.mul_1_r, Z.mul_assoc, (Z.mul_comm (Z.sgn v)), Z.abs_sgn. reflexivity.
    + destruct (Z.eq_dec (e + k) 0) as [Z0|NZ]; [left|right].
      * split; [lia|]. rewrite Z0. replace (- e - k) with 0 by lia. rewrite Z.pow_0_r. lia.
      * split; [lia|]. f_equal. f_equal. lia.
Qed.

Lemma amount_coins j v : coins j v -> Z.abs v < 10 ^ 28 -> amount j = Ok v.
Proof.
  destruct j as [| |z|[c e]| | | |]; try (intros []; fail).
  - cbn [coins amount]. intros -> _. unfold COIN. reflexivity.
  - cbn [coins amount]. intros C B.
    assert (worth (c * COIN) e v) as W.
    { unfold worth. change COIN with (10 ^ 8). destruct C as [[E ->]|[E ->]].
      - destruct (Z_lt_ge_dec e 0) as [G|G]; [right|left]; (split; [lia|]).
        + rewrite <- Z.mul_assoc, <- Z.pow_add_r by lia. f_equal. f_equal. lia.
        + rewrite Z.pow_add_r by lia. ring.
      - right. split; [lia|]. rewrite <- Z.mul_assoc, <- Z.pow_add_r by lia. f_equal. f_equal. lia. }
    unfold dec_times. cbn [d_coef d_exp]. destruct (dec_fix_worth _ _ _ W B) as (c' & e' & -> & W'). cbn [d_coef d_exp].
    assert (negb (c' =? 0) && (999999 <? e' + Z.of_nat (length10 (Z.to_N (Z.abs c'))) - 1) = false) as ->.
    { destruct (c' =? 0) eqn:Z0; [reflexivity|]. cbn [negb andb]. assert (v <> 0).
      { intros ->. destruct W' as [[E V]|[E V]]; [|lia]. assert (0 < 10 ^ e') by (apply Z.pow_pos_nonneg; lia). nia. }
      pose proof (worth_size _ _ _ W' H B). lia. }
    cbn [bind]. rewrite (worth_int _ _ _ W'). reflexivity.
Qed.

(** ** Floats *)

(** The quotient is between 2^52 and 2^53 when scaled, and rounded to nearest. *)
Lemma round_near n d e : 0 <= n -> 0 < d ->
  let q := round_to n d e in
  if 0 <=? e then 2 * Z.abs (n - q * 2 ^ e * d) <= 2 ^ e * d else 2 * Z.abs (n * 2 ^ (- e) - q * d) <= d.
Proof.
  intros N D. unfold round_to. destruct (0 <=? e) eqn:E; cbv zeta.
  - assert (0 < 2 ^ e) by (apply Z.pow_pos_nonneg; lia). set (D' := d * 2 ^ e). assert (0 < D') by nia.
    pose proof (Z.div_mod n D' ltac:(lia)) as M. pose proof (Z.mod_pos_bound n D' ltac:(lia)) as R.
    replace (2 ^ e * d) with D' by (unfold D'; ring).
    destruct ((D' <? 2 * (n mod D')) || ((2 * (n mod D') =? D') && Z.odd (n / D'))) eqn:T.
    + assert (D' <= 2 * (n mod D')) by lia. replace ((n / D' + 1) * 2 ^ e * d) with ((n / D' + 1) * D') by (unfold D'; ring). lia.
    + assert (2 * (n mod D') <= D') by lia. replace (n / D' * 2 ^ e * d) with (n / D' * D') by (unfold D'; ring). lia.
  - set (N' := n * 2 ^ (- e)).
    pose proof (Z.div_mod N' d ltac:(lia)) as M. pose proof (Z.mod_pos_bound N' d ltac:(lia)) as R.
    destruct ((d <? 2 * (N' mod d)) || ((2 * (N' mod d) =? d) && Z.odd (N' / d))) eqn:T.
    + assert (d <= 2 * (N' mod d)) by lia. lia.
    + assert (2 * (N' mod d) <= d) by lia. lia.
Qed.
Lemma round_exact n e : e <= 0 -> 0 <= n -> round_to n 1 e = n * 2 ^ (- e).
Proof.
  intros E N. unfold round_to. destruct (0 <=? e) eqn:F.
  - assert (e = 0) as -> by lia. cbn [Z.opp]. rewrite Z.pow_0_r. cbv zeta. replace (1 * 1) with 1 by lia. rewrite Z.div_1_r, Z.mod_1_r. cbn. lia.
  - cbv zeta. rewrite Z.div_1_r, Z.mod_1_r. cbn. reflexivity.
Qed.
(** Enough of the exponent: from above. *)
Lemma fround_exp n d k : 0 < n -> 0 < d -> n * 2 ^ k < d -> 0 <= k -> f_exp (fround n d) <= - k - 53.
Proof.
  intros N D B K. unfold fround. assert (n =? 0 = false) as -> by lia. cbn [f_exp].
  set (e0 := Z.log2 n - Z.log2 d - 53).
  assert (e0 <= - k - 53) as E0.
  { enough (k + Z.log2 n <= Z.log2 d) by lia. rewrite <- Z.log2_mul_pow2 by lia. apply Z.log2_le_mono. lia. }
  destruct (0 <=? e0) eqn:E; [lia|].
  destruct (d * 2 ^ 53 <=? n * 2 ^ (- e0)) eqn:F; [|lia].
  destruct (Z.eq_dec e0 (- k - 53)) as [->|]; [|lia]. replace (- (- k - 53)) with (k + 53) in F by lia. rewrite Z.pow_add_r in F by lia.
  assert (0 < 2 ^ 53) by lia. nia.
Qed.
Lemma fround_near n d : 0 < n -> 0 < d -> reads_as n d (fround n d) /\ 0 < f_man (fround n d).
Proof.
  intros N D. unfold fround. assert (n =? 0 = false) as -> by lia. set (e0 := Z.log2 n - Z.log2 d - 53).
  set (e := if (if 0 <=? e0 then d * 2 ^ e0 * 2 ^ 53 <=? n else d * 2 ^ 53 <=? n * 2 ^ (- e0)) then e0 + 1 else e0).
  pose proof (round_near n d e ltac:(lia) D) as R. cbv zeta in R.
  assert (0 < round_to n d e) as P.
  { destruct (Z.log2_spec n N) as [Ln Un]. destruct (Z.log2_spec d D) as [Ld Ud]. pose proof (Z.log2_nonneg n). pose proof (Z.log2_nonneg d).
    assert (e <= e0 + 1) by (unfold e; destruct (0 <=? e0); destruct (_ <=? _); lia).
    (* n / (d 2^e) >= 1 already, so at least one after rounding *)
    unfold round_to. destruct (0 <=? e) eqn:E; cbv zeta.
    - assert (1 <= n / (d * 2 ^ e)).
      { apply Z.div_le_lower_bound; [assert (0 < 2 ^ e) by (apply Z.pow_pos_nonneg; lia); nia|].
        assert (2 ^ (Z.succ (Z.log2 d) + e) <= 2 ^ Z.log2 n) by (apply Z.pow_le_mono_r; lia). rewrite Z.pow_add_r in H2 by lia.
        assert (0 < 2 ^ e) by (apply Z.pow_pos_nonneg; lia). nia. }
      destruct (_ || _); lia.
    - assert (1 <= n * 2 ^ (- e) / d).
      { apply Z.div_le_lower_bound; [lia|]. assert (2 ^ (Z.succ (Z.log2 d)) <= 2 ^ (Z.log2 n + - e)) by (apply Z.pow_le_mono_r; lia).
        rewrite Z.pow_add_r in H2 by lia. assert (0 < 2 ^ (- e)) by (apply Z.pow_pos_nonneg; lia). nia. }
      destruct (_ || _); lia. }
  split; [|exact P]. unfold reads_as. cbn [f_man f_exp]. assert (round_to n d e =? 0 = false) as -> by lia. exact R.
Qed.

Lemma float_amount_exact a : 0 <= a < 2 ^ 53 -> exists m e, float_amount a = Ok (fround m (COIN * 2 ^ e)) /\ m = a * 2 ^ e /\ 0 <= e.
Proof.
  intros B. unfold float_amount. rewrite Z.abs_eq by lia.
  assert (2 ^ 1024 <=? a = false) as -> by (assert (2 ^ 53 <= 2 ^ 1024) by (apply Z.pow_le_mono_r; lia); lia).
  destruct (Z.eq_dec a 0) as [->|NZ]; [exists 0, 0; split; [reflexivity|lia]|].
  pose proof (fround_near a 1 ltac:(lia) ltac:(lia)) as [_ P].
  pose proof (fround_exp a (2 ^ 53) 0) as X.
  assert (f_exp (fround a 1) <= 0) as E.
  { unfold fround. assert (a =? 0 = false) as -> by lia. cbn [f_exp]. change (Z.log2 1) with 0. rewrite Z.sub_0_r. assert (Z.log2 a < 53) by (apply Z.log2_lt_pow2; lia).
    destruct (0 <=? _); destruct (_ <=? _); lia. }
  assert (f_man (fround a 1) = a * 2 ^ (- f_exp (fround a 1))) as M.
  { revert E. unfold fround. assert (a =? 0 = false) as -> by lia. cbn [f_man f_exp]. intros E. apply round_exact; lia. }
  set (f := fround a 1) in *. exists (f_man f), (- f_exp f). split; [|split; [exact M|lia]].
  rewrite Z.sgn_pos by lia.
  destruct (0 <=? f_exp f) eqn:F.
  - assert (f_exp f = 0) as F0 by lia. rewrite F0. change (2 ^ 0) with 1. change (2 ^ (- 0)) with 1. rewrite !Z.mul_1_r. destruct (fround (f_man f) COIN) as [m1 e1]; cbn [f_man f_exp]. rewrite Z.mul_1_l. reflexivity.
  - destruct (fround (f_man f) (COIN * 2 ^ (- f_exp f))) as [m1 e1]; cbn [f_man f_exp]. rewrite Z.mul_1_l. reflexivity.
Qed.

Lemma float_amount_reads a : 0 <= a <= MAX_MONEY -> exists f, float_amount a = Ok f /\
  forall n d, 0 < d -> reads_as n d f -> 2 * Z.abs (n * 10 ^ 8 - a * d) < d.
Proof.
  intros B. assert (MAX_MONEY < 2 ^ 53) as MM by reflexivity. destruct (float_amount_exact a ltac:(lia)) as (m & e & -> & M & E). eexists. split; [reflexivity|].
  intros n d D R. destruct (Z.eq_dec a 0) as [->|NZ].
  - assert (m = 0) as -> by lia. unfold reads_as, fround in R. cbn in R. lia.
  - assert (0 < 2 ^ e) as PE by (apply Z.pow_pos_nonneg; lia). assert (0 < m) as PM by nia. assert (0 < COIN * 2 ^ e) as PC by (unfold COIN; lia).
    destruct (fround_near m (COIN * 2 ^ e) PM PC) as [Q P].
    assert (f_exp (fround m (COIN * 2 ^ e)) <= - 28) as X.
    { (* a / COIN < 2^25 *)
      pose proof (fround_exp m (COIN * 2 ^ e * 2 ^ 25) 0 PM ltac:(lia)) as F.
      assert (f_exp (fround m (COIN * 2 ^ e * 2 ^ 25)) <= - 0 - 53). { apply F; [|lia]. rewrite Z.mul_1_r, M. unfold MAX_MONEY, COIN in *. nia. }
      assert (Z.log2 (COIN * 2 ^ e * 2 ^ 25) = Z.log2 (COIN * 2 ^ e) + 25) as L by (rewrite Z.log2_mul_pow2 by lia; lia).
      unfold fround in *. assert (m =? 0 = false) as Z0 by lia. rewrite Z0 in *. cbn [f_exp] in *. rewrite L in H.
      set (l := Z.log2 m - Z.log2 (COIN * 2 ^ e) - 53) in *. replace (Z.log2 m - (Z.log2 (COIN * 2 ^ e) + 25) - 53) with (l - 25) in H by lia.
      destruct (0 <=? l - 25) eqn:L1; [destruct (COIN * 2 ^ e * 2 ^ 25 * 2 ^ (l - 25) * 2 ^ 53 <=? m); lia|].
      destruct (0 <=? l) eqn:L2.
      { exfalso. destruct (COIN * 2 ^ e * 2 ^ 25 * 2 ^ 53 <=? m * 2 ^ (- (l - 25))); lia. }
      replace (- (l - 25)) with (25 + - l) in H by lia. rewrite Z.pow_add_r in H by lia.
      destruct (COIN * 2 ^ e * 2 ^ 53 <=? m * 2 ^ (- l)) eqn:T1; destruct (COIN * 2 ^ e * 2 ^ 25 * 2 ^ 53 <=? m * (2 ^ 25 * 2 ^ (- l))) eqn:T2; try lia. }
    set (f := fround m (COIN * 2 ^ e)) in *. unfold reads_as in Q, R. assert (f_man f =? 0 = false) as Z0 by lia. rewrite Z0 in *.
    assert (0 <=? f_exp f = false) as Z1 by lia. rewrite Z1 in *.
    set (E2 := - f_exp f) in *. assert (2 ^ 28 <= 2 ^ E2) as B2 by (apply Z.pow_le_mono_r; lia). set (T := 2 ^ E2) in *.
    (* from Q: 2 |a T - f COIN| <= COIN *)
    assert (2 * Z.abs (a * T - f_man f * COIN) <= COIN) as Q'.
    { rewrite M in Q. replace (a * 2 ^ e * T - f_man f * (COIN * 2 ^ e)) with ((a * T - f_man f * COIN) * 2 ^ e) in Q by ring.
      rewrite Z.abs_mul, (Z.abs_eq (2 ^ e)) in Q by lia. nia. }
    change (10 ^ 8) with COIN. unfold COIN in *. clearbody T. clear - D R Q' B2. change (2 ^ 28) with 268435456 in B2.
    assert (Z.abs ((n * 100000000 - a * d) * T) <= 100000000 * d) as H.
    { replace ((n * 100000000 - a * d) * T) with ((n * T - f_man f * d) * 100000000 - (a * T - f_man f * 100000000) * d) by ring.
      set (u := n * T - f_man f * d) in *. set (v := a * T - f_man f * 100000000) in *. clearbody u v.
      assert (Z.abs (u * 100000000) = Z.abs u * 100000000) by (rewrite Z.abs_mul; reflexivity).
      assert (Z.abs (v * d) = Z.abs v * d) by (rewrite Z.abs_mul, (Z.abs_eq d); lia).
      assert (Z.abs v * d * 2 <= 100000000 * d) by nia. lia. }
    rewrite Z.abs_mul, (Z.abs_eq T) in H by lia. set (w := Z.abs (n * 100000000 - a * d)) in *. assert (0 <= w) by lia. nia.
Qed.
