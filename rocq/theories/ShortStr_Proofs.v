From Verif Require Import Base Base58_Model Tx_Model Block_Model Hex_Model Repr_Model ShortStr_Model ShortStr_Spec.
From Coq Require Import ZifyBool ZifyNat ZifyN.
Local Open Scope N_scope.

Fixpoint digs (k : nat) (n : N) : text := match k with O => [] | S k => digs k (n / 16) ++ [hexdigit (n mod 16)] end.
Lemma digs_length k : forall n, List.length (digs k n) = k.
Proof. induction k as [|k IH]; intros n; cbn [digs]; [reflexivity|]. rewrite app_length, IH. cbn. lia. Qed.
Lemma digit_nth d : d < 16 -> nth_error (list_ascii_of_string "0123456789abcdef") (N.to_nat d) = Some (hexdigit d).
Proof.
  intros H. assert (S : forall i, In i (seq 0 16) -> nth_error (list_ascii_of_string "0123456789abcdef") i = Some (hexdigit (N.of_nat i))).
  { intros i I. cbn [seq In] in I. repeat (destruct I as [<-|I]; [reflexivity|]). destruct I. }
  rewrite (S (N.to_nat d)), N2Nat.id; [reflexivity|]. apply in_seq. lia.
Qed.
Lemma pow16_S k : 16 ^ N.of_nat (S k) = 16 * 16 ^ N.of_nat k.
Proof. rewrite Nat2N.inj_succ, N.pow_succ_r'. reflexivity. Qed.
Lemma digs_hex k : forall n, n < 16 ^ N.of_nat k -> hex_of (digs k n) n.
Proof.
  induction k as [|k IH]; intros n H; cbn [digs].
  - assert (n = 0) as -> by (cbn in H; lia). constructor.
  - rewrite pow16_S in H. rewrite (N.div_mod n 16) at 3 by lia. constructor; [apply IH, N.div_lt_upper_bound; lia|apply digit_nth, N.mod_lt; lia].
Qed.
Lemma firstn_digs k : forall j n, (j <= k)%nat -> firstn j (digs k n) = digs j (n / 16 ^ N.of_nat (k - j)).
Proof.
  induction k as [|k IH]; intros j n L.
  - assert (j = 0)%nat as -> by lia. reflexivity.
  - destruct (Nat.eq_dec j (S k)) as [->|N].
    + rewrite Nat.sub_diag. change (16 ^ N.of_nat 0) with 1. rewrite N.div_1_r. rewrite <- (digs_length (S k) n) at 1. apply firstn_all.
    + cbn [digs]. rewrite firstn_app, digs_length. replace (j - k)%nat with 0%nat by lia. cbn [firstn]. rewrite app_nil_r, IH by lia. f_equal.
      replace (S k - j)%nat with (S (k - j)) by lia. rewrite pow16_S, N.div_div by lia. reflexivity.
Qed.
Lemma digs_zero k : digs k 0 = repeat "0"%char k.
Proof. induction k as [|k IH]; [reflexivity|]. cbn [digs]. change (0 / 16) with 0. rewrite IH. change [hexdigit (0 mod 16)] with (repeat "0"%char 1). rewrite <- repeat_app. f_equal. lia. Qed.
Lemma padded fuel : forall k n, n < 16 ^ N.of_nat fuel -> n < 16 ^ N.of_nat k -> (0 < k)%nat -> (0 < fuel)%nat ->
  (List.length (hexdigits fuel n) <= k)%nat /\ repeat "0"%char (k - List.length (hexdigits fuel n)) ++ hexdigits fuel n = digs k n.
Proof.
  induction fuel as [|f IH]; intros k n F K Pk Pf; [lia|]. destruct k as [|k]; [lia|]. cbn [hexdigits]. destruct (n <? 16) eqn:E.
  - cbn [List.length]. split; [lia|]. cbn [digs]. rewrite N.div_small, N.mod_small by lia. rewrite digs_zero. do 2 f_equal. lia.
  - rewrite pow16_S in F, K. assert (0 < f /\ 0 < k)%nat as (Lf & Lk).
    { split; [destruct f|destruct k]; try lia; cbn in F, K; lia. }
    destruct (IH k (n / 16)) as (A & B); [apply N.div_lt_upper_bound; lia..|exact Lk|exact Lf|].
    rewrite app_length. cbn [List.length]. split; [lia|]. cbn [digs]. rewrite <- B, app_assoc. do 2 f_equal. f_equal. lia.
Qed.
Lemma exact_digits : forall k fuel n, (0 < k)%nat -> n < 16 ^ N.of_nat fuel -> n < 16 ^ N.of_nat k -> 16 ^ N.of_nat (k - 1) <= n -> hexdigits fuel n = digs k n.
Proof.
  induction k as [|k IH]; intros fuel n P F K L; [lia|]. destruct fuel as [|f].
  - exfalso. cbn in F. assert (16 ^ N.of_nat (S k - 1) <> 0) by (apply N.pow_nonzero; lia). lia.
  - cbn [hexdigits digs]. replace (S k - 1)%nat with k in L by lia. destruct (n <? 16) eqn:E.
    + destruct k as [|k]; [rewrite N.mod_small by lia; reflexivity|]. rewrite pow16_S in L. assert (16 ^ N.of_nat k <> 0) by (apply N.pow_nonzero; lia). lia.
    + rewrite pow16_S in F, K. destruct k as [|k]; [cbn in K; lia|]. f_equal. rewrite pow16_S in L. apply IH; [lia|apply N.div_lt_upper_bound; lia..|].
      replace (S k - 1)%nat with k by lia. apply N.div_le_lower_bound; lia.
Qed.
Lemma fuel_enough n : n < 16 ^ N.of_nat (S (N.to_nat (N.size n))).
Proof.
  eapply N.lt_le_trans; [apply N.size_gt|]. rewrite Nat2N.inj_succ, N2Nat.id.
  transitivity (2 ^ N.succ (N.size n)); [apply N.pow_le_mono_r; lia|apply N.pow_le_mono_l; lia].
Qed.
Lemma hex_of_fun s n : hex_of s n -> forall m, hex_of s m -> n = m.
Proof.
  induction 1 as [|s n c d H IH E]; intros m M.
  - inversion M as [Q|s' n' c' d' H' E' Q]; subst; [reflexivity|]. destruct s'; discriminate.
  - inversion M as [Q|s' n' c' d' H' E' Q]; subst; [destruct s; discriminate|]. apply app_inj_tail in Q. destruct Q as (-> & ->). rewrite (IH _ H').
    assert (N.to_nat d = N.to_nat d'); [|lia]. eapply NoDup_nth_error; [| |exact (eq_trans E (eq_sym E'))].
    + cbn. repeat (constructor; [cbn [In]; intuition discriminate|]). constructor.
    + apply nth_error_Some. congruence.
Qed.

(** ** The short text *)
Lemma short_digs u : (0 <= u < 2 ^ 256)%Z -> uint256_to_shortstr u = digs 16 (Z.to_N (u / 2 ^ 192)).
Proof.
  intros R. unfold uint256_to_shortstr, fmt_064x. destruct (u <? 0)%Z eqn:E; [lia|]. cbn [List.length app]. rewrite Nat.sub_0_r.
  assert (B : Z.abs_N u < 16 ^ N.of_nat 64) by (change (16 ^ N.of_nat 64) with (Z.to_N (2 ^ 256)); lia).
  rewrite (proj2 (padded _ 64 _ (fuel_enough (Z.abs_N u)) B ltac:(lia) ltac:(lia))). rewrite firstn_digs by lia. f_equal.
  change (16 ^ N.of_nat (64 - 16)) with (Z.to_N (2 ^ 192)). replace (Z.abs_N u) with (Z.to_N u) by lia. rewrite <- Z2N.inj_div by lia. reflexivity.
Qed.
Lemma short_first u : (0 <= u < 2 ^ 256)%Z -> List.length (uint256_to_shortstr u) = 16%nat /\ hex_of (uint256_to_shortstr u) (Z.to_N (u / 2 ^ 192)).
Proof.
  intros R. rewrite (short_digs u R). split; [apply digs_length|]. apply digs_hex. change (16 ^ N.of_nat 16) with (Z.to_N (2 ^ 64)).
  assert (u / 2 ^ 192 < 2 ^ 64)%Z by (apply Z.div_lt_upper_bound; [lia|]; change (2 ^ 192 * 2 ^ 64)%Z with (2 ^ 256)%Z; lia). assert (0 <= u / 2 ^ 192)%Z by (apply Z.div_pos; lia). lia.
Qed.
Lemma short_same u v : (0 <= u < 2 ^ 256)%Z -> (0 <= v < 2 ^ 256)%Z -> (uint256_to_shortstr u = uint256_to_shortstr v <-> (u / 2 ^ 192 = v / 2 ^ 192)%Z).
Proof.
  intros Ru Rv. split.
  - intros E. destruct (short_first u Ru) as (_ & H). destruct (short_first v Rv) as (_ & K). rewrite E in H. pose proof (hex_of_fun _ _ H _ K) as Q.
    assert (0 <= u / 2 ^ 192)%Z by (apply Z.div_pos; lia). assert (0 <= v / 2 ^ 192)%Z by (apply Z.div_pos; lia). lia.
  - intros E. rewrite (short_digs u Ru), (short_digs v Rv), E. reflexivity.
Qed.
Lemma pow16_Z j : Z.of_N (16 ^ N.of_nat j) = (16 ^ Z.of_nat j)%Z.
Proof. rewrite N2Z.inj_pow, nat_N_Z. reflexivity. Qed.
Lemma short_large u k : (64 < k)%nat -> (16 ^ Z.of_nat (k - 1) <= u < 16 ^ Z.of_nat k)%Z ->
  List.length (uint256_to_shortstr u) = 16%nat /\ hex_of (uint256_to_shortstr u) (Z.to_N (u / 16 ^ Z.of_nat (k - 16))).
Proof.
  intros K R. assert (0 < 16 ^ Z.of_nat (k - 1))%Z by (apply Z.pow_pos_nonneg; lia). unfold uint256_to_shortstr, fmt_064x. destruct (u <? 0)%Z eqn:E; [lia|]. cbn [List.length app]. rewrite Nat.sub_0_r.
  rewrite <- !pow16_Z in R. rewrite (exact_digits k _ (Z.abs_N u) ltac:(lia) (fuel_enough (Z.abs_N u)) ltac:(lia) ltac:(lia)), digs_length.
  replace (64 - k)%nat with 0%nat by lia. cbn [repeat app]. rewrite firstn_digs by lia. split; [apply digs_length|].
  replace (Z.to_N (u / 16 ^ Z.of_nat (k - 16))) with (Z.abs_N u / 16 ^ N.of_nat (k - 16)).
  - apply digs_hex. apply N.div_lt_upper_bound; [apply N.pow_nonzero; lia|]. rewrite <- N.pow_add_r. replace (N.of_nat (k - 16) + N.of_nat 16) with (N.of_nat k) by lia. lia.
  - rewrite <- pow16_Z. apply N2Z.inj. rewrite N2Z.inj_div, Z2N.id; [f_equal; lia|]. apply Z.div_pos; [lia|]. assert (16 ^ N.of_nat (k - 16) <> 0) by (apply N.pow_nonzero; lia). lia.
Qed.
Lemma short_negative u : (- 16 ^ 63 < u < 0)%Z -> exists s, uint256_to_shortstr u = "-"%char :: s /\ List.length s = 15%nat /\ hex_of s (Z.to_N (- u / 2 ^ 192)).
Proof.
  intros R. exists (digs 15 (Z.to_N (- u / 2 ^ 192))). unfold uint256_to_shortstr, fmt_064x. destruct (u <? 0)%Z eqn:E; [|lia]. change (64 - List.length ["-"%char])%nat with 63%nat. cbn [app]. rewrite firstn_cons.
  assert (B : Z.abs_N u < 16 ^ N.of_nat 63) by (change (16 ^ N.of_nat 63) with (Z.to_N (16 ^ 63)); lia).
  rewrite (proj2 (padded _ 63 _ (fuel_enough (Z.abs_N u)) B ltac:(lia) ltac:(lia))). rewrite firstn_digs by lia.
  replace (Z.abs_N u / 16 ^ N.of_nat (63 - 15)) with (Z.to_N (- u / 2 ^ 192)).
  - split; [reflexivity|]. split; [apply digs_length|]. apply digs_hex. change (16 ^ N.of_nat 15) with (Z.to_N (2 ^ 60)).
    assert (- u / 2 ^ 192 < 2 ^ 60)%Z by (apply Z.div_lt_upper_bound; [lia|]; change (2 ^ 192 * 2 ^ 60)%Z with (16 ^ 63)%Z; lia). assert (0 <= - u / 2 ^ 192)%Z by (apply Z.div_pos; lia). lia.
  - change (16 ^ N.of_nat (63 - 15)) with (Z.to_N (2 ^ 192)). replace (Z.abs_N u) with (Z.to_N (- u)) by lia. rewrite Z2N.inj_div by lia. reflexivity.
Qed.

(** ** Of a hash *)
Lemma to_hex_app a b : list_ascii_of_string (to_hex (a ++ b)) = list_ascii_of_string (to_hex a) ++ list_ascii_of_string (to_hex b).
Proof. induction a as [|x a IH]; [reflexivity|]. cbn [app to_hex list_ascii_of_string]. rewrite IH. reflexivity. Qed.
Lemma b2lx_digs b : list_ascii_of_string (b2lx b) = digs (2 * List.length b) (le_dec b).
Proof.
  unfold b2lx. induction b as [|x b IH]; [reflexivity|]. cbn [rev]. rewrite to_hex_app, IH. cbn [List.length to_hex list_ascii_of_string le_dec]. replace (2 * S (List.length b))%nat with (S (S (2 * List.length b))) by lia.
  cbn [digs]. pose proof (bN_lt x) as B. rewrite <- app_assoc. cbn [app]. rewrite N.div_div by lia. replace ((bN x + 256 * le_dec b) / (16 * 16)) with (le_dec b) by lia.
  replace ((bN x + 256 * le_dec b) / 16 mod 16) with (bN x / 16) by lia. replace ((bN x + 256 * le_dec b) mod 16) with (bN x mod 16) by lia. reflexivity.
Qed.
Lemma le_dec_lt b : le_dec b < 256 ^ N.of_nat (List.length b).
Proof. induction b as [|x b IH]; [cbn; lia|]. cbn [le_dec List.length]. rewrite Nat2N.inj_succ, N.pow_succ_r'. pose proof (bN_lt x). lia. Qed.
Lemma short_b2lx b u : uint256_from_str b = Ok u -> (0 <= u < 2 ^ 256)%Z /\ uint256_to_shortstr u = firstn 16 (list_ascii_of_string (b2lx (firstn 32 b))).
Proof.
  unfold uint256_from_str, blen. destruct (_ <? 32) eqn:E; [discriminate|]. intros H. assert (u = Z.of_N (le_dec (firstn 32 b))) as -> by congruence. clear H. assert (L : List.length (firstn 32 b) = 32%nat) by (rewrite firstn_length; lia).
  pose proof (le_dec_lt (firstn 32 b)) as B. rewrite L in B. change (256 ^ N.of_nat 32) with (Z.to_N (2 ^ 256)) in B.
  assert (R : (0 <= Z.of_N (le_dec (firstn 32 b)) < 2 ^ 256)%Z) by lia. split; [exact R|]. rewrite (short_digs _ R), b2lx_digs, L, firstn_digs by lia. f_equal.
  change (16 ^ N.of_nat (2 * 32 - 16)) with (Z.to_N (2 ^ 192)). rewrite Z2N.inj_div, N2Z.id by lia. reflexivity.
Qed.
Lemma short_worked limit h nBits target u : CheckProofOfWork limit h nBits = Ok tt -> uint256_from_compact nBits = Ok target -> (target < 2 ^ 192)%Z -> uint256_from_str h = Ok u ->
  uint256_to_shortstr u = list_ascii_of_string "0000000000000000".
Proof.
  intros C T L U. destruct (short_b2lx h u U) as (R & _). unfold CheckProofOfWork in C. rewrite T in C. cbn [bind] in C. destruct (negb _); [discriminate|]. rewrite U in C. cbn [bind] in C.
  destruct (target <? u)%Z eqn:E; [discriminate|]. rewrite (short_digs u R), Z.div_small by lia. reflexivity.
Qed.
