From Verif Require Import Base Tx_Model Tx_Spec Block_Model Money_Model Money_Spec.
From Coq Require Import ZifyBool ZifyNat ZifyN.
Ltac Zify.zify_post_hook ::= Z.div_mod_to_equations.
Local Open Scope Z_scope.

(** ** Numbers *)

Lemma number_unique l : forall v w, number l v -> number l w -> v = w.
Proof.
  induction l as [|c l IH] using rev_ind; intros v w V W.
  - inversion V; [|destruct l; discriminate]. inversion W; [reflexivity|destruct l; discriminate].
  - inversion V as [E|l1 c1 v1 d1 N1 D1 E]; [destruct l; discriminate|]. inversion W as [E'|l2 c2 v2 d2 N2 D2 E']; [destruct l; discriminate|].
    apply app_inj_tail in E, E'. destruct E as [-> ->], E' as [-> ->]. rewrite (IH v1 v2) by assumption. congruence.
Qed.

Lemma number_chars l v : number l v -> Forall (fun c => digit_value c <> None) l.
Proof. induction 1; [constructor|]. apply Forall_app. split; [assumption|]. constructor; [congruence|constructor]. Qed.

Lemma number_zeros l v k : number l v -> number (l ++ repeat "0"%char k) (v * 10 ^ Z.of_nat k).
Proof.
  intros H. induction k as [|k IH].
  - cbn [repeat]. rewrite app_nil_r. replace (v * 10 ^ Z.of_nat 0) with v by lia. exact H.
  - replace (repeat "0"%char (S k)) with (repeat "0"%char k ++ ["0"%char]) by (symmetry; apply repeat_cons).
    rewrite app_assoc. replace (v * 10 ^ Z.of_nat (S k)) with (10 * (v * 10 ^ Z.of_nat k) + 0) by (rewrite Nat2Z.inj_succ, Z.pow_succ_r by lia; lia).
    constructor; [exact IH|reflexivity].
Qed.

Lemma number_zeros_inv l v k : number (l ++ repeat "0"%char k) v -> exists w, number l w /\ v = w * 10 ^ Z.of_nat k.
Proof.
  revert v. induction k as [|k IH]; intros v H.
  - cbn [repeat] in H. rewrite app_nil_r in H. exists v. split; [exact H|lia].
  - replace (repeat "0"%char (S k)) with (repeat "0"%char k ++ ["0"%char]) in H by (symmetry; apply repeat_cons). rewrite app_assoc in H.
    inversion H as [E|l1 c1 v1 d1 N1 D1 E]; [destruct (l ++ repeat "0"%char k); discriminate|]. apply app_inj_tail in E. destruct E as [-> ->].
    destruct (IH _ N1) as (w & W & ->). exists w. split; [exact W|]. assert (d1 = 0) as -> by (cbn in D1; congruence).
    rewrite Nat2Z.inj_succ, Z.pow_succ_r by lia. lia.
Qed.

Lemma zeros_number k l v : number l v -> number (repeat "0"%char k ++ l) v.
Proof.
  induction 1 as [|l c v d N IH D].
  - rewrite app_nil_r. apply (number_zeros [] 0 k). constructor.
  - rewrite app_assoc. constructor; assumption.
Qed.

Lemma digit_value_digit d : (d < 10)%N -> digit_value (digit d) = Some (Z.of_N d).
Proof.
  intros H. unfold digit_value, digit. rewrite N_ascii_embedding by lia.
  destruct ((48 <=? _) && (_ <=? 57)) eqn:E; [f_equal; lia|lia].
Qed.

Lemma digits_spec : forall fuel n, (n < 10 ^ N.of_nat fuel)%N -> number (digits fuel n) (Z.of_N n) /\
  (0 < fuel -> digits fuel n <> [])%nat /\
  (forall r, digits fuel n = "0"%char :: r -> r = []) /\
  (forall k, (0 < k)%nat -> (n < 10 ^ N.of_nat k)%N -> (List.length (digits fuel n) <= k)%nat).
Proof.
  induction fuel as [|fuel IH]; intros n H.
  - cbn [digits]. assert (n = 0)%N as -> by (change (10 ^ N.of_nat 0)%N with 1%N in H; lia).
    split; [constructor|]. split; [lia|]. split; [discriminate|]. intros; cbn; lia.
  - cbn [digits]. destruct (n <? 10)%N eqn:E.
    + split; [|split; [discriminate|split; [congruence|cbn; lia]]]. rewrite <- (Z.add_0_l (Z.of_N n)). change 0 with (10 * 0) at 1.
      apply (number_snoc [] (digit n)); [constructor|]. apply digit_value_digit. lia.
    + rewrite Nat2N.inj_succ, N.pow_succ_r' in H. destruct (IH (n / 10)%N) as (N1 & N2 & N3 & N4); [lia|].
      assert (fuel <> 0)%nat as F by (intros ->; change (10 ^ N.of_nat 0)%N with 1%N in H; lia).
      split; [|split; [|split]].
      * replace (Z.of_N n) with (10 * Z.of_N (n / 10) + Z.of_N (n mod 10)) by lia. constructor; [exact N1|]. apply digit_value_digit. lia.
      * intros _ Q. apply app_eq_nil in Q as [_ Q]. discriminate.
      * intros r Q. destruct (digits fuel (n / 10)) as [|c l] eqn:D; [exfalso; apply N2; [lia|reflexivity]|].
        cbn [app] in Q. inversion Q; subst. assert (l = []) as -> by (apply N3; reflexivity).
        assert (Z.of_N (n / 10) = 0) as Z0. { apply (number_unique ["0"%char]); [exact N1|]. apply (number_snoc [] "0"%char 0 0); [constructor|reflexivity]. }
        lia.
      * intros k K L. rewrite app_length. cbn [List.length]. destruct k as [|k]; [lia|]. rewrite Nat2N.inj_succ, N.pow_succ_r' in L.
        destruct k as [|k]; [change (10 ^ N.of_nat 0)%N with 1%N in L; lia|]. specialize (N4 (S k)). lia.
Qed.

Lemma size_fuel n : (n < 10 ^ N.of_nat (S (N.to_nat (N.size n))))%N.
Proof.
  rewrite Nat2N.inj_succ, N2Nat.id, N.pow_succ_r'.
  pose proof (N.size_gt n). pose proof (N.pow_le_mono_l 2 10 (N.size n)). lia.
Qed.

Lemma fmt_i_spec z : 0 <= z -> number (fmt_i z) z /\ fmt_i z <> [] /\ (forall r, fmt_i z = "0"%char :: r -> r = []) /\
  (forall k, (0 < k)%nat -> z < 10 ^ Z.of_nat k -> (List.length (fmt_i z) <= k)%nat).
Proof.
  intros H. unfold fmt_i. destruct (z <? 0) eqn:E; [lia|].
  destruct (digits_spec _ _ (size_fuel (Z.abs_N z))) as (A & B & C & D). rewrite N2Z.inj_abs_N, Z.abs_eq in A by lia.
  split; [exact A|]. split; [apply B; lia|]. split; [exact C|]. intros k K L. apply D; [exact K|].
  assert (Z.of_N (10 ^ N.of_nat k) = 10 ^ Z.of_nat k) by (rewrite N2Z.inj_pow, nat_N_Z; reflexivity). lia.
Qed.

Lemma fmt_08i_spec z : 0 <= z < 10 ^ 8 -> number (fmt_08i z) z /\ List.length (fmt_08i z) = 8%nat.
Proof.
  intros H. destruct (fmt_i_spec z) as (A & B & C & D); [lia|]. specialize (D 8%nat ltac:(lia) ltac:(change (Z.of_nat 8) with 8; lia)).
  unfold fmt_08i. split; [apply zeros_number, A|]. rewrite app_length, repeat_length. lia.
Qed.

(** ** Stripping zeros *)

Lemma lstrip0_spec l : exists k, l = repeat "0"%char k ++ lstrip0 l /\ (forall r, lstrip0 l <> "0"%char :: r).
Proof.
  induction l as [|c l (k & E & N)]; [exists 0%nat; split; [reflexivity|discriminate]|]. cbn [lstrip0].
  destruct (Ascii.eqb c "0") eqn:Q.
  - apply Ascii.eqb_eq in Q. subst. exists (S k). split; [cbn [repeat app]; congruence|exact N].
  - exists 0%nat. split; [reflexivity|]. intros r R. inversion R; subst. discriminate.
Qed.

Lemma rev_repeat {A} (x : A) k : rev (repeat x k) = repeat x k.
Proof. induction k as [|k IH]; [reflexivity|]. cbn [repeat rev]. rewrite IH. symmetry. apply repeat_cons. Qed.

Lemma rstrip0_spec l : exists k, l = rstrip0 l ++ repeat "0"%char k /\ (forall r, rstrip0 l <> r ++ ["0"%char]).
Proof.
  destruct (lstrip0_spec (rev l)) as (k & E & N). exists k. unfold rstrip0. split.
  - rewrite <- (rev_involutive l) at 1. rewrite E at 1. rewrite rev_app_distr, rev_repeat. reflexivity.
  - intros r R. apply (f_equal (@rev _)) in R. rewrite rev_involutive, rev_app_distr in R. apply (N _ R).
Qed.

Lemma rstrip0_point a f : rstrip0 (a ++ "."%char :: f) = a ++ "."%char :: rstrip0 f.
Proof.
  unfold rstrip0. rewrite rev_app_distr. cbn [rev]. rewrite <- app_assoc. cbn [app].
  assert (H : forall l r, lstrip0 (l ++ "."%char :: r) = lstrip0 l ++ "."%char :: r).
  { induction l as [|c l IH]; intros r; [reflexivity|]. cbn [app lstrip0]. destruct (Ascii.eqb c "0"); [apply IH|reflexivity]. }
  rewrite H, rev_app_distr. cbn [rev]. rewrite rev_involutive, <- app_assoc. reflexivity.
Qed.

Lemma money_shape v : exists fp, str_money_value v = Ok (fmt_i (v / 10 ^ 8) ++ "."%char :: fp) /\
  number (fmt_08i (v mod 10 ^ 8)) (v mod 10 ^ 8) /\
  ((fp = ["0"%char] /\ v mod 10 ^ 8 = 0) \/
   (fp <> [] /\ (forall r, fp <> r ++ ["0"%char]) /\ (List.length fp <= 8)%nat /\
    exists b, number fp b /\ v mod 10 ^ 8 = b * 10 ^ (8 - Z.of_nat (List.length fp)))).
Proof.
  change (10 ^ 8) with 100000000. destruct (fmt_08i_spec (v mod 100000000)) as [N L]; [lia|].
  unfold str_money_value. rewrite rstrip0_point, rev_app_distr. cbn [rev]. rewrite <- app_assoc.
  destruct (rstrip0_spec (fmt_08i (v mod 100000000))) as (k & E & T).
  destruct (rstrip0 (fmt_08i (v mod 100000000))) as [|x l _] eqn:R using rev_ind.
  - cbn [rev app]. exists ["0"%char]. split; [cbn [Ascii.eqb Bool.eqb]; rewrite <- app_assoc; reflexivity|]. split; [exact N|]. left. split; [reflexivity|].
    rewrite E in N. destruct (number_zeros_inv _ _ _ N) as (w & W & ->). assert (w = 0) as -> by (eapply number_unique; [exact W|constructor]). lia.
  - rewrite rev_app_distr. cbn [rev app].
    exists (l ++ [x]). rewrite E in N. destruct (number_zeros_inv _ _ _ N) as (w & W & EV). rewrite <- E in N.
    assert (Ascii.eqb x "." = false) as ->.
    { apply Ascii.eqb_neq. intros ->. apply number_chars in W. rewrite Forall_forall in W. apply (W "."%char); [apply in_or_app; right; left; reflexivity|reflexivity]. }
    split; [reflexivity|]. split; [exact N|]. right. split; [destruct l; discriminate|]. split; [exact T|].
    rewrite E, app_length, repeat_length in L. split; [lia|]. exists w. split; [exact W|]. rewrite EV. f_equal. f_equal. lia.
Qed.

Lemma money_reads v : 0 <= v -> exists s, str_money_value v = Ok s /\ reads s v /\ trimmed s.
Proof.
  intros H. destruct (money_shape v) as (fp & E & _ & C). destruct (fmt_i_spec (v / 10 ^ 8)) as (N & NE & NZ & _); [lia|].
  eexists. split; [exact E|]. destruct C as [[-> Z]|(F & T & L & b & B & EV)].
  - split.
    + replace v with (v / 10 ^ 8 * 10 ^ 8 + 0 * 10 ^ (8 - Z.of_nat (List.length ["0"%char]))) at 2 by (cbn; lia).
      constructor; auto; [|discriminate|cbn; lia]. apply (number_snoc [] "0"%char 0 0); [constructor|reflexivity].
    + split; [intros r _; eexists; reflexivity|]. intros r R. destruct (fmt_i (v / 10 ^ 8)) as [|c l] eqn:Q; [congruence|].
      cbn [app] in R. inversion R; subst. rewrite (NZ l) by reflexivity. eexists. reflexivity.
  - split.
    + replace v with (v / 10 ^ 8 * 10 ^ 8 + b * 10 ^ (8 - Z.of_nat (List.length fp))) at 2 by (rewrite <- EV; lia).
      constructor; auto.
    + split.
      * intros r R. exfalso. destruct fp as [|x fp' _] using rev_ind; [congruence|].
        change ("."%char :: fp' ++ [x]) with (("."%char :: fp') ++ [x]) in R. rewrite app_assoc in R. apply app_inj_tail in R. destruct R as [_ ->].
        apply (T fp'). reflexivity.
      * intros r R. destruct (fmt_i (v / 10 ^ 8)) as [|c l] eqn:Q; [congruence|].
        cbn [app] in R. inversion R; subst. rewrite (NZ l) by reflexivity. eexists. reflexivity.
Qed.

Lemma split_point a b c d v w : number a v -> number c w -> a ++ "."%char :: b = c ++ "."%char :: d -> a = c /\ b = d.
Proof.
  intros A C. apply number_chars in A, C. revert c C. induction A as [|x a X A IH]; intros c C E.
  - destruct C as [|y c Y C]; cbn [app] in E; inversion E; subst; [auto|]. exfalso. apply Y. reflexivity.
  - destruct C as [|y c Y C]; cbn [app] in E; inversion E; subst; [exfalso; apply X; reflexivity|].
    destruct (IH c C) as [-> ->]; auto.
Qed.

Lemma reads_unique s v w : reads s v -> reads s w -> v = w.
Proof.
  intros V. revert w. induction V as [ip fp a b A NE B NF L|s v S V IH]; intros w W.
  - inversion W as [ip' fp' a' b' A' NE' B' NF' L' E|s' v' S' V' E]; subst.
    + destruct (split_point _ _ _ _ _ _ A' A E) as [-> ->]. rewrite (number_unique _ _ _ A A'), (number_unique _ _ _ B B'). reflexivity.
    + exfalso. destruct ip as [|c ip]; [congruence|]. cbn [app] in E. inversion E; subst. apply number_chars in A. inversion A; subst. apply H1. reflexivity.
  - inversion W as [ip' fp' a' b' A' NE' B' NF' L' E|s' v' S' V' E]; subst.
    + exfalso. destruct ip' as [|c ip]; [congruence|]. cbn [app] in E. inversion E; subst. apply number_chars in A'. inversion A'; subst. apply H1. reflexivity.
    + f_equal. apply IH. assumption.
Qed.

Lemma money_injective v w s : 0 <= v -> 0 <= w -> str_money_value v = Ok s -> str_money_value w = Ok s -> v = w.
Proof.
  intros V W A B. destruct (money_reads v V) as (s1 & E1 & R1 & _), (money_reads w W) as (s2 & E2 & R2 & _).
  apply (reads_unique s); congruence.
Qed.

(** ** Copies *)

Lemma freeze_inputs l : Forall (in_class Imm) l -> mapM CTxIn_from_txin l = Ok l.
Proof.
  induction 1 as [|i l [A B] F IH]; [reflexivity|]. cbn [mapM]. unfold CTxIn_from_txin at 1. rewrite A. cbn [bind]. rewrite IH. reflexivity.
Qed.

Lemma freeze_outputs l : Forall (fun o => pq_cls o = Imm) (map CTxOut_from_txout l) /\ map pq_val (map CTxOut_from_txout l) = map pq_val l.
Proof.
  induction l as [|o l [A B]]; [split; constructor|]. cbn [map]. unfold CTxOut_from_txout at 1 3. destruct (pq_cls o) eqn:E; split; try (constructor; auto); try (f_equal; auto).
Qed.

Lemma new_frozen vin vout lock ver : Forall (in_class Imm) vin -> 0 <= lock < 2 ^ 32 ->
  exists t, CTransaction_new vin vout lock ver = Ok t /\ all_class Imm t /\ contents t = contents (mkPtx Imm vin vout lock ver).
Proof.
  intros F L. unfold CTransaction_new. destruct ((0 <=? lock) && (lock <=? 4294967295)) eqn:E; [|lia]. cbn [negb].
  rewrite freeze_inputs by exact F. cbn [bind]. eexists. split; [reflexivity|]. destruct (freeze_outputs vout) as [A B].
  split; [split; [reflexivity|split; assumption]|]. unfold contents. cbn [pt_vin pt_vout pt_nLockTime pt_nVersion]. rewrite B. reflexivity.
Qed.

Lemma thaw t : wf_tx (contents t) -> exists t', CMutableTransaction_from_tx t = Ok t' /\ all_class Mut t' /\ contents t' = contents t.
Proof.
  intros (I & _ & _ & _ & L & _). unfold CMutableTransaction_from_tx. cbn [contents t_vin t_nLockTime] in *.
  assert (M : exists l, mapM CMutableTxIn_from_txin (pt_vin t) = Ok l /\ Forall (in_class Mut) l /\
    map (fun i => mkTxIn (po_val (pi_prevout i)) (pi_scriptSig i) (pi_nSequence i)) l =
    map (fun i => mkTxIn (po_val (pi_prevout i)) (pi_scriptSig i) (pi_nSequence i)) (pt_vin t)).
  { revert I. generalize (pt_vin t). clear. induction l as [|i l IH]; intros F; [exists []; repeat constructor|].
    cbn [map] in F. inversion F as [|x y ((A & B) & _ & C) F']; subst. cbn [i_prevout i_scriptSig i_nSequence] in *.
    destruct (IH F') as (l' & E & G & Q). cbn [mapM]. unfold CMutableTxIn_from_txin at 1, CMutableOutPoint_from_outpoint, outpoint_new, txin_new.
    destruct (blen (o_hash (po_val (pi_prevout i))) =? 32)%N eqn:E1; [|unfold blen in E1; lia]. cbn [negb].
    destruct ((0 <=? o_n (po_val (pi_prevout i))) && (o_n (po_val (pi_prevout i)) <=? 4294967295)) eqn:E2; [|lia]. cbn [negb bind].
    destruct ((0 <=? pi_nSequence i) && (pi_nSequence i <=? 4294967295)) eqn:E3; [|lia]. cbn [negb bind]. rewrite E. cbn [bind].
    eexists. split; [reflexivity|]. split; [constructor; [split; reflexivity|exact G]|]. cbn [map pi_prevout pi_scriptSig pi_nSequence po_val i_scriptSig i_nSequence].
    rewrite Q. destruct (po_val (pi_prevout i)). reflexivity. }
  destruct M as (l & E & F & Q). rewrite E. cbn [bind]. unfold CMutableTransaction_new.
  destruct ((0 <=? pt_nLockTime t) && (pt_nLockTime t <=? 4294967295)) eqn:E1; [|lia]. cbn [negb]. eexists. split; [reflexivity|]. split.
  - split; [reflexivity|]. split; [exact F|]. cbn [pt_vout]. apply Forall_forall. intros o H. apply in_map_iff in H. destruct H as (o' & <- & _). reflexivity.
  - unfold contents. cbn [pt_vin pt_vout pt_nLockTime pt_nVersion]. rewrite Q, map_map. reflexivity.
Qed.

Lemma freeze_thawed t t' : contents t = contents t' -> all_class Mut t' -> pt_vin t <> [] -> 0 <= pt_nLockTime t < 2 ^ 32 -> CTransaction_from_tx t' = Err AttributeError.
Proof.
  intros C (A & B & _) NE L. unfold CTransaction_from_tx. rewrite A. unfold CTransaction_new.
  pose proof (f_equal t_nLockTime C) as CL. cbn in CL. rewrite <- CL.
  destruct ((0 <=? pt_nLockTime t) && (pt_nLockTime t <=? 4294967295)) eqn:E1; [|lia]. cbn [negb].
  pose proof (f_equal (fun x => List.length (t_vin x)) C) as CV. cbn in CV. rewrite !map_length in CV.
  destruct (pt_vin t'); [destruct (pt_vin t); [congruence|discriminate]|]. inversion B as [|? ? [X Y] ?]; subst. cbn [mapM].
  unfold CTxIn_from_txin at 1. rewrite X. reflexivity.
Qed.
