From Verif Require Import Base PySlice Sha256 Tx_Model Tx_Spec Tx_Proofs Script_Model Script_Proofs Block_Model Block_Spec SigHash_Model SigHash_Spec.
From Coq Require Import ZifyBool ZifyNat ZifyN.
Ltac Zify.zify_post_hook ::= Z.div_mod_to_equations.

(** ** Operations of a script *)

(** The number of bytes of the first operation of [s]. *)
Definition op_size (s : bytes) : option nat :=
  match s with
  | [] => None
  | b :: s1 =>
    if (0x4e <? bN b)%N then Some 1
    else match push_size (bN b) s1 with
         | Err _ => None
         | Ok (l, h, s2) => if (blen s2 <? l)%N then None else Some (1 + h + N.to_nat l)
         end
  end.

Lemma push_size_app op s l h s2 rest : push_size op s = Ok (l, h, s2) -> push_size op (s ++ rest) = Ok (l, h, s2 ++ rest).
Proof.
  unfold push_size. destruct (op <? 76)%N; [intros H; inversion H; subst; reflexivity|].
  destruct (op =? 76)%N; [destruct s; intros H; inversion H; subst; reflexivity|].
  destruct (op =? 77)%N; [destruct s as [|? [|? ?]]; intros H; inversion H; subst; reflexivity|].
  destruct s as [|? [|? [|? [|? ?]]]]; intros H; inversion H; subst; reflexivity.
Qed.

Lemma push_size_skip op s l h s2 : push_size op s = Ok (l, h, s2) -> s2 = skipn h s.
Proof.
  unfold push_size. destruct (op <? 76)%N; [intros H; inversion H; subst; reflexivity|].
  destruct (op =? 76)%N; [destruct s; intros H; inversion H; subst; reflexivity|].
  destruct (op =? 77)%N; [destruct s as [|? [|? ?]]; intros H; inversion H; subst; reflexivity|].
  destruct s as [|? [|? [|? [|? ?]]]]; intros H; inversion H; subst; reflexivity.
Qed.

Lemma op_size_app s n rest : op_size s = Some n -> op_size (s ++ rest) = Some n.
Proof.
  destruct s as [|b s1]; [discriminate|]. cbn [op_size app]. destruct (78 <? bN b)%N; [exact (fun H => H)|].
  destruct (push_size (bN b) s1) as [[[l h] s2]|] eqn:E; [|discriminate]. rewrite (push_size_app _ _ _ _ _ rest E).
  destruct (blen s2 <? l)%N eqn:E2; [discriminate|]. unfold blen in *. rewrite app_length.
  destruct (N.of_nat (_ + _) <? l)%N eqn:E3; [lia|exact (fun H => H)].
Qed.

Lemma op_size_le s n : op_size s = Some n -> 0 < n <= List.length s.
Proof.
  destruct s as [|b s1]; [discriminate|]. cbn [op_size]. destruct (78 <? bN b)%N; [intros H; inversion H; cbn [List.length]; lia|].
  destruct (push_size (bN b) s1) as [[[l h] s2]|] eqn:E; [|discriminate].
  destruct (blen s2 <? l)%N eqn:E2; [discriminate|]. intros H. inversion H. apply push_size_le in E. cbn [List.length]. unfold blen in E2. lia.
Qed.

Lemma skipn_twice {A} (l : list A) a b : skipn a (skipn b l) = skipn (a + b) l.
Proof. revert l. induction b as [|b IH]; intros l; [rewrite Nat.add_0_r; reflexivity|]. rewrite Nat.add_succ_r. destruct l; [rewrite !skipn_nil; reflexivity|]. cbn [skipn]. apply IH. Qed.

(** Iterating from the first operation. *)
Lemma raw_from_step i s n : op_size s = Some n -> exists op d,
  raw_from i s = ((op, d, i) :: fst (raw_from (i + n) (skipn n s)), snd (raw_from (i + n) (skipn n s))).
Proof.
  intros H. pose proof (op_size_le _ _ H) as Hn. destruct s as [|b s1]; [discriminate|]. cbn [op_size] in H.
  unfold raw_from at 1. cbn [List.length]. rewrite raw_loop_S. destruct (78 <? bN b)%N.
  - inversion H; subst. exists (bN b), None. unfold raw_from. cbn [skipn]. rewrite Nat.add_1_r. reflexivity.
  - destruct (push_size (bN b) s1) as [[[l h] s2]|] eqn:E; [|discriminate]. destruct (blen s2 <? l)%N eqn:E2; [discriminate|].
    assert (n = 1 + h + N.to_nat l) as -> by congruence. clear H.
    pose proof (push_size_le _ _ _ _ _ E). pose proof (push_size_skip _ _ _ _ _ E) as ->.
    exists (bN b), (Some (firstn (N.to_nat l) (skipn h s1))).
    replace (1 + h + N.to_nat l) with (S (N.to_nat l + h)) by lia. cbn [skipn]. rewrite skipn_twice.
    rewrite (raw_loop_fuel _ (S (List.length (skipn (N.to_nat l + h) s1)))) by (rewrite skipn_length in *; lia).
    replace (S i + h + N.to_nat l) with (i + S (N.to_nat l + h)) by lia. reflexivity.
Qed.

Lemma raw_from_none i b s : op_size (b :: s) = None -> exists e, raw_from i (b :: s) = ([], Some e).
Proof.
  cbn [op_size]. intros H. unfold raw_from. cbn [List.length]. rewrite raw_loop_S. destruct (78 <? bN b)%N; [discriminate|].
  destruct (push_size (bN b) s) as [[[l h] s2]|] eqn:E; [|eauto]. destruct (blen s2 <? l)%N eqn:E2; [eauto|discriminate].
Qed.

Lemma one_op_size c : one_op c <-> op_size c = Some (List.length c).
Proof.
  split.
  - intros (op & d & k & H). change (raw_iter c) with (raw_from 0 c) in H. destruct c as [|b c]; [discriminate|].
    destruct (op_size (b :: c)) as [n|] eqn:E.
    + destruct (raw_from_step 0 _ _ E) as (op' & d' & R). rewrite R in H. apply op_size_le in E as L.
      destruct (skipn n (b :: c)) as [|b' r] eqn:S.
      * apply (f_equal (@List.length _)) in S. rewrite skipn_length in S. cbn [List.length] in *. f_equal. lia.
      * destruct (op_size (b' :: r)) as [n'|] eqn:E'.
        { destruct (raw_from_step (0 + n) _ _ E') as (op2 & d2 & R2). rewrite R2 in H. cbn [fst] in H. discriminate. }
        { destruct (raw_from_none (0 + n) _ _ E') as (e & R2). rewrite R2 in H. cbn [snd] in H. discriminate. }
    + destruct (raw_from_none 0 _ _ E) as (e & R). congruence.
  - intros H. destruct (raw_from_step 0 _ _ H) as (op & d & R). exists op, d, 0. change (raw_iter c) with (raw_from 0 c).
    rewrite R. rewrite skipn_all. reflexivity.
Qed.

Lemma op_size_front c rest : one_op c -> op_size (c ++ rest) = Some (List.length c).
Proof. intros H. apply op_size_app, one_op_size, H. Qed.

(** No operation is the beginning of another. *)
Lemma one_op_prefix a b r1 r2 : one_op a -> one_op b -> a ++ r1 = b ++ r2 -> a = b /\ r1 = r2.
Proof.
  intros A B E. pose proof (op_size_front _ r1 A) as H1. pose proof (op_size_front _ r2 B) as H2.
  rewrite E, H2 in H1. assert (L : List.length b = List.length a) by congruence.
  clear -E L. revert b L E. induction a as [|x a IH]; intros [|y b] L E; cbn [List.length] in L; try discriminate; [auto|].
  cbn [app] in E. inversion E; subst. destruct (IH b) as [-> ->]; auto.
Qed.

Lemma raw_from_splits : forall n i s items, List.length s <= n -> raw_from i s = (items, None) -> exists chunks, splits chunks s.
Proof.
  induction n as [|n IH]; intros i s items Hn H.
  - destruct s; [|cbn [List.length] in Hn; lia]. exists []. split; [constructor|reflexivity].
  - destruct s as [|b s]; [exists []; split; [constructor|reflexivity]|].
    destruct (op_size (b :: s)) as [k|] eqn:E; [|destruct (raw_from_none i _ _ E); congruence].
    destruct (raw_from_step i _ _ E) as (op & d & R). pose proof (op_size_le _ _ E) as Hk. rewrite R in H.
    destruct (raw_from (i + k) (skipn k (b :: s))) as [l e] eqn:E2. cbn [fst snd] in H.
    assert (e = None) as -> by congruence.
    apply IH in E2; [|rewrite skipn_length; cbn [List.length] in *; lia]. destruct E2 as (chunks & F & C).
    exists (firstn k (b :: s) :: chunks). split.
    + constructor; [|exact F]. apply one_op_size. rewrite firstn_length_le by lia.
      clear -E Hk. cbn [op_size] in E.
      destruct k as [|k]; [lia|]. cbn [firstn]. cbn [op_size List.length] in *. destruct (78 <? bN b)%N; [exact E|].
      destruct (push_size (bN b) s) as [[[l h] s2]|] eqn:P; [|discriminate]. destruct (blen s2 <? l)%N eqn:L; [discriminate|].
      assert (S k = 1 + h + N.to_nat l) as K by congruence.
      assert (push_size (bN b) (firstn k s) = Ok (l, h, skipn h (firstn k s))) as P2.
      { assert (h <= k) as HK by lia. clear - P HK. unfold push_size in *. destruct (bN b <? 76)%N; [inversion P; subst; reflexivity|].
        destruct (bN b =? 76)%N; [destruct s; inversion P; subst; destruct k; [lia|]; reflexivity|].
        destruct (bN b =? 77)%N; [destruct s as [|? [|? ?]]; inversion P; subst; destruct k as [|[|k]]; try lia; reflexivity|].
        destruct s as [|? [|? [|? [|? ?]]]]; inversion P; subst; destruct k as [|[|[|[|k]]]]; try lia; reflexivity. }
      clear L. rewrite P2. unfold blen. rewrite skipn_length, firstn_length_le by lia. destruct (_ <? l)%N eqn:L2; [lia|]. f_equal. lia.
    + cbn [concat]. rewrite C. apply firstn_skipn.
Qed.

Lemma splits_raw : forall chunks s i, splits chunks s -> exists items, raw_from i s = (items, None).
Proof.
  induction chunks as [|c chunks IH]; intros s i [F C].
  - cbn in C. subst. eexists. apply raw_from_nil.
  - inversion F; subst. cbn [concat]. destruct (raw_from_step i _ _ (op_size_front c (concat chunks) H1)) as (op & d & R).
    rewrite skipn_app, skipn_all, Nat.sub_diag in R. cbn [skipn app] in R. rewrite R.
    destruct (IH (concat chunks) (i + List.length c)) as [items E]; [split; auto|]. rewrite E. eexists. reflexivity.
Qed.

Lemma splits_iff s : (exists chunks, splits chunks s) <-> snd (raw_iter s) = None.
Proof.
  change (raw_iter s) with (raw_from 0 s). split.
  - intros (c & H). destruct (splits_raw c s 0 H) as [items E]. rewrite E. reflexivity.
  - intros H. destruct (raw_from 0 s) as [items e] eqn:E. cbn [snd] in H. subst. eapply raw_from_splits; eauto.
Qed.

Lemma splits_unique : forall a b s, splits a s -> splits b s -> a = b.
Proof.
  assert (Z : forall c, one_op c -> c <> []). { intros c H ->. apply one_op_size in H. discriminate. }
  induction a as [|c a IH]; intros [|d b] s [F1 C1] [F2 C2]; cbn [concat] in *; try reflexivity.
  - inversion F2; subst. symmetry in C2. destruct d; [exfalso; apply (Z [] ltac:(assumption)); reflexivity|discriminate].
  - inversion F1; subst. destruct c; [exfalso; apply (Z [] ltac:(assumption)); reflexivity|discriminate].
  - inversion F1; subst. inversion F2; subst. symmetry in C2. destruct (one_op_prefix c d (concat a) (concat b)) as [-> E]; auto.
    f_equal. apply (IH b (concat a)); split; auto.
Qed.

Lemma sub_mid (pre mid post : bytes) a b : a = List.length pre -> b = List.length pre + List.length mid ->
  sub_bytes (pre ++ mid ++ post) a b = mid.
Proof.
  intros -> ->. unfold sub_bytes. rewrite skipn_app, skipn_all, Nat.sub_diag. cbn [skipn app].
  replace (_ + _ - _) with (List.length mid + 0) by lia. rewrite firstn_app_2. apply app_nil_r.
Qed.

Lemma starts_with p c post pre : one_op p -> one_op c ->
  bytes_eqb (sub_bytes (pre ++ c ++ post) (List.length pre) (List.length pre + List.length p)) p = bytes_eqb c p.
Proof.
  intros P C. unfold sub_bytes. rewrite skipn_app, skipn_all, Nat.sub_diag. cbn [skipn app].
  replace (_ + _ - _) with (List.length p) by lia. destruct (bytes_eqb c p) eqn:E.
  - apply bytes_eqb_eq in E. subst. apply bytes_eqb_eq. rewrite firstn_app, Nat.sub_diag, firstn_all. apply app_nil_r.
  - apply bytes_eqb_neq in E. apply bytes_eqb_neq. intros H. apply E.
    destruct (one_op_prefix c p post (skipn (List.length p) (c ++ post))); auto.
    rewrite <- H at 1. symmetry. apply firstn_skipn.
Qed.

Lemma fad_loop_spec p : one_op p -> forall chunks, Forall one_op chunks -> forall pre cur r skip items s,
  s = pre ++ cur ++ concat chunks -> raw_from (List.length pre + List.length cur) (concat chunks) = (items, None) ->
  fad_loop s p items r (List.length pre) skip = r ++ (if skip then [] else cur) ++ concat (without p chunks).
Proof.
  intros P. induction chunks as [|c chunks IH]; intros F pre cur r skip items s -> R.
  - cbn [concat] in R. rewrite raw_from_nil in R. inversion R; subst. cbn [fad_loop concat without filter].
    rewrite !app_nil_r. destruct skip; [rewrite app_nil_r; reflexivity|].
    rewrite skipn_app, skipn_all, Nat.sub_diag. reflexivity.
  - inversion F; subst. cbn [concat] in *.
    destruct (raw_from_step (List.length pre + List.length cur) _ _ (op_size_front c (concat chunks) H1)) as (op & d & E).
    rewrite skipn_app, skipn_all, Nat.sub_diag in E. cbn [skipn app] in E. rewrite E in R. clear E.
    destruct (raw_from _ (concat chunks)) as [l e] eqn:E in R. cbn [fst snd] in R. inversion R; subst. clear R.
    cbn [fad_loop]. rewrite sub_mid by reflexivity.
    rewrite (app_assoc pre cur (c ++ concat chunks)). rewrite <- app_length.
    rewrite starts_with by assumption.
    rewrite (IH H2 (pre ++ cur) c _ _ l _ eq_refl) by (rewrite app_length; exact E).
    cbn [without filter]. destruct (bytes_eqb c p) eqn:Q; cbn [negb concat]; destruct skip; rewrite <- ?app_assoc, ?app_nil_r; reflexivity.
Qed.

Lemma FindAndDelete_splits p s chunks : one_op p -> splits chunks s -> FindAndDelete s p = Ok (concat (without p chunks)).
Proof.
  intros P [F C]. destruct (splits_raw chunks s 0 (conj F C)) as [items E]. unfold FindAndDelete.
  change (raw_iter s) with (raw_from 0 s). rewrite E. f_equal.
  apply (fad_loop_spec p P chunks F [] [] [] true items s); [symmetry; exact C|]. cbn [List.length Nat.add]. rewrite C. exact E.
Qed.

Lemma FindAndDelete_ok p s r : one_op p -> FindAndDelete s p = Ok r <-> exists chunks, splits chunks s /\ r = concat (without p chunks).
Proof.
  intros P. split.
  - intros H. assert (exists chunks, splits chunks s) as [c S].
    { apply splits_iff. unfold FindAndDelete in H. destruct (raw_iter s) as [items [e|]]; [discriminate|reflexivity]. }
    rewrite (FindAndDelete_splits p s c P S) in H. inversion H. eauto.
  - intros (c & S & ->). apply FindAndDelete_splits; assumption.
Qed.

Lemma FindAndDelete_err p s : ~ (exists chunks, splits chunks s) ->
  FindAndDelete s p = Err CScriptInvalidError \/ FindAndDelete s p = Err CScriptTruncatedPushDataError.
Proof.
  rewrite splits_iff. intros H. unfold FindAndDelete. pose proof (raw_iter_err s) as R. destruct (raw_iter s) as [items [e|]]; [|contradiction].
  cbn [snd] in R. destruct (R e eq_refl) as [-> | ->]; auto.
Qed.

Lemma splits_without p s chunks : splits chunks s -> splits (without p chunks) (concat (without p chunks)).
Proof.
  intros [F C]. split; [|reflexivity]. apply Forall_forall. intros x H. unfold without in H. apply filter_In in H.
  rewrite Forall_forall in F. apply F, H.
Qed.

Lemma concat_without_len p chunks : List.length (concat (without p chunks)) <= List.length (concat chunks).
Proof.
  induction chunks as [|c l IH]; [apply le_n|]. cbn [without filter]. destruct (negb _); cbn [concat]; rewrite ?app_length; unfold without in IH; lia.
Qed.

Lemma codesep_op : one_op [xab].
Proof. do 3 eexists. reflexivity. Qed.

Lemma scriptcode_iff s c : scriptcode s c <-> FindAndDelete s [xab] = Ok c.
Proof. rewrite (FindAndDelete_ok _ _ _ codesep_op). reflexivity. Qed.

(** ** What is serialized *)

Lemma land_base ht : Z.land ht 31 = base ht.
Proof. change 31%Z with (Z.ones 5). rewrite Z.land_ones by lia. reflexivity. Qed.

Lemma land_anyone ht : (Z.land ht 128 =? 0)%Z = negb (anyone ht).
Proof.
  unfold anyone. destruct (Z.testbit ht 7) eqn:E; cbn [negb].
  - apply Z.eqb_neq. intros H. apply (f_equal (fun z => Z.testbit z 7)) in H. rewrite Z.land_spec, E in H. discriminate.
  - apply Z.eqb_eq. apply Z.bits_inj'. intros n Hn. rewrite Z.land_spec, Z.bits_0. change 128%Z with (2 ^ 7)%Z.
    destruct (Z.eq_dec n 7) as [->|D]; [rewrite E; reflexivity|]. rewrite Z.pow2_bits_false by lia. apply andb_false_r.
Qed.

Definition sig_in (ht : Z) (i : nat) (c : bytes) (j : nat) (x : txin) : txin :=
  mkTxIn (i_prevout x) (if Nat.eqb j i then c else []) (if Nat.eqb j i || negb (loose ht) then i_nSequence x else 0%Z).

Lemma signed_input_eq ht i c j x y : signed_input ht i c j x y <-> y = sig_in ht i c j x.
Proof. unfold signed_input, sig_in. split; [intros (A & B & C); destruct y; cbn in *; congruence|intros ->; auto]. Qed.

Definition sig_vin (ht : Z) (i : nat) (c : bytes) (vin : list txin) : list txin :=
  let l := set_nth_script (map (fun x => mkTxIn (i_prevout x) [] (i_nSequence x)) vin) i c in
  if loose ht then zero_sequences (Z.of_nat i) 0 l else l.

Lemma set_nth_error vin k s j : nth_error (set_nth_script vin k s) j =
  option_map (fun x => if Nat.eqb j k then mkTxIn (i_prevout x) s (i_nSequence x) else x) (nth_error vin j).
Proof.
  revert k j. induction vin as [|x vin IH]; intros [|k] [|j]; cbn [set_nth_script nth_error option_map Nat.eqb]; auto.
  destruct (nth_error vin j); reflexivity.
Qed.

Lemma zero_nth_error i vin : forall off j, nth_error (zero_sequences (Z.of_nat i) (Z.of_nat off) vin) j =
  option_map (fun x => if Nat.eqb (off + j) i then x else mkTxIn (i_prevout x) (i_scriptSig x) 0) (nth_error vin j).
Proof.
  induction vin as [|x vin IH]; intros off [|j]; cbn [zero_sequences nth_error option_map]; auto.
  - rewrite Nat.add_0_r. destruct (Z.of_nat off =? Z.of_nat i)%Z eqn:E; destruct (off =? i) eqn:E2; auto; lia.
  - replace (Z.of_nat off + 1)%Z with (Z.of_nat (S off)) by lia. rewrite IH. replace (off + S j) with (S off + j) by lia. reflexivity.
Qed.

Lemma sig_vin_nth ht i c vin j : nth_error (sig_vin ht i c vin) j = option_map (sig_in ht i c j) (nth_error vin j).
Proof.
  unfold sig_vin, sig_in. destruct (loose ht); [rewrite (zero_nth_error i _ 0)|]; rewrite set_nth_error, nth_error_map;
    destruct (nth_error vin j); cbn [option_map Nat.add negb i_prevout i_nSequence i_scriptSig]; [|reflexivity| |reflexivity];
    destruct (j =? i); reflexivity.
Qed.

Lemma nth_error_ext {A} (a b : list A) : (forall j, nth_error a j = nth_error b j) -> a = b.
Proof.
  revert b. induction a as [|x a IH]; intros [|y b] H; auto.
  - specialize (H 0). discriminate.
  - specialize (H 0). discriminate.
  - f_equal; [specialize (H 0); cbn in H; congruence|]. apply IH. intros j. apply (H (S j)).
Qed.

Lemma sig_vin_length ht i c vin : List.length (sig_vin ht i c vin) = List.length vin.
Proof.
  assert (S : forall l k s, List.length (set_nth_script l k s) = List.length l) by (induction l; intros [|k] s; cbn; auto).
  assert (Z : forall l i k, List.length (zero_sequences i k l) = List.length l) by (induction l; intros i' k; cbn; auto).
  unfold sig_vin. destruct (loose ht); rewrite ?Z, S, map_length; reflexivity.
Qed.

Lemma signed_inputs_eq ht i c vin vin' : signed_inputs ht i c vin vin' <->
  i < List.length vin /\
  vin' = if anyone ht then match nth_error vin i with Some x => [sig_in ht i c i x] | None => [] end else sig_vin ht i c vin.
Proof.
  unfold signed_inputs. destruct (anyone ht); split.
  - intros (x & y & N & -> & S). split; [apply nth_error_Some; congruence|]. rewrite N. f_equal. apply signed_input_eq, S.
  - intros (L & ->). apply nth_error_Some in L. destruct (nth_error vin i) as [x|] eqn:E; [|congruence].
    exists x, (sig_in ht i c i x). repeat split.
  - intros (L & I & S). split; [exact I|]. apply nth_error_ext. intros j. rewrite sig_vin_nth.
    destruct (nth_error vin j) as [x|] eqn:E.
    + destruct (nth_error vin' j) as [y|] eqn:E2; [|apply nth_error_None in E2; assert (nth_error vin j <> None) as X by congruence; apply nth_error_Some in X; lia].
      cbn [option_map]. f_equal. apply signed_input_eq. eauto.
    + apply nth_error_None in E. cbn [option_map]. apply nth_error_None. lia.
  - intros (I & ->). split; [apply sig_vin_length|]. split; [exact I|]. intros j x y E. rewrite sig_vin_nth, E. intros H. inversion H.
    apply signed_input_eq. reflexivity.
Qed.

Definition sig_vout (ht : Z) (i : nat) (vout : list txout) : list txout :=
  if (base ht =? 2)%Z then []
  else if (base ht =? 3)%Z then match nth_error vout i with Some o => repeat txout_default i ++ [o] | None => [] end
  else vout.

Lemma signed_outputs_eq ht i vout vout' : signed_outputs ht i vout vout' <->
  (base ht = 3%Z -> i < List.length vout) /\ vout' = sig_vout ht i vout.
Proof.
  unfold signed_outputs, sig_vout. destruct (base ht =? 2)%Z eqn:E2; [split; [intros ->; split; [lia|reflexivity]|intros [_ ->]; reflexivity]|].
  destruct (base ht =? 3)%Z eqn:E3.
  - split.
    + intros (o & N & ->). split; [intros _; apply nth_error_Some; congruence|]. rewrite N. reflexivity.
    + intros (L & ->). assert (nth_error vout i <> None) by (apply nth_error_Some, L; lia).
      destruct (nth_error vout i) as [o|]; [|congruence]. exists o. auto.
  - split; [intros ->; split; [lia|reflexivity]|intros [_ ->]; reflexivity].
Qed.

Definition sig_tx (ht : Z) (i : nat) (c : bytes) (t : tx) : tx :=
  mkTx (if anyone ht then match nth_error (t_vin t) i with Some x => [sig_in ht i c i x] | None => [] end else sig_vin ht i c (t_vin t))
       (sig_vout ht i (t_vout t)) (t_nLockTime t) (t_nVersion t).

Lemma signs_eq s t i ht m : signs s t i ht m <->
  i < List.length (t_vin t) /\ (base ht = 3%Z -> i < List.length (t_vout t)) /\
  exists c st, scriptcode s c /\ tx_ser (sig_tx ht i c t) = Ok st /\ m = st ++ le_enc 4 (Z.to_N ht).
Proof.
  unfold signs. split.
  - intros (c & t' & st & C & I & O & V & L & S & M). apply signed_inputs_eq in I. apply signed_outputs_eq in O.
    destruct I as [I EI], O as [O EO]. split; [exact I|]. split; [exact O|]. exists c, st. split; [exact C|]. split; [|exact M].
    rewrite <- S. f_equal. destruct t' as [a b l v]. cbn [t_vin t_vout t_nLockTime t_nVersion] in *. unfold sig_tx. congruence.
  - intros (I & O & c & st & C & S & M). exists c, (sig_tx ht i c t), st. split; [exact C|].
    split; [apply signed_inputs_eq; auto|]. split; [apply signed_outputs_eq; auto|]. repeat split; auto.
Qed.

Lemma tx_copy_wf t : wf_tx t -> tx_copy t = Ok t.
Proof.
  intros (I & _ & _ & _ & L & _). unfold tx_copy.
  assert (M : mapM txin_copy (t_vin t) = Ok (t_vin t)).
  { revert I. clear. induction (t_vin t) as [|x l IH]; [reflexivity|]. intros F. inversion F; subst. cbn [mapM].
    destruct H1 as ((A & B) & _ & C). unfold txin_copy at 1; unfold outpoint_new, txin_new.
    destruct (blen (o_hash (i_prevout x)) =? 32)%N eqn:E; [|unfold blen in E; lia]. cbn [negb].
    destruct ((0 <=? o_n (i_prevout x)) && (o_n (i_prevout x) <=? 4294967295))%Z eqn:E1; [|lia]. cbn [negb bind].
    destruct ((0 <=? i_nSequence x) && (i_nSequence x <=? 4294967295))%Z eqn:E2; [|lia]. cbn [negb bind].
    rewrite IH by assumption. cbn [bind]. destruct x as [[] ? ?]. reflexivity. }
  rewrite M. cbn [bind]. unfold tx_new. destruct ((0 <=? t_nLockTime t) && (t_nLockTime t <=? 4294967295))%Z eqn:E; [|lia].
  destruct t. reflexivity.
Qed.

Lemma py_index_nat {A} (l : list A) (i : nat) : py_index l (Z.of_nat i) = match nth_error l i with Some x => Ok x | None => Err IndexError end.
Proof.
  unfold py_index, znth. destruct (Z.of_nat i <? 0)%Z eqn:E; [lia|]. rewrite E, Nat2Z.id. reflexivity.
Qed.

Lemma Raw_eq s t i ht : wf_tx t -> i < List.length (t_vin t) ->
  RawSignatureHash s t (Z.of_nat i) ht =
  do c <- FindAndDelete s [xab];
  if (base ht =? 3)%Z && (List.length (t_vout t) <=? i) then Ok (HASH_ONE, true)
  else do st <- tx_ser (sig_tx ht i c t); do h <- pack_u 4 ht; Ok (Hash (st ++ h), false).
Proof.
  intros W I. unfold RawSignatureHash. destruct (_ <=? _)%Z eqn:E; [lia|]. clear E. rewrite tx_copy_wf by exact W. cbn [bind].
  destruct (FindAndDelete s [xab]) as [c|]; [|reflexivity]. cbn [bind].
  unfold set_script. rewrite py_index_nat, nth_error_map.
  assert (N : exists x, nth_error (t_vin t) i = Some x) by (apply nth_error_Some in I; destruct (nth_error (t_vin t) i); [eauto|congruence]).
  destruct N as [x N]. rewrite N. cbn [option_map bind]. destruct (Z.of_nat i <? 0)%Z eqn:E; [lia|]. clear E. rewrite Nat2Z.id.
  rewrite !land_base, land_anyone. unfold sig_tx, sig_vout, loose. rewrite N.
  assert (A : forall l, loose ht = l -> (if l then zero_sequences (Z.of_nat i) 0 (set_nth_script (map (fun i => mkTxIn (i_prevout i) [] (i_nSequence i)) (t_vin t)) i c) else
     set_nth_script (map (fun i => mkTxIn (i_prevout i) [] (i_nSequence i)) (t_vin t)) i c) = sig_vin ht i c (t_vin t)).
  { intros l <-. reflexivity. }
  assert (B : (if negb (anyone ht) then Ok (sig_vin ht i c (t_vin t)) else do tmp <- py_index (sig_vin ht i c (t_vin t)) (Z.of_nat i); Ok [tmp]) =
    Ok (if anyone ht then [sig_in ht i c i x] else sig_vin ht i c (t_vin t))).
  { destruct (anyone ht); [|reflexivity]. cbn [negb]. rewrite py_index_nat, sig_vin_nth, N. reflexivity. }
  destruct (base ht =? 2)%Z eqn:E2.
  - specialize (A true). unfold loose in A. rewrite E2 in A. rewrite A by reflexivity. rewrite B. cbn [bind].
    destruct (base ht =? 3)%Z eqn:E3; [lia|]. reflexivity.
  - destruct (base ht =? 3)%Z eqn:E3.
    + specialize (A true). unfold loose in A. rewrite E2, E3 in A. rewrite A by reflexivity. rewrite B. cbn [bind andb].
      destruct (Z.of_nat (List.length (t_vout t)) <=? Z.of_nat i)%Z eqn:E4; destruct (List.length (t_vout t) <=? i) eqn:E5; try lia; [reflexivity|].
      rewrite py_index_nat. destruct (nth_error (t_vout t) i) eqn:E6; [|apply nth_error_None in E6; lia]. reflexivity.
    + specialize (A false). unfold loose in A. rewrite E2, E3 in A. rewrite A by reflexivity. rewrite B. reflexivity.
Qed.

Lemma scriptcode_wf s c : scriptcode s c -> wf_script s -> wf_script c.
Proof.
  intros (chunks & [F C] & ->) W. unfold wf_script, blen in *. pose proof (concat_without_len [xab] chunks) as L. rewrite C in L. lia.
Qed.

Lemma sig_tx_wf ht i c t : wf_tx t -> wf_script c -> i < List.length (t_vin t) -> (base ht = 3%Z -> i < List.length (t_vout t)) -> wf_tx (sig_tx ht i c t).
Proof.
  intros (I & O & NI & NO & L & V) C Hi Ho.
  assert (J : forall j x, nth_error (t_vin t) j = Some x -> wf_txin (sig_in ht i c j x)).
  { intros j x N. rewrite Forall_forall in I. apply nth_error_In, I in N. destruct N as (A & B & Q). unfold sig_in, wf_txin.
    cbn [i_prevout i_scriptSig i_nSequence]. split; [exact A|]. split.
    - destruct (j =? i); [exact C|]. unfold wf_script, blen, MAX_SIZE. cbn. lia.
    - destruct ((j =? i) || negb (loose ht)); lia. }
  unfold sig_tx, wf_tx. cbn [t_vin t_vout t_nLockTime t_nVersion]. split; [|split; [|split; [|split; [|auto]]]].
  - destruct (anyone ht).
    + destruct (nth_error (t_vin t) i) eqn:E; [|constructor]. constructor; [eauto|constructor].
    + apply Forall_forall. intros y H. apply In_nth_error in H. destruct H as [j H]. rewrite sig_vin_nth in H.
      destruct (nth_error (t_vin t) j) eqn:E; [|discriminate]. cbn [option_map] in H. inversion H. eauto.
  - unfold sig_vout. destruct (base ht =? 2)%Z; [constructor|]. destruct (base ht =? 3)%Z; [|exact O].
    destruct (nth_error (t_vout t) i) eqn:E; [|constructor]. apply Forall_app. split.
    + apply Forall_forall. intros y H. apply repeat_spec in H. subst. split; [cbn; lia|]. unfold wf_script, blen, MAX_SIZE. cbn. lia.
    + constructor; [|constructor]. rewrite Forall_forall in O. eapply O, nth_error_In, E.
  - destruct (anyone ht); [destruct (nth_error (t_vin t) i); cbn [List.length]; lia|]. rewrite sig_vin_length. exact NI.
  - unfold sig_vout. destruct (base ht =? 2)%Z; [cbn; lia|]. destruct (base ht =? 3)%Z eqn:E3; [|exact NO].
    destruct (nth_error (t_vout t) i) eqn:E; [|cbn; lia]. rewrite app_length, repeat_length. cbn [List.length].
    specialize (Ho ltac:(lia)). lia.
Qed.

Lemma SignatureHash_iff s t i ht d : wf_tx t -> (0 <= ht < 2 ^ 32)%Z ->
  (SignatureHash s t (Z.of_nat i) ht = Ok d <-> exists m, signs s t i ht m /\ d = Hash m).
Proof.
  intros W H. unfold SignatureHash. destruct (Nat.lt_ge_cases i (List.length (t_vin t))) as [I|I].
  - rewrite Raw_eq by assumption. destruct (pack_u_ok 4 ht H) as [P _]. rewrite P. split.
    + destruct (FindAndDelete s [xab]) as [c|] eqn:F; [|discriminate]. cbn [bind].
      destruct ((base ht =? 3)%Z && (List.length (t_vout t) <=? i)) eqn:E; [discriminate|].
      destruct (tx_ser (sig_tx ht i c t)) as [st|] eqn:S; [|discriminate]. cbn [bind]. intros Q.
      assert (d = Hash (st ++ le_enc 4 (Z.to_N ht))) as -> by congruence. eexists. split; [|reflexivity].
      apply signs_eq. split; [exact I|]. split; [lia|]. exists c, st. rewrite scriptcode_iff. auto.
    + intros (m & M & ->). apply signs_eq in M. destruct M as (_ & O & c & st & C & S & ->). apply scriptcode_iff in C. rewrite C. cbn [bind].
      destruct ((base ht =? 3)%Z && (List.length (t_vout t) <=? i)) eqn:E; [lia|]. rewrite S. reflexivity.
  - split.
    + unfold RawSignatureHash. destruct (_ <=? _)%Z eqn:E; [discriminate|lia].
    + intros (m & M & ->). apply signs_eq in M. lia.
Qed.

Lemma signs_total s t i ht : wf_tx t -> wf_script s -> (exists chunks, splits chunks s) -> i < List.length (t_vin t) ->
  (base ht = 3%Z -> i < List.length (t_vout t)) -> exists m, signs s t i ht m.
Proof.
  intros W Ws (chunks & S) I O. assert (C : scriptcode s (concat (without [xab] chunks))) by (exists chunks; auto).
  destruct (tx_codec _ (sig_tx_wf ht i _ t W (scriptcode_wf _ _ C Ws) I O)) as (st & E & _).
  eexists. apply signs_eq. eauto 10.
Qed.

Lemma signs_unique s t i ht m1 m2 : signs s t i ht m1 -> signs s t i ht m2 -> m1 = m2.
Proof.
  rewrite !signs_eq. intros (_ & _ & c1 & s1 & C1 & S1 & ->) (_ & _ & c2 & s2 & C2 & S2 & ->).
  apply scriptcode_iff in C1, C2. congruence.
Qed.

Lemma Raw_bad_index s t i ht : List.length (t_vin t) <= i -> RawSignatureHash s t (Z.of_nat i) ht = Ok (HASH_ONE, true).
Proof. intros H. unfold RawSignatureHash. destruct (_ <=? _)%Z eqn:E; [reflexivity|lia]. Qed.

Lemma Raw_single_bug s t i ht : wf_tx t -> (exists chunks, splits chunks s) -> base ht = 3%Z -> List.length (t_vout t) <= i ->
  RawSignatureHash s t (Z.of_nat i) ht = Ok (HASH_ONE, true).
Proof.
  intros W (chunks & S) B H. destruct (Nat.lt_ge_cases i (List.length (t_vin t))) as [I|I]; [|apply Raw_bad_index, I].
  rewrite Raw_eq by assumption. rewrite (FindAndDelete_splits _ _ _ codesep_op S). cbn [bind].
  destruct ((base ht =? 3)%Z && (List.length (t_vout t) <=? i)) eqn:E; [reflexivity|lia].
Qed.

(** ** Covered, and nothing else *)

Lemma sig_tx_covered ht t1 i1 t2 i2 c : i1 < List.length (t_vin t1) -> i2 < List.length (t_vin t2) ->
  same_covered ht t1 i1 t2 i2 -> sig_tx ht i1 c t1 = sig_tx ht i2 c t2.
Proof.
  intros H1 H2 (V & L & (x1 & x2 & N1 & N2 & P & Q) & A & B & S & O). unfold sig_tx. rewrite N1, N2, V, L. f_equal.
  - destruct (anyone ht) eqn:EA.
    + unfold sig_in. rewrite !Nat.eqb_refl, P. cbn [orb]. rewrite Q. reflexivity.
    + destruct (A eq_refl) as [<- M]. apply nth_error_ext. intros j. rewrite !sig_vin_nth.
      pose proof (f_equal (fun l => nth_error l j) M) as MJ. cbn beta in MJ. rewrite !nth_error_map in MJ.
      destruct (nth_error (t_vin t1) j) as [y1|] eqn:E1; destruct (nth_error (t_vin t2) j) as [y2|] eqn:E2; try discriminate; [|reflexivity].
      cbn [option_map] in *. f_equal. unfold sig_in. f_equal; [congruence|].
      destruct (j =? i1) eqn:EJ; [apply Nat.eqb_eq in EJ; subst; cbn [orb]; congruence|]. cbn [orb].
      destruct (loose ht) eqn:EL; [reflexivity|]. cbn [negb].
      pose proof (f_equal (fun l => nth_error l j) (B eq_refl eq_refl)) as BJ. cbn beta in BJ. rewrite !nth_error_map, E1, E2 in BJ.
      cbn [option_map] in BJ. congruence.
  - unfold sig_vout. unfold loose in O. destruct (base ht =? 2)%Z eqn:E2; [reflexivity|]. destruct (base ht =? 3)%Z eqn:E3.
    + destruct S as (<- & o & -> & ->); [lia|]. reflexivity.
    + apply O. reflexivity.
Qed.

Lemma in_range_of_covered ht t1 i1 t2 i2 : same_covered ht t1 i1 t2 i2 ->
  i1 < List.length (t_vin t1) /\ i2 < List.length (t_vin t2) /\
  (base ht = 3%Z -> i1 < List.length (t_vout t1) /\ i2 < List.length (t_vout t2)).
Proof.
  intros (_ & _ & (x1 & x2 & N1 & N2 & _) & _ & _ & S & _). split; [apply nth_error_Some; congruence|]. split; [apply nth_error_Some; congruence|].
  intros B. destruct (S B) as (_ & o & A1 & A2). split; apply nth_error_Some; congruence.
Qed.

(** Only what is covered matters. *)
Lemma covered_same s1 s2 c t1 i1 t2 i2 ht : wf_tx t1 -> wf_tx t2 -> scriptcode s1 c -> scriptcode s2 c ->
  same_covered ht t1 i1 t2 i2 ->
  RawSignatureHash s1 t1 (Z.of_nat i1) ht = RawSignatureHash s2 t2 (Z.of_nat i2) ht.
Proof.
  intros W1 W2 C1 C2 S. destruct (in_range_of_covered _ _ _ _ _ S) as (H1 & H2 & H3).
  rewrite !Raw_eq by assumption. apply scriptcode_iff in C1, C2. rewrite C1, C2. cbn [bind].
  destruct ((base ht =? 3)%Z && (List.length (t_vout t1) <=? i1)) eqn:E1; [lia|].
  destruct ((base ht =? 3)%Z && (List.length (t_vout t2) <=? i2)) eqn:E2; [lia|].
  rewrite (sig_tx_covered ht t1 i1 t2 i2 c H1 H2 S). reflexivity.
Qed.

Lemma same_message s1 t1 i1 ht1 s2 t2 i2 ht2 c1 c2 m : wf_tx t1 -> wf_tx t2 -> wf_script s1 -> wf_script s2 ->
  (0 <= ht1 < 2 ^ 32)%Z -> (0 <= ht2 < 2 ^ 32)%Z ->
  scriptcode s1 c1 -> scriptcode s2 c2 -> c1 <> [] ->
  signs s1 t1 i1 ht1 m -> signs s2 t2 i2 ht2 m ->
  ht1 = ht2 /\ c1 = c2 /\ same_covered ht1 t1 i1 t2 i2.
Proof.
  intros W1 W2 Ws1 Ws2 R1 R2 C1 C2 NE S1 S2. rewrite signs_eq in S1, S2.
  destruct S1 as (I1 & O1 & c1' & st1 & C1' & T1 & M1), S2 as (I2 & O2 & c2' & st2 & C2' & T2 & M2).
  assert (c1' = c1) as -> by (apply scriptcode_iff in C1, C1'; congruence).
  assert (c2' = c2) as -> by (apply scriptcode_iff in C2, C2'; congruence).
  pose proof (sig_tx_wf ht1 i1 _ t1 W1 (scriptcode_wf _ _ C1 Ws1) I1 O1) as X1.
  pose proof (sig_tx_wf ht2 i2 _ t2 W2 (scriptcode_wf _ _ C2 Ws2) I2 O2) as X2.
  subst m. destruct (codec_prefix_free tx_ser tx_de wf_tx _ _ _ _ _ _ tx_codec X1 X2 T1 T2 M2) as [E EH].
  assert (ht1 = ht2) as <-.
  { destruct (pack_u_ok 4 ht1 R1) as [_ D1]. destruct (pack_u_ok 4 ht2 R2) as [_ D2]. rewrite EH, D2 in D1. lia. }
  split; [reflexivity|]. clear M2 EH T1 T2 X1 X2. unfold sig_tx in E.
  destruct (nth_error (t_vin t1) i1) as [x1|] eqn:N1; [|apply nth_error_None in N1; lia].
  destruct (nth_error (t_vin t2) i2) as [x2|] eqn:N2; [|apply nth_error_None in N2; lia].
  pose proof (f_equal t_vin E) as EV. pose proof (f_equal t_vout E) as EO. pose proof (f_equal t_nLockTime E) as EL.
  pose proof (f_equal t_nVersion E) as EVr. cbn [t_vin t_vout t_nLockTime t_nVersion] in *. clear E.
  assert (KO : (base ht1 = 3%Z -> i1 = i2 /\ exists o, nth_error (t_vout t1) i1 = Some o /\ nth_error (t_vout t2) i2 = Some o) /\
     (loose ht1 = false -> t_vout t1 = t_vout t2)).
  { unfold sig_vout, loose in *. destruct (base ht1 =? 2)%Z eqn:B2; [split; [lia|discriminate]|]. destruct (base ht1 =? 3)%Z eqn:B3.
    - split; [intros _|discriminate].
      assert (nth_error (t_vout t1) i1 <> None) by (apply nth_error_Some, O1; lia).
      assert (nth_error (t_vout t2) i2 <> None) by (apply nth_error_Some, O2; lia).
      destruct (nth_error (t_vout t1) i1) as [o1|]; [|congruence]. destruct (nth_error (t_vout t2) i2) as [o2|]; [|congruence].
      apply app_inj_tail in EO as [ER ->]. apply (f_equal (@List.length _)) in ER. rewrite !repeat_length in ER. eauto.
    - split; [lia|]. intros _. exact EO. }
  assert (KI : c1 = c2 /\ i_prevout x1 = i_prevout x2 /\ i_nSequence x1 = i_nSequence x2 /\
    (anyone ht1 = false -> i1 = i2 /\ map i_prevout (t_vin t1) = map i_prevout (t_vin t2)) /\
    (anyone ht1 = false -> loose ht1 = false -> map i_nSequence (t_vin t1) = map i_nSequence (t_vin t2))).
  { destruct (anyone ht1).
    - unfold sig_in in EV. rewrite !Nat.eqb_refl in EV. cbn [orb] in EV. inversion EV. repeat split; auto; discriminate.
    - assert (G : forall j, option_map (sig_in ht1 i1 c1 j) (nth_error (t_vin t1) j) = option_map (sig_in ht1 i2 c2 j) (nth_error (t_vin t2) j)).
      { intros j. rewrite <- !sig_vin_nth, EV. reflexivity. }
      assert (i1 = i2 /\ c1 = c2) as [<- <-].
      { pose proof (G i1) as G1. rewrite N1 in G1. cbn [option_map] in G1. destruct (nth_error (t_vin t2) i1) as [z|]; [|discriminate].
        cbn [option_map] in G1. unfold sig_in in G1. rewrite Nat.eqb_refl in G1. destruct (i1 =? i2) eqn:EI; [|inversion G1; congruence].
        split; [lia|]. inversion G1; reflexivity. }
      pose proof (G i1) as G1. rewrite N1, N2 in G1. cbn [option_map] in G1. unfold sig_in in G1. rewrite Nat.eqb_refl in G1. cbn [orb] in G1.
      split; [reflexivity|]. split; [congruence|]. split; [congruence|]. split; intros _.
      + split; [reflexivity|]. apply nth_error_ext. intros j. rewrite !nth_error_map. specialize (G j). unfold sig_in in G.
        destruct (nth_error (t_vin t1) j), (nth_error (t_vin t2) j); cbn [option_map] in *; congruence.
      + intros LS. apply nth_error_ext. intros j. rewrite !nth_error_map. specialize (G j). unfold sig_in in G. rewrite LS in G. cbn [negb] in G.
        rewrite !orb_true_r in G. destruct (nth_error (t_vin t1) j), (nth_error (t_vin t2) j); cbn [option_map] in *; congruence. }
  destruct KI as (KC & KP & KQ & KA & KB). split; [exact KC|]. destruct KO. split; [exact EVr|]. split; [exact EL|].
  split; [exists x1, x2; auto|]. auto.
Qed.

Lemma SignatureHash_binds s1 t1 i1 ht1 s2 t2 i2 ht2 c1 c2 d : wf_tx t1 -> wf_tx t2 -> wf_script s1 -> wf_script s2 ->
  (0 <= ht1 < 2 ^ 32)%Z -> (0 <= ht2 < 2 ^ 32)%Z ->
  scriptcode s1 c1 -> scriptcode s2 c2 -> c1 <> [] ->
  SignatureHash s1 t1 (Z.of_nat i1) ht1 = Ok d -> SignatureHash s2 t2 (Z.of_nat i2) ht2 = Ok d ->
  (ht1 = ht2 /\ c1 = c2 /\ same_covered ht1 t1 i1 t2 i2) \/
  (exists m1 m2, signs s1 t1 i1 ht1 m1 /\ signs s2 t2 i2 ht2 m2 /\ collide m1 m2).
Proof.
  intros W1 W2 Ws1 Ws2 R1 R2 C1 C2 NE D1 D2. apply SignatureHash_iff in D1, D2; try assumption.
  destruct D1 as (m1 & S1 & H1), D2 as (m2 & S2 & H2).
  destruct (list_eq_dec Byte.byte_eq_dec m1 m2) as [<-|D].
  - left. apply (same_message s1 t1 i1 ht1 s2 t2 i2 ht2 c1 c2 m1); assumption.
  - right. exists m1, m2. unfold collide. repeat split; auto. congruence.
Qed.
