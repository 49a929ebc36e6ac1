(** Lemmas behind ScriptEval_Props.v. *)
From Verif Require Import Base Sha256 Sha1 Ripemd160 Tx_Model Tx_Spec Tx_Proofs Script_Model Script_Spec Script_Proofs
  SigHash_Model SigHash_Spec SigHash_Proofs Grammar_Spec Grammar_Proofs ScriptEval_Model ScriptEval_Spec.
From Coq Require Import ZifyBool ZifyNat ZifyN.

(** ** The text of a script *)

Lemma le_little k n b : Grammar_Spec.le k n b -> List.length b = k /\ little b = n.
Proof. intros H. exact H. Qed.

Lemma bN_byte (x : byte) n : bN x = n -> x = Nb n.
Proof. intros <-. apply bN_inj. rewrite bN_Nb. symmetry. apply N.mod_small, bN_lt. Qed.

Lemma spelled_size op d x : spelled (Op op (Some d) x) -> forall rest, exists b hdr h, x = b :: hdr ++ d /\ bN b = op /\
  (op <= 0x4e)%N /\ List.length hdr = h /\ push_size op (hdr ++ d ++ rest) = Ok (blen d, h, d ++ rest).
Proof.
  intros H rest. inversion H; subst.
  - exists x0, [], 0. repeat split; [lia|]. unfold push_size. destruct (bN x0 <? 76)%N eqn:E; [|lia]. cbn [app]. repeat f_equal. congruence.
  - destruct H1 as [L V]. destruct h as [|x0 [|? ?]]; try discriminate. cbn [little] in V.
    exists x4c, [x0], 1. repeat split; [lia|]. cbn. f_equal. f_equal. f_equal. lia.
  - destruct H1 as [L V]. destruct h as [|x0 [|x1 [|? ?]]]; try discriminate. cbn [little] in V.
    exists x4d, [x0; x1], 2. repeat split; [lia|]. cbn [app]. unfold push_size.
    change (77 <? 76)%N with false. change (77 =? 76)%N with false. change (77 =? 77)%N with true. cbv iota.
    rewrite !N.shiftl_mul_pow2. do 3 f_equal. lia.
  - destruct H1 as [L V]. destruct h as [|x0 [|x1 [|x2 [|x3 [|? ?]]]]]; try discriminate. cbn [little] in V.
    exists x4e, [x0; x1; x2; x3], 4. repeat split; [lia|]. cbn [app]. unfold push_size.
    change (78 <? 76)%N with false. change (78 =? 76)%N with false. change (78 =? 77)%N with false. cbv iota.
    rewrite !N.shiftl_mul_pow2. do 3 f_equal. lia.
Qed.

Lemma spelled_none op x : spelled (Op op None x) -> exists b, x = [b] /\ bN b = op /\ (0x4e < op)%N.
Proof. intros H. inversion H; subst. exists x0. auto. Qed.

Lemma spelled_op_size o rest : spelled o -> op_size (op_text o ++ rest) = Some (List.length (op_text o)).
Proof.
  destruct o as [op [d|] x]; cbn [op_text]; intros H.
  - destruct (spelled_size _ _ _ H rest) as (b & hdr & h & -> & B & L & HL & P). cbn [app op_size]. rewrite B.
    destruct (78 <? op)%N eqn:E; [lia|]. rewrite <- app_assoc, P. unfold blen. rewrite app_length.
    match goal with |- context[if ?c then _ else _] => destruct c eqn:E2; [lia|] end. f_equal. cbn [List.length]. rewrite app_length. lia.
  - destruct (spelled_none _ _ H) as (b & -> & B & L). cbn [app op_size List.length]. destruct (78 <? bN b)%N eqn:E; [reflexivity|lia].
Qed.

Lemma spelled_step i o rest : spelled o ->
  raw_from i (op_text o ++ rest) =
  ((op_code o, op_data o, i) :: fst (raw_from (i + List.length (op_text o)) rest), snd (raw_from (i + List.length (op_text o)) rest)).
Proof.
  destruct o as [op [d|] x]; cbn [op_text op_code op_data]; intros H.
  - destruct (spelled_size _ _ _ H rest) as (b & hdr & h & -> & B & L & HL & P). unfold raw_from. cbn [app List.length]. rewrite raw_loop_S.
    rewrite B. destruct (78 <? op)%N eqn:E; [lia|]. rewrite <- app_assoc, P. unfold blen. rewrite app_length.
    match goal with |- context[if ?c then _ else _] => destruct c eqn:E2; [lia|] end. rewrite Nat2N.id. rewrite firstn_app, firstn_all, Nat.sub_diag. cbn [firstn]. rewrite app_nil_r.
    rewrite skipn_app, skipn_all, Nat.sub_diag. cbn [skipn app]. rewrite !app_length.
    rewrite (raw_loop_fuel _ (Datatypes.S (List.length rest))) by lia.
    replace (Datatypes.S i + h + List.length d) with (i + Datatypes.S (List.length hdr + List.length d)) by lia. reflexivity.
  - destruct (spelled_none _ _ H) as (b & -> & B & L). cbn [app List.length]. rewrite raw_from_op by lia. rewrite B.
    replace (Datatypes.S i) with (i + 1) by lia. reflexivity.
Qed.

Lemma spelled_nonempty o : spelled o -> op_text o <> [].
Proof. intros H. inversion H; discriminate. Qed.

Lemma le_of_bytes b : Grammar_Spec.le (List.length b) (little b) b.
Proof. split; reflexivity. Qed.

Lemma op_size_spelled s n : op_size s = Some n -> exists o, spelled o /\ op_text o = firstn n s.
Proof.
  intros H. destruct s as [|b s]; [discriminate|]. cbn [op_size] in H. destruct (78 <? bN b)%N eqn:E.
  - assert (n = 1) as -> by congruence. exists (Op (bN b) None [b]). split; [constructor; lia|reflexivity].
  - destruct (push_size (bN b) s) as [[[l h] s2]|] eqn:P; [|discriminate]. destruct (blen s2 <? l)%N eqn:L; [discriminate|].
    assert (n = 1 + h + N.to_nat l) as -> by congruence. clear H. cbn [Nat.add firstn].
    assert (BL : blen (firstn (N.to_nat l) s2) = l) by (unfold blen in *; rewrite firstn_length; lia).
    unfold push_size in P. destruct (bN b <? 76)%N eqn:E1.
    { inversion P; subst. exists (Op (bN b) (Some (firstn (N.to_nat (bN b)) s2)) (b :: firstn (N.to_nat (bN b)) s2)). split; [|reflexivity].
      constructor; [lia|exact BL]. }
    destruct (bN b =? 76)%N eqn:E2.
    { assert (b = x4c) as -> by (apply bN_inj; change (bN x4c) with 76%N; lia).
      destruct s as [|b0 s]; [discriminate|]. injection P as P1 P2 P3. subst h s2.
      exists (Op 0x4c (Some (firstn (N.to_nat l) s)) (x4c :: [b0] ++ firstn (N.to_nat l) s)). split; [|reflexivity]. apply (spelled_push1 [b0]). rewrite BL. split; [reflexivity|]. rewrite <- P1. cbn [little]. lia. }
    destruct (bN b =? 77)%N eqn:E3.
    { assert (b = x4d) as -> by (apply bN_inj; change (bN x4d) with 77%N; lia).
      destruct s as [|b0 [|b1 s]]; try discriminate. injection P as P1 P2 P3. subst h s2.
      exists (Op 0x4d (Some (firstn (N.to_nat l) s)) (x4d :: [b0; b1] ++ firstn (N.to_nat l) s)). split; [|reflexivity]. apply (spelled_push2 [b0; b1]). rewrite BL. split; [reflexivity|].
      rewrite <- P1, N.shiftl_mul_pow2. cbn [little]. lia. }
    assert (b = x4e) as -> by (apply bN_inj; change (bN x4e) with 78%N; lia).
    destruct s as [|b0 [|b1 [|b2 [|b3 s]]]]; try discriminate. injection P as P1 P2 P3. subst h s2.
    exists (Op 0x4e (Some (firstn (N.to_nat l) s)) (x4e :: [b0; b1; b2; b3] ++ firstn (N.to_nat l) s)). split; [|reflexivity]. apply (spelled_push4 [b0; b1; b2; b3]). rewrite BL. split; [reflexivity|].
    rewrite <- P1, !N.shiftl_mul_pow2. cbn [little]. lia.
Qed.

Lemma one_op_spelled c : one_op c <-> exists o, spelled o /\ op_text o = c.
Proof.
  rewrite one_op_size. split.
  - intros H. destruct (op_size_spelled _ _ H) as (o & S & T). exists o. rewrite firstn_all in T. auto.
  - intros (o & S & <-). rewrite <- (app_nil_r (op_text o)) at 1. apply spelled_op_size, S.
Qed.

(** What raw_iter yields, from position [i] on. *)
Fixpoint items_of (i : nat) (ops : list operation) : list (N * option bytes * nat) :=
  match ops with
  | [] => []
  | o :: ops' => (op_code o, op_data o, i) :: items_of (i + List.length (op_text o)) ops'
  end.

Lemma raw_items ops : Forall spelled ops -> forall i, raw_from i (text_of ops) = (items_of i ops, None).
Proof.
  induction 1 as [|o ops H F IH]; intros i; [reflexivity|]. unfold text_of in *. cbn [map concat items_of].
  rewrite spelled_step by exact H. rewrite IH. reflexivity.
Qed.

Lemma reads_exists s : snd (raw_iter s) = None <-> exists ops, reads_as s ops.
Proof.
  split.
  - intros H. apply splits_iff in H. destruct H as (chunks & F & <-). unfold reads_as. revert F. induction chunks as [|c chunks IH]; intros F.
    + exists []. split; [constructor|reflexivity].
    + inversion F as [|? ? H1 H2]; subst. apply one_op_spelled in H1. destruct H1 as (o & S & <-). destruct (IH H2) as (ops & A & B).
      exists (o :: ops). split; [constructor; assumption|]. unfold text_of in *. cbn [map concat]. rewrite B. reflexivity.
  - intros (ops & F & ->). change (raw_iter (text_of ops)) with (raw_from 0 (text_of ops)). rewrite raw_items by exact F. reflexivity.
Qed.

Lemma spelled_prefix o o' r r' : spelled o -> spelled o' -> op_text o ++ r = op_text o' ++ r' -> o = o' /\ r = r'.
Proof.
  intros S S' E. destruct (one_op_prefix (op_text o) (op_text o') r r') as [T R]; auto; try (apply one_op_spelled; eauto).
  split; [|exact R]. pose proof (spelled_step 0 o [] S) as A. pose proof (spelled_step 0 o' [] S') as B. rewrite T, B in A.
  destruct o as [a b c], o' as [a' b' c']. cbn [op_text op_code op_data] in *. congruence.
Qed.

Lemma reads_unique s a b : reads_as s a -> reads_as s b -> a = b.
Proof.
  unfold reads_as. intros [F ->]. revert b. induction F as [|o a H F IH]; intros b [G E]; unfold text_of in *; cbn [map concat] in *.
  - inversion G as [|o' b' H' G']; subst; [reflexivity|]. cbn [map concat] in E. apply spelled_nonempty in H'.
    destruct (op_text o'); [congruence|discriminate].
  - inversion G as [|o' b' H' G']; subst; cbn [map concat] in E.
    + apply spelled_nonempty in H. destruct (op_text o); [congruence|discriminate].
    + destruct (spelled_prefix _ _ _ _ H H' E) as [-> R]. f_equal. apply IH. auto.
Qed.

(** ** Pushes of a string *)

Lemma le_iff k n b : Grammar_Spec.le k (Z.of_N n) b <-> (n < 256 ^ N.of_nat k)%N /\ b = le_enc k n.
Proof.
  unfold Grammar_Spec.le. rewrite little_dec. split.
  - intros [<- V]. apply N2Z.inj in V. rewrite <- V. split; [apply le_dec_lt|symmetry; apply le_enc_dec].
  - intros [B ->]. split; [apply le_enc_length|]. rewrite le_dec_enc by exact B. reflexivity.
Qed.

Definition push_forms (d p : bytes) : Prop :=
  ((blen d < 76)%N /\ p = Nb (blen d) :: d) \/ ((blen d < 256)%N /\ p = x4c :: Nb (blen d) :: d) \/
  ((blen d < 65536)%N /\ p = x4d :: le_enc 2 (blen d) ++ d) \/ ((blen d < 2 ^ 32)%N /\ p = x4e :: le_enc 4 (blen d) ++ d).

Lemma le_enc_1 n : le_enc 1 n = [Nb n].
Proof. cbn [le_enc]. f_equal. apply bN_inj. rewrite !bN_Nb. apply N.mod_mod. lia. Qed.

Lemma push_forms_iff d p : push_forms d p <-> exists c, spelled (Op c (Some d) p).
Proof.
  split.
  - intros [[H ->]|[[H ->]|[[H ->]|[H ->]]]].
    + exists (bN (Nb (blen d))). assert (bN (Nb (blen d)) = blen d) as E by (rewrite bN_Nb; apply N.mod_small; lia).
      constructor; rewrite E; [exact H|reflexivity].
    + exists 0x4c%N. apply (spelled_push1 [Nb (blen d)]). apply le_iff. rewrite le_enc_1. split; [exact H|reflexivity].
    + exists 0x4d%N. apply (spelled_push2 (le_enc 2 (blen d))). apply le_iff. auto.
    + exists 0x4e%N. apply (spelled_push4 (le_enc 4 (blen d))). apply le_iff. auto.
  - intros [c H]. unfold push_forms. inversion H; subst.
    + left. split; [lia|]. f_equal. apply bN_byte. congruence.
    + right. left. apply le_iff in H1. destruct H1 as [B ->]. rewrite le_enc_1. split; [exact B|reflexivity].
    + right. right. left. apply le_iff in H1. destruct H1 as [B ->]. split; [exact B|reflexivity].
    + right. right. right. apply le_iff in H1. destruct H1 as [B ->]. split; [exact B|reflexivity].
Qed.

Lemma ok_iff {A} (a p : A) : Ok a = Ok p <-> p = a.
Proof. split; [intros H; inversion H; reflexivity|intros ->; reflexivity]. Qed.

Lemma encode_forms d p : encode_op_pushdata d = Ok p <->
  if (blen d <? 76)%N then p = Nb (blen d) :: d
  else if (blen d <? 256)%N then p = x4c :: Nb (blen d) :: d
  else if (blen d <? 65536)%N then p = x4d :: le_enc 2 (blen d) ++ d
  else (blen d < 2 ^ 32)%N /\ p = x4e :: le_enc 4 (blen d) ++ d.
Proof.
  unfold encode_op_pushdata. destruct (blen d <? 76)%N eqn:E1; [apply ok_iff|].
  destruct (blen d <=? 255)%N eqn:E2; destruct (blen d <? 256)%N eqn:E2'; try lia; [apply ok_iff|].
  destruct (blen d <=? 65535)%N eqn:E3; destruct (blen d <? 65536)%N eqn:E3'; try lia.
  - destruct (pack_u_ok 2 (Z.of_N (blen d))) as [P _]; [cbn; lia|]. rewrite P. rewrite N2Z.id. cbn [bind]. apply ok_iff.
  - destruct (blen d <=? 4294967295)%N eqn:E4.
    + destruct (pack_u_ok 4 (Z.of_N (blen d))) as [P _]; [cbn; lia|]. rewrite P. rewrite N2Z.id. cbn [bind].
      split; [intros H; split; [lia|congruence]|intros [_ ->]; reflexivity].
    + split; [discriminate|intros [H _]; lia].
Qed.

Lemma shortest_push_encode d p : shortest_push d p <-> encode_op_pushdata d = Ok p.
Proof.
  rewrite encode_forms. unfold shortest_push. rewrite <- push_forms_iff.
  assert (M : (forall c p', spelled (Op c (Some d) p') -> List.length p <= List.length p') <-> (forall p', push_forms d p' -> List.length p <= List.length p')).
  { split; intros H p'; [intros F; apply push_forms_iff in F; destruct F as [c F]; eauto|]. intros p'' F. apply H, push_forms_iff. eauto. }
  rewrite M. clear M. unfold push_forms. split.
  - intros [F M].
    pose proof (M (Nb (blen d) :: d)) as M1. pose proof (M (x4c :: Nb (blen d) :: d)) as M2. pose proof (M (x4d :: le_enc 2 (blen d) ++ d)) as M3. clear M.
    cbn [List.length] in M1, M2, M3. rewrite app_length, le_enc_length in M3.
    destruct (blen d <? 76)%N eqn:E1; [|destruct (blen d <? 256)%N eqn:E2; [|destruct (blen d <? 65536)%N eqn:E3]].
    + specialize (M1 ltac:(left; split; [lia|reflexivity])). destruct F as [[H ->]|[[H ->]|[[H ->]|[H ->]]]]; [reflexivity| | |];
        cbn [List.length] in M1; rewrite ?app_length, ?le_enc_length in M1; lia.
    + specialize (M2 ltac:(right; left; split; [lia|reflexivity])). destruct F as [[H ->]|[[H ->]|[[H ->]|[H ->]]]]; [lia|reflexivity| |];
        cbn [List.length] in M2; rewrite ?app_length, ?le_enc_length in M2; lia.
    + specialize (M3 ltac:(right; right; left; split; [lia|reflexivity])). destruct F as [[H ->]|[[H ->]|[[H ->]|[H ->]]]]; [lia|lia|reflexivity|];
        cbn [List.length] in M3; rewrite ?app_length, ?le_enc_length in M3; lia.
    + destruct F as [[H ->]|[[H ->]|[[H ->]|[H ->]]]]; [lia|lia|lia|]. auto.
  - intros H. split.
    + destruct (blen d <? 76)%N eqn:E1; [left; split; [lia|exact H]|]. destruct (blen d <? 256)%N eqn:E2; [right; left; split; [lia|exact H]|].
      destruct (blen d <? 65536)%N eqn:E3; [right; right; left; split; [lia|exact H]|]. right; right; right. exact H.
    + intros p' F. destruct (blen d <? 76)%N eqn:E1; [|destruct (blen d <? 256)%N eqn:E2; [|destruct (blen d <? 65536)%N eqn:E3]];
        [| | |destruct H as [_ H]]; subst p; destruct F as [[F ->]|[[F ->]|[[F ->]|[F ->]]]]; cbn [List.length]; rewrite ?app_length, ?le_enc_length; cbn [List.length]; lia.
Qed.

(** ** Numbers *)

Lemma scriptnum_cons x s : s <> [] -> Z.abs (scriptnum (x :: s)) = (Z.of_N (bN x) + 256 * Z.abs (scriptnum s))%Z /\
  (scriptnum s < 0 -> scriptnum (x :: s) < 0)%Z /\ (0 < scriptnum s -> 0 < scriptnum (x :: s))%Z.
Proof.
  intros H. unfold scriptnum. cbn [rev]. destruct (rev s) as [|b r] eqn:R.
  { exfalso. apply H. rewrite <- (rev_involutive s), R. reflexivity. }
  cbn [app]. cbn [le_dec List.length]. pose proof (bN_lt x) as BX.
  pose proof (bin2bn_rev s) as V. rewrite R in V. rewrite bin2bn_cons in V.
  assert (L : List.length s = S (List.length r)) by (rewrite <- (rev_length s), R; reflexivity).
  assert (B : (bin2bn r < 256 ^ blen r)%N).
  { clear. induction r as [|y r IH]; [cbn; lia|]. rewrite bin2bn_cons, blen_cons, N.pow_succ_r'. pose proof (bN_lt y). nia. }
  assert (P : (2 ^ (8 * Z.of_nat (S (List.length s)) - 1) = 256 * 2 ^ (8 * Z.of_nat (List.length s) - 1))%Z).
  { change 256%Z with (2 ^ 8)%Z. rewrite <- Z.pow_add_r by lia. f_equal. lia. }
  rewrite P. rewrite L. unfold blen in *. set (k := List.length r) in *.
  assert (P2 : (2 ^ (8 * Z.of_nat (S k) - 1) = 128 * Z.of_N (256 ^ N.of_nat k))%Z).
  { rewrite N2Z.inj_pow. change (Z.of_N 256) with (2 ^ 8)%Z. rewrite <- Z.pow_mul_r by lia. change 128%Z with (2 ^ 7)%Z. rewrite <- Z.pow_add_r by lia. f_equal. lia. }
  rewrite P2. set (q := (256 ^ N.of_nat k)%N) in *. rewrite <- V. pose proof (bN_lt b).
  destruct (bN b <? 128)%N eqn:E.
  - lia.
  - assert (128 * q <= bN b * q)%N by (apply N.mul_le_mono_r; lia). lia.
Qed.

Lemma scriptnum_one x : scriptnum [x] = (if (bN x <? 128)%N then Z.of_N (bN x) else - (Z.of_N (bN x) - 128))%Z.
Proof. unfold scriptnum. cbn [rev app le_dec List.length]. change (2 ^ (8 * Z.of_nat 1 - 1))%Z with 128%Z. destruct (bN x <? 128)%N; lia. Qed.

Lemma CastToBool_iff s : CastToBool s = true <-> truthy s.
Proof.
  unfold truthy. induction s as [|x s IH]; [cbn; lia|]. cbn [CastToBool]. destruct s as [|y s].
  - rewrite scriptnum_one. cbn [CastToBool]. destruct (bN x =? 0)%N eqn:E; cbn [negb andb]; [destruct (bN x <? 128)%N eqn:E2; lia|].
    destruct (bN x =? 128)%N eqn:E1; destruct (bN x <? 128)%N eqn:E2; lia.
  - destruct (scriptnum_cons x (y :: s)) as (A & _); [discriminate|]. destruct (bN x =? 0)%N eqn:E; cbn [negb andb]; [rewrite IH; lia|]. lia.
Qed.

Lemma CastToBool_false s : CastToBool s = false <-> ~ truthy s.
Proof. rewrite <- CastToBool_iff. destruct (CastToBool s); split; congruence. Qed.

Lemma scriptnum_sign s b r : rev s = b :: r -> (128 <= bN b)%N -> (2 ^ (8 * Z.of_nat (List.length s) - 1) <= Z.of_N (le_dec s))%Z.
Proof.
  intros R Hb. pose proof (bin2bn_rev s) as V. rewrite R in V. rewrite bin2bn_cons in V.
  assert (L : List.length s = S (List.length r)) by (rewrite <- (rev_length s), R; reflexivity).
  rewrite L. unfold blen in *. set (k := List.length r) in *.
  assert (P2 : (2 ^ (8 * Z.of_nat (S k) - 1) = 128 * Z.of_N (256 ^ N.of_nat k))%Z).
  { rewrite N2Z.inj_pow. change (Z.of_N 256) with (2 ^ 8)%Z. rewrite <- Z.pow_mul_r by lia. change 128%Z with (2 ^ 7)%Z. rewrite <- Z.pow_add_r by lia. f_equal. lia. }
  rewrite P2. set (q := (256 ^ N.of_nat k)%N) in *. rewrite <- V.
  assert (128 * q <= bN b * q)%N by (apply N.mul_le_mono_r; lia). lia.
Qed.

Lemma scriptnum_inj a b : List.length a = List.length b -> scriptnum a = scriptnum b -> scriptnum a <> 0%Z -> a = b.
Proof.
  intros L E N. assert (D : le_dec a = le_dec b).
  { pose proof (scriptnum_sign a) as A. pose proof (scriptnum_sign b) as B. unfold scriptnum in *. rewrite L in *.
    destruct (rev a) as [|x ra]; [congruence|]. destruct (rev b) as [|y rb]; [congruence|].
    specialize (A _ _ eq_refl). specialize (B _ _ eq_refl). destruct (bN x <? 128)%N eqn:E1; destruct (bN y <? 128)%N eqn:E2; lia. }
  rewrite <- (le_enc_dec a), <- (le_enc_dec b). congruence.
Qed.

Lemma number_iff z b : (Z.log2 (Z.abs z) < 2 ^ 32)%Z -> number z b <-> bn2vch z = Ok b.
Proof.
  intros H. destruct (script_number_roundtrip z H) as (s & S1 & _ & S3 & S4). unfold number. rewrite S1. split.
  - intros [V M]. assert (List.length b = List.length s) as L by (specialize (M s S3); specialize (S4 b V); lia). f_equal.
    destruct (Z.eq_dec z 0) as [->|Z0].
    + assert (s = []) as -> by (cbn in S1; congruence). destruct b; [reflexivity|discriminate].
    + symmetry. apply scriptnum_inj; congruence.
  - intros E. inversion E; subst b. split; [exact S3|exact S4].
Qed.

Lemma CastToBigNum_iff a z : CastToBigNum a = Ok z <-> operand a z.
Proof.
  unfold CastToBigNum, operand. destruct (2 ^ 32 <=? blen a)%N eqn:E.
  - unfold vch2bn. rewrite E. split; [discriminate|lia].
  - rewrite vch2bn_meaning by lia. cbn [bind]. destruct (4 <? blen a)%N eqn:E2; [split; [discriminate|lia]|].
    split; [intros H; inversion H; split; [reflexivity|lia]|intros [-> _]; reflexivity].
Qed.

Lemma operand_bound a z : operand a z -> (Z.abs z < 2 ^ 31)%Z.
Proof.
  intros [<- L]. destruct a as [|x a]; [cbn; lia|]. pose proof (scriptnum_bound (x :: a) ltac:(discriminate)) as B.
  assert (2 ^ (8 * Z.of_nat (List.length (x :: a)) - 1) <= 2 ^ 31)%Z; [|lia]. apply Z.pow_le_mono_r; [lia|]. unfold blen in L. lia.
Qed.

Lemma small_log z : (Z.abs z < 2 ^ 40)%Z -> (Z.log2 (Z.abs z) < 2 ^ 32)%Z.
Proof.
  intros H. destruct (Z.eq_dec (Z.abs z) 0) as [->|N]; [cbn; lia|]. assert (Z.log2 (Z.abs z) < 40)%Z by (apply Z.log2_lt_pow2; lia). lia.
Qed.
