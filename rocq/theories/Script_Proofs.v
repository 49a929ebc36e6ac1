From Verif Require Import Base Tx_Model Tx_Proofs Script_Model Script_Spec.
From Coq Require Import ZifyBool ZifyNat ZifyN.
Ltac Zify.zify_post_hook ::= Z.div_mod_to_equations.

(** ** Parsing what was pushed *)

(** The opcode that pushes [l] bytes. *)
Definition push_op (l : N) : N :=
  if (l <? 0x4c)%N then l else if (l <=? 0xff)%N then 0x4c else if (l <=? 0xffff)%N then 0x4d else 0x4e.

(** Number of length bytes after that opcode. *)
Definition push_hdr (l : N) : nat :=
  if (l <? 0x4c)%N then 0 else if (l <=? 0xff)%N then 1 else if (l <=? 0xffff)%N then 2 else 4.

Lemma bN_Nb_shift x k : N.shiftl (bN (Nb x)) k = ((x mod 256) * 2 ^ k)%N.
Proof. rewrite N.shiftl_mul_pow2, bN_Nb. reflexivity. Qed.

Lemma push_encoded d : (blen d < 2 ^ 32)%N -> exists b hdr,
  encode_op_pushdata d = Ok (b :: hdr ++ d) /\ bN b = push_op (blen d) /\ List.length hdr = push_hdr (blen d) /\
  forall rest, push_size (bN b) (hdr ++ rest) = Ok (blen d, push_hdr (blen d), rest).
Proof.
  intros H. unfold encode_op_pushdata, push_op, push_hdr.
  destruct (blen d <? 76)%N eqn:E1; [|destruct (blen d <=? 255)%N eqn:E2; [|destruct (blen d <=? 65535)%N eqn:E3; [|destruct (blen d <=? 4294967295)%N eqn:E4; [|lia]]]].
  - exists (Nb (blen d)), []. repeat split; [rewrite bN_Nb_small by lia; reflexivity|].
    intros rest. rewrite bN_Nb_small by lia. unfold push_size. rewrite E1. reflexivity.
  - exists x4c, [Nb (blen d)]. repeat split. intros rest. unfold push_size. cbn [app N.ltb N.compare bN Byte.to_N Pos.compare Pos.compare_cont N.eqb Pos.eqb].
    rewrite bN_Nb_small by lia. reflexivity.
  - destruct (pack_u_ok 2 (Z.of_N (blen d))) as [P D]; [change (2 ^ (8 * Z.of_nat 2))%Z with 65536%Z; lia|].
    rewrite N2Z.id in *. rewrite P. cbn [bind]. exists x4d, (le_enc 2 (blen d)). repeat split.
    intros rest. unfold push_size. cbn [le_enc app]. cbn [N.ltb N.compare bN Byte.to_N Pos.compare Pos.compare_cont N.eqb Pos.eqb].
    rewrite bN_Nb_shift, bN_Nb. change (2 ^ 8)%N with 256%N. do 3 f_equal. lia.
  - destruct (pack_u_ok 4 (Z.of_N (blen d))) as [P D]; [change (2 ^ (8 * Z.of_nat 4))%Z with 4294967296%Z; lia|].
    rewrite N2Z.id in *. rewrite P. cbn [bind]. exists x4e, (le_enc 4 (blen d)). repeat split.
    intros rest. unfold push_size. cbn [le_enc app]. cbn [N.ltb N.compare bN Byte.to_N Pos.compare Pos.compare_cont N.eqb Pos.eqb].
    rewrite !bN_Nb_shift, bN_Nb. change (2 ^ 8)%N with 256%N. change (2 ^ 16)%N with 65536%N. change (2 ^ 24)%N with 16777216%N. do 3 f_equal. lia.
Qed.

Lemma push_op_le l : (push_op l <= 0x4e)%N.
Proof. unfold push_op. destruct (_ <? _)%N eqn:E; [lia|]. destruct (_ <=? 255)%N; [lia|]. destruct (_ <=? 65535)%N; lia. Qed.

(** One more unit of fuel than bytes is enough, and more changes nothing. *)
Lemma push_size_le op s l h s2 : push_size op s = Ok (l, h, s2) -> List.length s = h + List.length s2.
Proof.
  unfold push_size. destruct (op <? 76)%N; [intros H; inversion H; subst; reflexivity|].
  destruct (op =? 76)%N; [destruct s; intros H; inversion H; subst; reflexivity|].
  destruct (op =? 77)%N; [destruct s as [|? [|? ?]]; intros H; inversion H; subst; reflexivity|].
  destruct s as [|? [|? [|? [|? ?]]]]; intros H; inversion H; subst; reflexivity.
Qed.

Lemma raw_loop_S fuel i b s1 : raw_iter_loop (S fuel) i (b :: s1) =
  if (0x4e <? bN b)%N then
    (((bN b, None, i) :: fst (raw_iter_loop fuel (S i) s1)), snd (raw_iter_loop fuel (S i) s1))
  else
    match push_size (bN b) s1 with
    | Err e => ([], Some e)
    | Ok (datasize, hdr, s2) =>
      if (blen s2 <? datasize)%N then ([], Some CScriptTruncatedPushDataError)
      else ((bN b, Some (firstn (N.to_nat datasize) s2), i) :: fst (raw_iter_loop fuel (S i + hdr + N.to_nat datasize) (skipn (N.to_nat datasize) s2)),
            snd (raw_iter_loop fuel (S i + hdr + N.to_nat datasize) (skipn (N.to_nat datasize) s2)))
    end.
Proof.
  cbn [raw_iter_loop]. destruct (78 <? bN b)%N; [destruct (raw_iter_loop fuel (S i) s1); reflexivity|].
  destruct (push_size (bN b) s1) as [[[l h] s2]|]; [|reflexivity]. destruct (blen s2 <? l)%N; [reflexivity|].
  destruct (raw_iter_loop fuel _ _); reflexivity.
Qed.

Lemma raw_loop_fuel fuel fuel' i s : List.length s < fuel -> List.length s < fuel' ->
  raw_iter_loop fuel i s = raw_iter_loop fuel' i s.
Proof.
  revert fuel' i s; induction fuel as [|fuel IH]; intros [|fuel'] i s H1 H2; try lia.
  cbn [raw_iter_loop]. destruct s as [|b s1]; [reflexivity|]. cbn [List.length] in *.
  destruct (78 <? bN b)%N; [rewrite (IH fuel') by lia; reflexivity|].
  destruct (push_size (bN b) s1) as [[[l h] s2]|] eqn:E; [|reflexivity].
  apply push_size_le in E. destruct (blen s2 <? l)%N eqn:E2; [reflexivity|].
  rewrite (IH fuel') by (rewrite skipn_length; lia). reflexivity.
Qed.

Lemma push_size_err op s e : push_size op s = Err e -> e = CScriptInvalidError.
Proof.
  unfold push_size. destruct (op <? 76)%N; [discriminate|].
  destruct (op =? 76)%N; [destruct s; congruence|].
  destruct (op =? 77)%N; [destruct s as [|? [|? ?]]; congruence|].
  destruct s as [|? [|? [|? [|? ?]]]]; congruence.
Qed.

Lemma raw_iter_err s e : snd (raw_iter s) = Some e -> e = CScriptInvalidError \/ e = CScriptTruncatedPushDataError.
Proof.
  unfold raw_iter. generalize (Nat.lt_succ_diag_r (List.length s)). generalize (S (List.length s)) as fuel. generalize 0 as i.
  intros i fuel. revert i s. induction fuel as [|fuel IH]; intros i s Hf; [lia|]. cbn [raw_iter_loop].
  destruct s as [|b s1]; [discriminate|]. cbn [List.length] in Hf.
  destruct (78 <? bN b)%N.
  - specialize (IH (S i) s1 ltac:(lia)). destruct (raw_iter_loop fuel (S i) s1). exact IH.
  - destruct (push_size (bN b) s1) as [[[l h] s2]|] eqn:E; [|intros H; inversion H; subst; left; eapply push_size_err; eauto].
    apply push_size_le in E. destruct (blen s2 <? l)%N eqn:E2; [intros H; inversion H; auto|].
    specialize (IH (S i + h + N.to_nat l) (skipn (N.to_nat l) s2) ltac:(rewrite skipn_length; lia)).
    destruct (raw_iter_loop _ _ _). exact IH.
Qed.

(** The raw iteration of one more item in front. *)
Definition raw_from i s := raw_iter_loop (S (List.length s)) i s.

Lemma raw_from_nil i : raw_from i [] = ([], None).
Proof. reflexivity. Qed.

Lemma raw_from_op i b s : (0x4e < bN b)%N ->
  raw_from i (b :: s) = ((bN b, None, i) :: fst (raw_from (S i) s), snd (raw_from (S i) s)).
Proof.
  intros H. unfold raw_from. cbn [List.length]. rewrite raw_loop_S. destruct (78 <? bN b)%N eqn:E; [|lia]. reflexivity.
Qed.

Lemma raw_from_push i d enc rest : (blen d < 2 ^ 32)%N -> encode_op_pushdata d = Ok enc ->
  raw_from i (enc ++ rest) = ((push_op (blen d), Some d, i) :: fst (raw_from (i + List.length enc) rest), snd (raw_from (i + List.length enc) rest)).
Proof.
  intros H E. destruct (push_encoded d H) as (b & hdr & E' & Hb & Hh & HP). rewrite E in E'. inversion E'; subst enc.
  unfold raw_from. cbn [app List.length]. rewrite raw_loop_S. pose proof (push_op_le (blen d)).
  destruct (78 <? bN b)%N eqn:E1; [lia|]. rewrite <- app_assoc, HP. rewrite blen_app. destruct (blen d + blen rest <? blen d)%N eqn:E2; [lia|].
  unfold blen. rewrite Nat2N.id, firstn_app, Nat.sub_diag, firstn_all, skipn_app, Nat.sub_diag, skipn_all.
  cbn [firstn skipn app]. rewrite app_nil_r, Hb. rewrite !app_length.
  rewrite (raw_loop_fuel _ (S (List.length rest))) by lia.
  unfold blen in Hh. replace (S i + push_hdr (N.of_nat (List.length d)) + List.length d) with (i + S (List.length hdr + List.length d)) by lia.
  reflexivity.
Qed.

(** ** Script numbers *)

Lemma size_bounds n : (0 < n -> 2 ^ (N.size n - 1) <= n < 2 ^ N.size n)%N.
Proof.
  intros H. rewrite N.size_log2 by lia. pose proof (N.log2_spec n H).
  replace (N.succ (N.log2 n) - 1)%N with (N.log2 n) by lia. exact H0.
Qed.

Lemma bn2bin_loop_len v i : List.length (bn2bin_loop v i) = i.
Proof. induction i as [|i IH]; cbn; congruence. Qed.

Lemma bin2bn_fold l acc : fold_left (fun l ch => N.lor (N.shiftl l 8) (bN ch)) l acc
  = (acc * 256 ^ blen l + bin2bn l)%N.
Proof.
  unfold bin2bn. revert acc. induction l as [|x l IH]; intros acc; cbn [fold_left]; [change (blen []) with 0%N; cbn; lia|].
  assert (S8 : forall a, N.lor (N.shiftl a 8) (bN x) = (a * 256 + bN x)%N).
  { intros a. rewrite N.lor_comm. pose proof (bN_lt x).
    rewrite N.shiftl_mul_pow2. change (2 ^ 8)%N with 256%N.
    assert (D : N.land (bN x) (a * 256) = 0%N).
    { change 256%N with (2 ^ 8)%N. apply N.bits_inj. intros k. rewrite N.land_spec, N.bits_0.
      destruct (N.lt_ge_cases k 8) as [L|L]; [rewrite N.mul_pow2_bits_low by exact L; apply andb_false_r|].
      destruct (N.eq_dec (bN x) 0) as [->|H0]; [rewrite N.bits_0; reflexivity|].
      rewrite N.bits_above_log2; [reflexivity|].
      assert (N.log2 (bN x) < 8)%N by (apply N.log2_lt_pow2; lia). lia. }
    rewrite <- N.lxor_lor by exact D. rewrite <- N.add_nocarry_lxor by exact D. lia. }
  rewrite S8, (IH (acc * 256 + bN x)%N), S8, (IH (0 * 256 + bN x)%N). rewrite blen_cons, N.pow_succ_r'. lia.
Qed.

Lemma bin2bn_cons x l : bin2bn (x :: l) = (bN x * 256 ^ blen l + bin2bn l)%N.
Proof. unfold bin2bn at 1. cbn [fold_left]. rewrite N.shiftl_0_l, N.lor_0_l. apply bin2bn_fold. Qed.

Lemma bin2bn_bn2bin_loop v i : bin2bn (bn2bin_loop v i) = (v mod 256 ^ N.of_nat i)%N.
Proof.
  induction i as [|i IH]; [cbn; rewrite N.mod_1_r; reflexivity|].
  cbn [bn2bin_loop]. rewrite bin2bn_cons, IH. unfold blen. rewrite bn2bin_loop_len.
  assert (N.land (N.shiftr v (N.of_nat i * 8)) 255 = (v / 256 ^ N.of_nat i) mod 256)%N as ->.
  { change 255%N with (N.ones 8). rewrite N.land_ones, N.shiftr_div_pow2. change (2 ^ 8)%N with 256%N.
    rewrite N.mul_comm, N.pow_mul_r. reflexivity. }
  rewrite bN_Nb_small by (apply N.mod_lt; lia).
  rewrite Nat2N.inj_succ, N.pow_succ_r'.
  assert (P : (256 ^ N.of_nat i <> 0)%N) by (apply N.pow_nonzero; lia).
  rewrite N.mul_comm with (n := 256%N). rewrite N.mod_mul_r by lia. rewrite (N.mul_comm _ (256 ^ N.of_nat i)). lia.
Qed.

Lemma bin2bn_bn2bin n : bin2bn (bn2bin n) = n.
Proof.
  unfold bn2bin. rewrite bin2bn_bn2bin_loop. apply N.mod_small. unfold bn_bytes, bit_length.
  rewrite Zabs2N.id. rewrite N2Nat.id.
  destruct (N.eq_dec n 0) as [->|H0]; [cbn; lia|].
  destruct (size_bounds n ltac:(lia)) as [_ H]. eapply N.lt_le_trans; [exact H|].
  change 256%N with (2 ^ 8)%N. rewrite <- N.pow_mul_r. apply N.pow_le_mono_r; lia.
Qed.

(** The leading byte of a positive number: non-zero, high bit set iff the bit
    length is a multiple of eight. *)
Lemma bn2bin_head n : (0 < n)%N -> exists b r, bn2bin n = b :: r /\ (bN b <> 0)%N /\
  ((N.size n mod 8 = 0)%N <-> (128 <= bN b)%N).
Proof.
  intros H. pose proof (bin2bn_bn2bin n) as V. destruct (size_bounds n H) as [B1 B2].
  assert (L : blen (bn2bin n) = ((N.size n + 7) / 8)%N).
  { unfold bn2bin, blen. rewrite bn2bin_loop_len. unfold bn_bytes, bit_length. rewrite Zabs2N.id. lia. }
  assert (S0 : (1 <= N.size n)%N) by (rewrite N.size_log2 by lia; lia).
  destruct (bn2bin n) as [|b r] eqn:E; [rewrite blen_nil in L; lia|]. rewrite blen_cons in L.
  exists b, r. split; [reflexivity|]. rewrite bin2bn_cons in V.
  assert (R : (bin2bn r < 256 ^ blen r)%N).
  { clear. induction r as [|x r IH]; [cbn; lia|]. rewrite bin2bn_cons, blen_cons, N.pow_succ_r'. pose proof (bN_lt x). nia. }
  assert (P : (256 ^ blen r)%N = (2 ^ (8 * blen r))%N) by (change 256%N with (2 ^ 8)%N; rewrite <- N.pow_mul_r; reflexivity).
  rewrite P in *. set (k := (8 * blen r)%N) in *.
  assert (K : (k <= N.size n - 1)%N) by lia.
  assert (Lo : (2 ^ k <= n)%N) by (eapply N.le_trans; [|exact B1]; apply N.pow_le_mono_r; lia).
  assert (Pk : (0 < 2 ^ k)%N) by (apply N.neq_0_lt_0, N.pow_nonzero; lia).
  split; [intros Z; rewrite Z in V; lia|].
  split.
  - intros M. assert (N.size n - 1 = k + 7)%N as E7 by lia. rewrite E7, N.pow_add_r in B1. change (2 ^ 7)%N with 128%N in B1.
    destruct (N.lt_ge_cases (bN b) 128) as [C|C]; [|lia]. exfalso.
    assert (bN b * 2 ^ k <= 127 * 2 ^ k)%N by (apply N.mul_le_mono_r; lia). lia.
  - intros M. destruct (N.eq_dec (N.size n mod 8) 0) as [|C]; [assumption|exfalso].
    assert (N.size n <= k + 7)%N by lia.
    assert (n < 2 ^ (k + 7))%N as U by (eapply N.lt_le_trans; [exact B2|apply N.pow_le_mono_r; lia]).
    rewrite N.pow_add_r in U. change (2 ^ 7)%N with 128%N in U.
    assert (128 * 2 ^ k <= bN b * 2 ^ k)%N by (apply N.mul_le_mono_r; lia). lia.
Qed.

Lemma bin2bn_zero_cons l : bin2bn (x00 :: l) = bin2bn l.
Proof. rewrite bin2bn_cons. change (bN x00) with 0%N. lia. Qed.

Lemma land7 n : N.land n 7 = (n mod 8)%N.
Proof. change 7%N with (N.ones 3). rewrite N.land_ones. reflexivity. Qed.

Lemma land_byte_128' b : (N.land (bN b) 128 =? 0)%N = (bN b <? 128)%N.
Proof.
  apply Bool.eqb_prop.
  apply (forall_bytes (fun b => Bool.eqb (N.land (bN b) 128 =? 0)%N (bN b <? 128)%N)).
  vm_compute. reflexivity.
Qed.

Lemma sign_sweep b : (bN b < 128)%N -> N.land (bN (Nb (N.lor (bN b) 128))) 127 = bN b /\ (128 <= bN (Nb (N.lor (bN b) 128)))%N.
Proof.
  intros H. assert (S := forall_bytes (fun b => implb (bN b <? 128)%N ((N.land (bN (Nb (N.lor (bN b) 128))) 127 =? bN b)%N && (128 <=? bN (Nb (N.lor (bN b) 128)))%N)) ltac:(vm_compute; reflexivity) b).
  cbn beta in S. destruct (bN b <? 128)%N eqn:E; [|lia]. cbn [implb] in S. lia.
Qed.

Definition vch_fits (v : Z) : Prop := (bn_bytes v true < 2 ^ 32)%N.

Lemma bn2vch_roundtrip v : vch_fits v -> exists s, bn2vch v = Ok s /\ vch2bn s = Ok v /\ (blen s < 2 ^ 32)%N.
Proof.
  intros F. unfold vch_fits in F. unfold bn2vch, bn2mpi_body.
  set (n := Z.abs_N v). assert (BL : bit_length v = N.size n) by reflexivity. rewrite BL.
  assert (Bb : forall e, bn_bytes (Z.of_N n) e = ((N.size n + 7) / 8 + (if e then 1 else 0))%N).
  { intros e. unfold bn_bytes, bit_length. rewrite Zabs2N.id. reflexivity. }
  unfold bn_bytes in F. rewrite BL in F.
  assert (LB : blen (bn2bin n) = ((N.size n + 7) / 8)%N).
  { unfold bn2bin, blen. rewrite bn2bin_loop_len, Bb. lia. }
  rewrite Bb. set (ext := ((0 <? N.size n)%N && (N.land (N.size n) 7 =? 0)%N)).
  destruct (_ + _ <? 2 ^ 32)%N eqn:E; [|destruct ext; lia]. cbn [bind].
  destruct (N.eq_dec n 0) as [N0|N0].
  { assert (v = 0%Z) by (unfold n in N0; lia). subst v. exists []. repeat split. }
  destruct (bn2bin_head n ltac:(lia)) as (b & r & Eb & Bnz & Bsz).
  assert (S0 : (1 <= N.size n)%N) by (rewrite N.size_log2 by lia; lia).
  assert (Xe : ext = (128 <=? bN b)%N).
  { unfold ext. rewrite land7. destruct (0 <? N.size n)%N eqn:E0; [|lia]. cbn [andb].
    destruct (128 <=? bN b)%N eqn:E1; [apply N.eqb_eq|apply N.eqb_neq]; rewrite Bsz; lia. }
  pose proof (bin2bn_bn2bin n) as V.
  destruct (v <? 0)%Z eqn:Hneg; destruct ext eqn:Hext; symmetry in Xe.
  - eexists. split; [reflexivity|]. split.
    + unfold vch2bn. assert (blen (rev (x80 :: bn2bin n)) < 2 ^ 32)%N by (unfold blen; rewrite rev_length; fold (blen (x80 :: bn2bin n)); rewrite blen_cons; lia).
      destruct (2 ^ 32 <=? _)%N eqn:E2; [lia|]. rewrite rev_involutive.
      change (Nb (N.land (bN x80) 127)) with x00. rewrite bin2bn_zero_cons, V. change (N.land (bN x80) 128 =? 0)%N with false. cbv iota. f_equal. unfold n. lia.
    + unfold blen. rewrite rev_length. fold (blen (x80 :: bn2bin n)). rewrite blen_cons. lia.
  - rewrite Eb. cbn [set_sign bind]. eexists. split; [reflexivity|].
    destruct (sign_sweep b ltac:(lia)) as [S1 S2].
    assert (LL : (blen (rev (Nb (N.lor (bN b) 128) :: r)) < 2 ^ 32)%N).
    { unfold blen. rewrite rev_length. cbn [List.length]. rewrite Eb in LB. unfold blen in LB. cbn [List.length] in LB. lia. }
    split; [|exact LL]. unfold vch2bn. destruct (2 ^ 32 <=? _)%N eqn:E2; [lia|]. rewrite rev_involutive.
    rewrite land_byte_128'. destruct (bN (Nb (N.lor (bN b) 128)) <? 128)%N eqn:E3; [lia|]. rewrite S1, Nb_bN, <- Eb, V. f_equal. unfold n. lia.
  - eexists. split; [reflexivity|].
    assert (LL : (blen (rev (x00 :: bn2bin n)) < 2 ^ 32)%N).
    { unfold blen. rewrite rev_length. fold (blen (x00 :: bn2bin n)). rewrite blen_cons. lia. }
    split; [|exact LL]. unfold vch2bn. destruct (2 ^ 32 <=? _)%N eqn:E2; [lia|]. rewrite rev_involutive.
    change (N.land (bN x00) 128 =? 0)%N with true. cbv iota. rewrite bin2bn_zero_cons, V. f_equal. unfold n. lia.
  - rewrite Eb. cbn [bind]. eexists. split; [reflexivity|].
    assert (LL : (blen (rev (b :: r)) < 2 ^ 32)%N).
    { rewrite <- Eb. unfold blen. rewrite rev_length. fold (blen (bn2bin n)). lia. }
    split; [|exact LL]. unfold vch2bn. destruct (2 ^ 32 <=? _)%N eqn:E2; [lia|]. rewrite rev_involutive.
    rewrite land_byte_128'. destruct (bN b <? 128)%N eqn:E3; [|lia]. rewrite <- Eb, V. f_equal. unfold n. lia.
Qed.

(** ** Building and parsing scripts *)

Lemma log2_abs_N z : Z.of_N (N.log2 (Z.abs_N z)) = Z.log2 (Z.abs z).
Proof. destruct z as [|p|p]; [reflexivity| |]; cbn; destruct p; reflexivity. Qed.

Lemma log2_fits z : (Z.log2 (Z.abs z) < 2 ^ 32)%Z -> vch_fits z.
Proof.
  intros H. unfold vch_fits, bn_bytes, bit_length.
  assert (N.size (Z.abs_N z) <= 2 ^ 32)%N; [|lia].
  destruct (N.eq_dec (Z.abs_N z) 0) as [->|N0]; [cbn; lia|]. rewrite N.size_log2 by exact N0.
  pose proof (log2_abs_N z). lia.
Qed.

(** What an item parses back as. *)
Definition parsed (x : sitem) : cooked :=
  match x with
  | IOp n => if ((0x51 <=? n) && (n <=? 0x60))%N then CInt (Z.of_N n - 0x50) else COp n
  | IInt z =>
    if (z =? 0)%Z then CData []
    else if ((1 <=? z) && (z <=? 16))%Z then CInt z
    else if (z =? -1)%Z then COp 0x4f
    else CData (match bn2vch z with Ok s => s | Err _ => [] end)
  | IData d => CData d
  end.

Lemma coerce_parses x i : wf_item x -> exists enc raw, coerce x = Ok enc /\ cook raw = parsed x /\
  forall rest, raw_from i (enc ++ rest) = (raw :: fst (raw_from (i + List.length enc) rest), snd (raw_from (i + List.length enc) rest)).
Proof.
  destruct x as [n|z|d]; cbn [wf_item coerce parsed]; intros W; [|apply log2_fits in W|].
  - exists [Nb n], (n, None, i). rewrite pybyte_ok by lia. cbn [bind]. split; [reflexivity|]. split.
    + unfold cook, is_small_int, decode_op_n. destruct (n =? 0)%N eqn:E; [lia|]. rewrite orb_false_r.
      destruct (_ && _)%N; [f_equal; lia|reflexivity].
    + intros rest. cbn [app List.length]. rewrite raw_from_op by (rewrite bN_Nb_small by lia; lia). rewrite bN_Nb_small by lia.
      replace (i + 1) with (S i) by lia. reflexivity.
  - destruct (z =? 0)%Z eqn:E0; [|destruct ((1 <=? z) && (z <=? 16))%Z eqn:E1; [|destruct (z =? -1)%Z eqn:E2]].
    + assert (z = 0%Z) by lia. subst z. cbn. exists [x00], (0%N, Some [], i). repeat split.
      intros rest. apply (raw_from_push i [] [x00] rest); reflexivity.
    + destruct ((0 <=? z) && (z <=? 16))%Z eqn:E; [|lia]. unfold encode_op_n. rewrite E, E0. cbn [negb bind].
      rewrite pybyte_ok by lia. cbn [bind]. set (n := Z.to_N (0x51 + z - 1)). exists [Nb n], (n, None, i). split; [reflexivity|].
      assert (Hn : (0x51 <= n <= 0x60)%N) by (unfold n; lia). split.
      * unfold cook, is_small_int, decode_op_n. destruct (n =? 0)%N eqn:En; [lia|]. replace ((81 <=? n)%N && (n <=? 96)%N) with true by lia. cbn [orb]. f_equal. unfold n. lia.
      * intros rest. cbn [app List.length]. rewrite raw_from_op by (rewrite bN_Nb_small by lia; lia). rewrite bN_Nb_small by lia.
        replace (i + 1) with (S i) by lia. reflexivity.
    + assert (z = (-1)%Z) by lia. subst z. exists [x4f], (0x4f%N, None, i). split; [reflexivity|]. split; [reflexivity|].
      intros rest. cbn [app List.length]. rewrite raw_from_op by (vm_compute; reflexivity). replace (i + 1) with (S i) by lia. reflexivity.
    + destruct ((0 <=? z) && (z <=? 16))%Z eqn:E; [lia|]. destruct (bn2vch_roundtrip z W) as (s & S1 & _ & S2).
      rewrite S1. cbn [bind]. destruct (push_encoded s S2) as (b & hdr & P & _). rewrite P.
      exists (b :: hdr ++ s), (push_op (blen s), Some s, i). repeat split. intros rest. apply (raw_from_push i s); assumption.
  - destruct (push_encoded d W) as (b & hdr & P & _). rewrite P.
    exists (b :: hdr ++ d), (push_op (blen d), Some d, i). repeat split. intros rest. apply (raw_from_push i d); assumption.
Qed.

Lemma script_parses l : Forall wf_item l -> exists s, cscript l = Ok s /\ script_iter s = (map parsed l, None).
Proof.
  intros HF.
  assert (G : forall i, exists s raws, cscript l = Ok s /\ raw_from i s = (raws, None) /\ map cook raws = map parsed l).
  { induction HF as [|x l Hx HF IH]; intros i; [exists [], []; repeat split|].
    destruct (coerce_parses x i Hx) as (enc & raw & C1 & C2 & C3).
    destruct (IH (i + List.length enc)) as (s & raws & S1 & S2 & S3).
    exists (enc ++ s), (raw :: raws). unfold cscript in *. cbn [objs_ser map]. rewrite C1. cbn [bind]. rewrite S1. cbn [bind].
    split; [reflexivity|]. rewrite C3, S2. cbn [fst snd]. split; [reflexivity|]. congruence. }
  destruct (G 0) as (s & raws & S1 & S2 & S3). exists s. split; [exact S1|]. unfold script_iter.
  change (raw_iter s) with (raw_from 0 s). rewrite S2, S3. reflexivity.
Qed.

Lemma script_parses_stable l : Forall stable_item l -> exists s cs, cscript l = Ok s /\ script_iter s = (cs, None) /\ Forall2 same_item l cs.
Proof.
  intros H. destruct (script_parses l) as (s & S1 & S2).
  - eapply Forall_impl; [|exact H]. intros [n|z|d]; cbn; [tauto| |tauto]. intros Hz.
    assert (Z.log2 (Z.abs z) <= Z.log2 16)%Z by (apply Z.log2_le_mono; lia). change (Z.log2 16) with 4%Z in *. lia.
  - exists s, (map parsed l). split; [exact S1|]. split; [exact S2|]. clear S1 S2.
    induction H as [|x l Hx H IH]; [constructor|]. cbn [map]. constructor; [|exact IH].
    destruct x as [n|z|d]; cbn in *; [|destruct z as [|p|p]; try lia|reflexivity].
    + destruct ((81 <=? n)%N && (n <=? 96)%N) eqn:E; [lia|reflexivity].
    + destruct ((1 <=? Z.pos p) && (Z.pos p <=? 16))%Z eqn:E; [reflexivity|lia].
Qed.

(** ** Script numbers against their specification *)

Lemma bin2bn_rev s : bin2bn (rev s) = le_dec s.
Proof.
  induction s as [|x s IH]; [reflexivity|]. cbn [rev le_dec]. unfold bin2bn. rewrite fold_left_app. cbn [fold_left].
  fold (bin2bn (rev s)). rewrite IH.
  change (N.lor (N.shiftl (le_dec s) 8) (bN x)) with (fold_left (fun l ch => N.lor (N.shiftl l 8) (bN ch)) [x] (le_dec s)).
  rewrite bin2bn_fold. change (blen [x]) with 1%N. rewrite bin2bn_cons. change (blen []) with 0%N. change (bin2bn []) with 0%N. lia.
Qed.

Lemma sign_clear b : (128 <= bN b)%N -> bN (Nb (N.land (bN b) 127)) = (bN b - 128)%N.
Proof.
  intros H. assert (S := forall_bytes (fun b => implb (128 <=? bN b)%N (bN (Nb (N.land (bN b) 127)) =? bN b - 128)%N) ltac:(vm_compute; reflexivity) b).
  cbn beta in S. destruct (128 <=? bN b)%N eqn:E; [|lia]. cbn [implb] in S. lia.
Qed.

Lemma vch2bn_meaning s : (blen s < 2 ^ 32)%N -> vch2bn s = Ok (scriptnum s).
Proof.
  intros H. unfold vch2bn, scriptnum. destruct (2 ^ 32 <=? _)%N eqn:E; [lia|].
  destruct (rev s) as [|b r] eqn:R; [reflexivity|]. rewrite land_byte_128'.
  pose proof (bin2bn_rev s) as V. rewrite R in V.
  destruct (bN b <? 128)%N eqn:B; [rewrite V; reflexivity|]. do 2 f_equal.
  rewrite bin2bn_cons, sign_clear by lia. rewrite bin2bn_cons in V.
  assert (L : List.length s = S (List.length r)) by (rewrite <- (rev_length s), R; reflexivity).
  rewrite L. unfold blen in *. set (k := List.length r) in *.
  assert (P : (2 ^ (8 * Z.of_nat (S k) - 1) = 128 * Z.of_N (256 ^ N.of_nat k))%Z).
  { rewrite N2Z.inj_pow. change (Z.of_N 256) with (2 ^ 8)%Z. rewrite <- Z.pow_mul_r by lia. change 128%Z with (2 ^ 7)%Z. rewrite <- Z.pow_add_r by lia. f_equal. lia. }
  rewrite P. set (q := (256 ^ N.of_nat k)%N) in *. rewrite <- V. 
  assert (128 <= bN b)%N by lia. nia.
Qed.

Lemma scriptnum_bound s : s <> [] -> (Z.abs (scriptnum s) < 2 ^ (8 * Z.of_nat (List.length s) - 1))%Z.
Proof.
  intros H. unfold scriptnum. destruct (rev s) as [|b r] eqn:R.
  { exfalso. apply H. rewrite <- (rev_involutive s), R. reflexivity. }
  pose proof (bin2bn_rev s) as V. rewrite R in V. rewrite bin2bn_cons in V.
  assert (L : List.length s = S (List.length r)) by (rewrite <- (rev_length s), R; reflexivity).
  assert (B : (bin2bn r < 256 ^ blen r)%N).
  { clear. induction r as [|x r IH]; [cbn; lia|]. rewrite bin2bn_cons, blen_cons, N.pow_succ_r'. pose proof (bN_lt x). nia. }
  rewrite L. unfold blen in *. set (k := List.length r) in *.
  assert (P : (2 ^ (8 * Z.of_nat (S k) - 1) = 128 * Z.of_N (256 ^ N.of_nat k))%Z).
  { rewrite N2Z.inj_pow. change (Z.of_N 256) with (2 ^ 8)%Z. rewrite <- Z.pow_mul_r by lia. change 128%Z with (2 ^ 7)%Z. rewrite <- Z.pow_add_r by lia. f_equal. lia. }
  rewrite P. set (q := (256 ^ N.of_nat k)%N) in *. rewrite <- V. pose proof (bN_lt b).
  destruct (bN b <? 128)%N eqn:E.
  - assert (bN b * q <= 127 * q)%N by (apply N.mul_le_mono_r; lia). lia.
  - assert (bN b * q <= 255 * q)%N by (apply N.mul_le_mono_r; lia). assert (128 * q <= bN b * q)%N by (apply N.mul_le_mono_r; lia). lia.
Qed.

Lemma bn2vch_len v s : bn2vch v = Ok s -> (v <> 0)%Z -> (Z.of_nat (List.length s) = (Z.log2 (Z.abs v) + 1) / 8 + 1)%Z.
Proof.
  unfold bn2vch, bn2mpi_body. intros H Hv.
  set (n := Z.abs_N v) in *. assert (BL : bit_length v = N.size n) by reflexivity. rewrite BL in H.
  assert (N0 : n <> 0%N) by (unfold n; lia).
  assert (SZ : Z.of_N (N.size n) = (Z.log2 (Z.abs v) + 1)%Z).
  { rewrite N.size_log2 by exact N0. pose proof (log2_abs_N v). fold n in H0. lia. }
  assert (Bb : forall e, bn_bytes (Z.of_N n) e = ((N.size n + 7) / 8 + (if e then 1 else 0))%N).
  { intros e. unfold bn_bytes, bit_length. rewrite Zabs2N.id. reflexivity. }
  assert (LB : N.of_nat (List.length (bn2bin n)) = ((N.size n + 7) / 8)%N).
  { unfold bn2bin. rewrite bn2bin_loop_len, Bb. lia. }
  rewrite land7, Bb in H.
  assert (S0 : (1 <= N.size n)%N) by (rewrite N.size_log2 by lia; lia).
  destruct (0 <? N.size n)%N eqn:E0; [|lia]. cbn [andb] in H.
  rewrite <- SZ. clear SZ. set (m := N.size n) in *. clearbody m.
  destruct (m mod 8 =? 0)%N eqn:E1; (match type of H with context[if ?c then Ok tt else _] => destruct c; [|discriminate] end); cbn [bind] in H;
    destruct (v <? 0)%Z.
  - cbn [bind] in H. inversion H; subst. cbn [rev]; rewrite ?app_length, ?rev_length; cbn [List.length]. lia.
  - cbn [bind] in H. inversion H; subst. cbn [rev]; rewrite ?app_length, ?rev_length; cbn [List.length]. lia.
  - destruct (bn2bin n) as [|b r]; [discriminate|]. cbn [set_sign bind] in H. inversion H; subst. cbn [rev]; rewrite ?app_length, ?rev_length; cbn [List.length] in *. lia.
  - cbn [bind] in H. inversion H; subst. rewrite rev_length. lia.
Qed.

Lemma bn2vch_shortest v s t : bn2vch v = Ok s -> scriptnum t = v -> List.length s <= List.length t.
Proof.
  intros H Ht. destruct (Z.eq_dec v 0) as [->|Hv].
  - cbn in H. inversion H; subst. cbn. lia.
  - pose proof (bn2vch_len v s H Hv) as L. assert (t <> []) by (intros ->; cbn in Ht; congruence).
    pose proof (scriptnum_bound t H0) as B. rewrite Ht in B.
    assert (0 < List.length t) by (destruct t; [congruence|cbn; lia]).
    assert (Z.log2 (Z.abs v) < 8 * Z.of_nat (List.length t) - 1)%Z by (apply Z.log2_lt_pow2; lia). lia.
Qed.

Lemma script_number_roundtrip v : (Z.log2 (Z.abs v) < 2 ^ 32)%Z -> exists s, bn2vch v = Ok s /\ vch2bn s = Ok v /\ scriptnum s = v /\
  forall t, scriptnum t = v -> List.length s <= List.length t.
Proof.
  intros H. destruct (bn2vch_roundtrip v (log2_fits v H)) as (s & S1 & S2 & S3). exists s. split; [exact S1|]. split; [exact S2|].
  split; [rewrite vch2bn_meaning in S2 by exact S3; congruence|]. intros t. apply bn2vch_shortest, S1.
Qed.

Lemma parsed_spec x : wf_item x -> parses_as x (parsed x).
Proof.
  destruct x as [n|z|d]; cbn [wf_item parses_as parsed]; intros W.
  - destruct (_ && _)%N; reflexivity.
  - destruct (z =? 0)%Z; [reflexivity|]. destruct (_ && _)%Z; [reflexivity|]. destruct (z =? -1)%Z; [reflexivity|].
    destruct (script_number_roundtrip z W) as (s & S1 & _ & S3 & _). rewrite S1. eauto.
  - reflexivity.
Qed.

Lemma script_parses_observed l : Forall wf_item l -> exists s cs, cscript l = Ok s /\ script_iter s = (cs, None) /\ Forall2 parses_as l cs.
Proof.
  intros H. destruct (script_parses l H) as (s & S1 & S2). exists s, (map parsed l). repeat split; auto. clear S1 S2.
  induction H as [|x l Hx H IH]; [constructor|]. cbn [map]. constructor; [apply parsed_spec, Hx|exact IH].
Qed.
