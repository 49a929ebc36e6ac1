(** Lemmas behind Mpi_Props.v. *)
From Verif Require Import Base Tx_Model Tx_Proofs Script_Model Script_Spec Script_Proofs ScriptEval_Spec ScriptEval_Proofs Mpi_Model Mpi_Spec.
From Coq Require Import ZifyBool ZifyNat ZifyN.

Lemma big_bin b : big b = bin2bn b.
Proof.
  assert (G : forall l a, fold_left (fun a x => 256 * a + bN x)%N l a = (a * 256 ^ blen l + bin2bn l)%N).
  { induction l as [|x l IH]; intros a; [change (blen []) with 0%N; change (bin2bn []) with 0%N; cbn [fold_left]; lia|].
    cbn [fold_left]. rewrite IH, bin2bn_cons, blen_cons, N.pow_succ_r'. lia. }
  unfold big. rewrite G. lia.
Qed.

Lemma big_le b : big b = le_dec (rev b).
Proof. rewrite big_bin, <- bin2bn_rev, rev_involutive. reflexivity. Qed.

Lemma signed_big_script b : signed_big b = scriptnum (rev b).
Proof. unfold signed_big, scriptnum. rewrite rev_involutive, rev_length, big_le. destruct b; reflexivity. Qed.

Lemma pack_be32_ok n : (n < 2 ^ 32)%N -> exists s, pack_be32 n = Ok s /\ List.length s = 4 /\ big s = n.
Proof.
  intros H. unfold pack_be32. destruct (pack_u_ok 4 (Z.of_N n)) as [P D]; [change (2 ^ (8 * Z.of_nat 4))%Z with (2 ^ 32)%Z; lia|].
  rewrite P. cbn [bind]. eexists. split; [reflexivity|]. split; [rewrite rev_length; apply le_enc_length|].
  rewrite big_le, rev_involutive, D. lia.
Qed.

Lemma pack_be32_err n : (2 ^ 32 <= n)%N -> pack_be32 n = Err StructError.
Proof. intros H. unfold pack_be32, pack_u. change (2 ^ (8 * Z.of_nat 4))%Z with (2 ^ 32)%Z. destruct (_ && _)%Z eqn:E; [lia|reflexivity]. Qed.

Lemma big_lt s : (big s < 256 ^ blen s)%N.
Proof. rewrite big_bin. induction s as [|x r IH]; [cbn; lia|]. rewrite bin2bn_cons, blen_cons, N.pow_succ_r'. pose proof (bN_lt x). nia. Qed.

Lemma big4 s : List.length s = 4 -> (big s < 2 ^ 32)%N.
Proof. intros L. pose proof (big_lt s) as B. unfold blen in B. rewrite L in B. exact B. Qed.

(** ** Reading *)

Lemma mpi2bn_app size body : List.length size = 4 -> mpi2bn (size ++ body) =
  if (big size =? blen body)%N then Some (signed_big body) else None.
Proof.
  intros L. unfold mpi2bn. assert (B : blen (size ++ body) = (4 + blen body)%N) by (unfold blen; rewrite app_length, L; lia).
  rewrite B. destruct (4 + blen body <? 4)%N eqn:E; [lia|]. clear E.
  assert (F : firstn 4 (size ++ body) = size) by (rewrite <- L, firstn_app, Nat.sub_diag, firstn_all, firstn_O, app_nil_r; reflexivity).
  assert (K : skipn 4 (size ++ body) = body) by (rewrite <- L, skipn_app, Nat.sub_diag, skipn_all; reflexivity).
  rewrite F, K, <- big_le.
  replace (4 + blen body =? big size + 4)%N with (big size =? blen body)%N by lia.
  destruct (big size =? blen body)%N eqn:E; [|reflexivity].
  assert (V : vch2bn (rev body) = Ok (scriptnum (rev body))).
  { apply vch2bn_meaning. unfold blen. rewrite rev_length. fold (blen body). pose proof (big4 _ L). lia. }
  unfold vch2bn in V. rewrite rev_involutive in V. rewrite signed_big_script.
  destruct (_ <=? _)%N in V; [discriminate|]. destruct body as [|x r]; [congruence|].
  destruct (N.land (bN x) 128 =? 0)%N; congruence.
Qed.

Lemma mpi2bn_iff s z : mpi2bn s = Some z <-> mpi s z.
Proof.
  split.
  - intros H. assert (L : (4 <= blen s)%N) by (unfold mpi2bn in H; destruct (blen s <? 4)%N eqn:E; [discriminate|lia]).
    assert (F : List.length (firstn 4 s) = 4) by (rewrite firstn_length; unfold blen in L; lia).
    rewrite <- (firstn_skipn 4 s), mpi2bn_app in H by exact F.
    destruct (_ =? _)%N eqn:E in H; [|discriminate]. exists (firstn 4 s), (skipn 4 s).
    split; [symmetry; apply firstn_skipn|]. split; [exact F|]. split; [lia|congruence].
  - intros (size & body & -> & L & B & V). rewrite mpi2bn_app by exact L. rewrite B, N.eqb_refl, V. reflexivity.
Qed.

(** ** Writing *)

Lemma bn2mpi_body_eq v : bn2mpi v = do b <- bn2mpi_body v; do s <- pack_be32 (blen b); Ok (s ++ b).
Proof.
  unfold bn2mpi, bn2mpi_body.
  set (n := Z.abs_N v).
  assert (A : (if (v <? 0)%Z then (- v)%Z else v) = Z.of_N n) by (unfold n; destruct (v <? 0)%Z eqn:E; lia).
  rewrite A, N2Z.id.
  set (e := (if (0 <? bit_length v)%N then (N.land (bit_length v) 7 =? 0)%N else false)).
  assert (Ee : ((0 <? bit_length v) && (N.land (bit_length v) 7 =? 0))%N = e) by (unfold e; destruct (0 <? bit_length v)%N; reflexivity).
  rewrite Ee. clear Ee.
  assert (L : (blen (bn2bin n) + (if e then 1 else 0) = bn_bytes (Z.of_N n) e)%N).
  { unfold blen, bn2bin. rewrite bn2bin_loop_len, N2Nat.id. unfold bn_bytes. lia. }
  destruct (bn_bytes (Z.of_N n) e <? 2 ^ 32)%N eqn:E.
  - destruct (pack_be32_ok (bn_bytes (Z.of_N n) e)) as (s & S & _); [lia|]. rewrite S. cbn [bind].
    destruct (v <? 0)%Z eqn:Nv.
    + destruct e.
      * assert (X : set_sign [x00] = Ok [x80]) by reflexivity. rewrite X. cbn [bind].
        rewrite blen_cons. replace (N.succ (blen (bn2bin n))) with (bn_bytes (Z.of_N n) true) by lia. rewrite S. reflexivity.
      * destruct (bn2bin n) as [|x r]; [reflexivity|]. cbn [set_sign bind app].
        replace (blen (Nb (N.lor (bN x) 128) :: r)) with (bn_bytes (Z.of_N n) false) by (rewrite blen_cons in *; lia).
        rewrite S. reflexivity.
    + destruct e; cbn [bind app].
      * rewrite blen_cons. replace (N.succ (blen (bn2bin n))) with (bn_bytes (Z.of_N n) true) by lia. rewrite S. reflexivity.
      * replace (blen (bn2bin n)) with (bn_bytes (Z.of_N n) false) by lia. rewrite S. reflexivity.
  - rewrite pack_be32_err by lia. reflexivity.
Qed.

Lemma bn2mpi_ok v : (Z.log2 (Z.abs v) < 2 ^ 32)%Z -> exists size body, bn2mpi v = Ok (size ++ body) /\ List.length size = 4 /\
  big size = blen body /\ bn2vch v = Ok (rev body) /\ signed_big body = v.
Proof.
  intros H. destruct (bn2vch_roundtrip v (log2_fits v H)) as (s & S1 & S2 & S3).
  rewrite bn2mpi_body_eq. unfold bn2vch in S1. destruct (bn2mpi_body v) as [b|] eqn:B; [|discriminate]. cbn [bind] in *.
  assert (s = rev b) as -> by congruence.
  assert (R : blen (rev b) = blen b) by (unfold blen; rewrite rev_length; reflexivity). rewrite R in S3.
  destruct (pack_be32_ok (blen b) S3) as (z & Z1 & Z2 & Z3). exists z, b. rewrite Z1. cbn [bind].
  split; [reflexivity|]. split; [exact Z2|]. split; [exact Z3|]. split; [unfold bn2vch; rewrite B; reflexivity|].
  rewrite signed_big_script. rewrite vch2bn_meaning in S2 by lia. congruence.
Qed.

Lemma bn2mpi_iff v m : (Z.log2 (Z.abs v) < 2 ^ 32)%Z ->
  bn2mpi v = Ok m <-> mpi m v /\ forall m', mpi m' v -> List.length m <= List.length m'.
Proof.
  intros H. destruct (bn2mpi_ok v H) as (size & body & M & L & B & C & V).
  pose proof (proj2 (number_iff v (rev body) H) C) as [N1 N2].
  assert (P : mpi (size ++ body) v) by (exists size, body; auto).
  assert (Q : forall m', mpi m' v -> List.length (size ++ body) <= List.length m').
  { intros m' (s' & b' & -> & L' & B' & V'). rewrite signed_big_script in V'. specialize (N2 _ V').
    rewrite !rev_length in N2. rewrite !app_length. lia. }
  rewrite M. split; [intros E; assert (m = size ++ body) as -> by congruence; split; [exact P|exact Q]|].
  intros [(s' & b' & -> & L' & B' & V') Z]. f_equal.
  assert (D : number v (rev b')).
  { split; [rewrite <- signed_big_script; exact V'|]. intros t T. specialize (N2 t T). specialize (Z _ P).
    rewrite !app_length in Z. rewrite rev_length in *. lia. }
  apply (number_iff v _ H) in D. rewrite C in D.
  assert (b' = body) as -> by (rewrite <- (rev_involutive b'), <- (rev_involutive body); congruence).
  f_equal. rewrite <- (rev_involutive size), <- (rev_involutive s').
  rewrite <- (le_enc_dec (rev size)), <- (le_enc_dec (rev s')), !rev_length, <- !big_le. congruence.
Qed.

(** ** The formats of scripts *)

Lemma skipn_size (size body : bytes) : List.length size = 4 -> skipn 4 (size ++ body) = body.
Proof. intros L. rewrite <- L, skipn_app, Nat.sub_diag, skipn_all. reflexivity. Qed.

Lemma bn2vch_mpi v : bn2vch v = do m <- bn2mpi v; Ok (mpi2vch m).
Proof.
  rewrite bn2mpi_body_eq. unfold bn2vch. destruct (bn2mpi_body v) as [b|e] eqn:B; [|reflexivity]. cbn [bind].
  assert (F : (blen b < 2 ^ 32)%N).
  { unfold bn2mpi_body in B. set (n := Z.abs_N v) in *.
    set (e := ((0 <? bit_length v) && (N.land (bit_length v) 7 =? 0))%N) in *.
    assert (L : (blen (bn2bin n) + (if e then 1 else 0) = bn_bytes (Z.of_N n) e)%N).
    { unfold blen, bn2bin. rewrite bn2bin_loop_len, N2Nat.id. unfold bn_bytes. lia. }
    destruct (bn_bytes (Z.of_N n) e <? 2 ^ 32)%N eqn:E; [|discriminate]. cbn [bind] in B.
    destruct (v <? 0)%Z; destruct e.
    - assert (b = x80 :: bn2bin n) as -> by congruence. rewrite blen_cons. lia.
    - destruct (bn2bin n) as [|x r]; [discriminate|]. cbn [set_sign] in B.
      assert (b = Nb (N.lor (bN x) 128) :: r) as -> by congruence. rewrite blen_cons in *. lia.
    - assert (b = x00 :: bn2bin n) as -> by congruence. rewrite blen_cons. lia.
    - assert (b = bn2bin n) as -> by congruence. lia. }
  destruct (pack_be32_ok _ F) as (s & S & L & _). rewrite S. cbn [bind]. unfold mpi2vch. rewrite skipn_size by exact L. reflexivity.
Qed.

Lemma vch2bn_mpi s : (blen s < 2 ^ 32)%N -> exists m z, vch2mpi s = Ok m /\ mpi2bn m = Some z /\ vch2bn s = Ok z /\ mpi2vch m = s.
Proof.
  intros H. destruct (pack_be32_ok _ H) as (p & P & L & B). exists (p ++ rev s), (scriptnum s).
  unfold vch2mpi. rewrite P. cbn [bind]. split; [reflexivity|].
  rewrite mpi2bn_app by exact L. unfold blen in B. rewrite <- (rev_length s) in B. unfold blen. rewrite B, N.eqb_refl.
  rewrite signed_big_script, rev_involutive. split; [reflexivity|]. split; [apply vch2bn_meaning, H|].
  unfold mpi2vch. rewrite skipn_size by exact L. apply rev_involutive.
Qed.

Lemma vch2mpi_long s : (2 ^ 32 <= blen s)%N -> vch2mpi s = Err StructError /\ vch2bn s = Err StructError.
Proof. intros H. unfold vch2mpi. rewrite pack_be32_err by exact H. unfold vch2bn. destruct (_ <=? _)%N eqn:E; [split; reflexivity|lia]. Qed.
