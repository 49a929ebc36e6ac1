(** Lemmas behind Final_Props.v. *)
From Verif Require Import Base Tx_Model Tx_Proofs Proof_Model Chain_Model Final_Model.
From Coq Require Import ZifyBool ZifyNat ZifyN.

Definition ones : bytes := [xff; xff; xff; xff].

Lemma ones_dec q : List.length q = 4 -> le_dec q = 0xffffffff%N <-> q = ones.
Proof.
  intros L. split; [|intros ->; reflexivity]. intros D. rewrite <- (le_enc_dec q), D, L. reflexivity.
Qed.

Lemma last4 (p q p' q' : bytes) : List.length q = List.length q' -> p ++ q = p' ++ q' -> q = q'.
Proof.
  intros L E. assert (List.length p = List.length p') as M by (apply (f_equal (@List.length _)) in E; rewrite !app_length in E; lia).
  apply (f_equal (skipn (List.length p))) in E. rewrite skipn_app, skipn_all, Nat.sub_diag in E.
  rewrite M, skipn_app, skipn_all, Nat.sub_diag in E. exact E.
Qed.

Lemma final_ser i e : txin_ser i = Ok e -> txin_is_final i = true <-> exists p, e = p ++ ones.
Proof.
  unfold txin_ser. destruct (outpoint_ser _) as [p|]; [|discriminate]. destruct (bytes_ser _) as [sc|]; [|discriminate]. cbn [bind].
  destruct (pack_u 4 _) as [q|] eqn:Q; [|discriminate]. cbn [bind]. intros E. assert (e = p ++ sc ++ q) as -> by congruence.
  apply pack_u_inv in Q. destruct Q as [R ->]. set (n := i_nSequence i) in *. unfold txin_is_final. fold n.
  assert (D : le_dec (le_enc 4 (Z.to_N n)) = Z.to_N n) by (apply pack_u_ok, R).
  assert (L : List.length (le_enc 4 (Z.to_N n)) = 4) by apply le_enc_length.
  change (2 ^ (8 * Z.of_nat 4))%Z with 4294967296%Z in R. split.
  - intros F. exists (p ++ sc). rewrite <- app_assoc. do 2 f_equal. apply ones_dec; [exact L|]. rewrite D. lia.
  - intros (p' & X). rewrite app_assoc in X. apply last4 in X; [|rewrite L; reflexivity]. apply (ones_dec _ L) in X. lia.
Qed.

(** Readers take bytes off the front. *)
Definition takes {A} (f : bytes -> result (A * bytes)) : Prop := forall s a r, f s = Ok (a, r) -> exists p, s = p ++ r.

Lemma ser_read_takes n : takes (ser_read n).
Proof. intros s a r H. apply ser_read_inv in H. exists a. apply H. Qed.

Lemma then_takes {A B} (f : bytes -> result (A * bytes)) (g : A -> bytes -> result (B * bytes)) :
  takes f -> (forall a, takes (g a)) -> takes (fun s => do (a, s) <- f s; g a s).
Proof.
  intros F G s b r H. destruct (f s) as [[a t]|] eqn:E; [|discriminate]. cbn [bind] in H.
  destruct (F _ _ _ E) as (p & ->). destruct (G _ _ _ _ H) as (p' & ->). exists (p ++ p'). apply app_assoc.
Qed.

Lemma done_takes {A} (a : A) : takes (fun s => Ok (a, s)).
Proof. intros s b r H. exists []. cbn. congruence. Qed.

Lemma varint_takes : takes varint_de.
Proof.
  apply (then_takes (ser_read 1)); [apply ser_read_takes|]. intros a. cbn beta zeta.
  destruct (le_dec a <? 0xfd)%N; [apply done_takes|].
  destruct (le_dec a =? 0xfd)%N; [apply (then_takes (ser_read 2)); [apply ser_read_takes|intros; apply done_takes]|].
  destruct (le_dec a =? 0xfe)%N; [apply (then_takes (ser_read 4)); [apply ser_read_takes|intros; apply done_takes]|].
  apply (then_takes (ser_read 8)); [apply ser_read_takes|intros; apply done_takes].
Qed.

Lemma bytes_takes : takes bytes_de.
Proof. apply (then_takes varint_de); [apply varint_takes|]. intros a. apply ser_read_takes. Qed.

Lemma outpoint_takes : takes outpoint_de.
Proof.
  apply (then_takes (ser_read 32)); [apply ser_read_takes|]. intros h. apply (then_takes (ser_read 4)); [apply ser_read_takes|].
  intros n s b r H. destruct (outpoint_new _ _) as [o|]; [|discriminate]. cbn [bind] in H. exists []. cbn. congruence.
Qed.

Lemma final_de s i r : txin_de s = Ok (i, r) -> txin_is_final i = true <-> exists p, s = p ++ ones ++ r.
Proof.
  unfold txin_de. destruct (outpoint_de s) as [[o s1]|] eqn:O; [|discriminate]. cbn [bind].
  destruct (bytes_de s1) as [[sc s2]|] eqn:B; [|discriminate]. cbn [bind].
  destruct (ser_read 4 s2) as [[q s3]|] eqn:Q; [|discriminate]. cbn [bind].
  unfold txin_new. destruct (negb _) eqn:C; [discriminate|]. cbn [bind]. intros E.
  assert (i = mkTxIn o sc (Z.of_N (le_dec q))) as -> by congruence. assert (s3 = r) as -> by congruence.
  destruct (outpoint_takes _ _ _ O) as (p1 & ->). destruct (bytes_takes _ _ _ B) as (p2 & ->).
  apply ser_read_inv in Q. destruct Q as (-> & L & _). assert (L4 : List.length q = 4) by (unfold blen in L; lia).
  unfold txin_is_final. cbn [i_nSequence]. split.
  - intros F. assert (q = ones) as -> by (apply ones_dec; [exact L4|lia]). exists (p1 ++ p2). rewrite <- app_assoc. reflexivity.
  - intros (p & X). rewrite !app_assoc in X. apply app_inv_tail in X. apply last4 in X; [|rewrite L4; reflexivity].
    subst q. reflexivity.
Qed.

Lemma close_final ct : forall seals ins, close_txins ct seals = Ok ins -> Forall (fun i => txin_is_final i = true) ins.
Proof.
  induction seals as [|s seals IH]; intros ins H; cbn [close_txins] in H.
  - assert (ins = []) as -> by congruence. constructor.
  - destruct (seal_outpoint ct s) as [o|]; [|discriminate]. cbn [bind] in H. unfold txin_new in H. cbn [Z.leb negb andb Z.compare] in H.
    cbn [bind] in H. destruct (close_txins ct seals) as [l|]; [|discriminate]. cbn [bind] in H.
    assert (ins = mkTxIn o [] 0xffffffff :: l) as -> by (vm_compute in H; congruence). constructor; [reflexivity|apply IH; reflexivity].
Qed.

Lemma close_length ct : forall seals ins, close_txins ct seals = Ok ins -> List.length ins = List.length seals.
Proof.
  induction seals as [|s seals IH]; intros ins H; cbn [close_txins] in H.
  - assert (ins = []) as -> by congruence. reflexivity.
  - destruct (seal_outpoint ct s) as [o|]; [|discriminate]. cbn [bind] in H. destruct (txin_new _ _ _) as [i|]; [|discriminate].
    cbn [bind] in H. destruct (close_txins ct seals) as [l|]; [|discriminate]. cbn [bind] in H.
    assert (ins = i :: l) as -> by congruence. cbn [List.length]. f_equal. apply IH. reflexivity.
Qed.

Lemma template_final ct digest seals meth dust t : make_close_seal_tx_template ct digest seals meth dust = Ok t ->
  List.length (t_vin t) = List.length seals /\ (forall i, In i (t_vin t) -> txin_is_final i = true) /\ t_nLockTime t = 0%Z.
Proof.
  unfold make_close_seal_tx_template. destruct (close_txout _ _ _) as [out|]; [|discriminate]. cbn [bind].
  destruct (close_txins ct seals) as [ins|] eqn:E; [|discriminate]. cbn [bind]. destruct out as [o|]; [|discriminate].
  intros H. assert (t = mkTx ins [o] 0 1) as -> by (unfold tx_new in H; cbn in H; congruence). cbn [t_vin t_nLockTime].
  split; [apply (close_length _ _ _ E)|]. split; [|reflexivity]. apply Forall_forall, (close_final _ _ _ E).
Qed.
