(** Proofs about signing and spending. *)
From Verif Require Import Base PySlice Sha256 Ripemd160 Hex_Model Tx_Model Tx_Spec Tx_Proofs Block_Model Script_Model SigHash_Model SigHash_Spec SigHash_Proofs.
From Verif Require Import ScriptEval_Model ScriptEval_Spec ScriptVerify_Spec Base58_Model Base58_Spec Base58_Proofs.
From Verif Require Import ScriptEval_Proofs ScriptSig_Proofs ScriptRun_Proofs ScriptVerify_Proofs ScriptUse_Proofs Key_Model Key_Spec Key_Proofs.

Lemma firstn_secret secret mem : List.length secret = 32 -> firstn 32 (secret ++ x00 :: mem) = secret.
Proof. intros E. rewrite firstn_app, E, Nat.sub_diag, firstn_O, app_nil_r, <- E. apply firstn_all. Qed.

(** The memory after the secret is not read if the secret is long enough. *)
Lemma refused_secret L mem secret c : List.length secret = 32 ->
  (ckey_new L mem secret c = Err ValueError <-> ec_derive L secret (ec_new L) = None) /\
  forall e, ckey_new L mem secret c = Err e -> e = ValueError.
Proof.
  intros Ls. unfold ckey_new, set_secretbytes. rewrite (firstn_secret secret mem Ls).
  destruct (ec_derive L secret (ec_new L)) as [k|]; cbn [bind]; split; try (split; congruence); intros e H; congruence.
Qed.

Lemma key_from_text L mem pr secret c : network pr -> List.length secret = 32 -> exists sec s,
  from_secret_bytes pr secret c = Ok sec /\ secret_str sec = Ok s /\ CBitcoinSecret pr s = Ok sec /\ secret_ckey L mem sec = ckey_new L mem secret c.
Proof.
  intros N Ls. destruct (secret_text pr secret c N Ls) as (sec & s & E1 & Ek & Ec & E2 & E3). exists sec, s.
  split; [exact E1|]. split; [exact E2|]. split; [exact E3|]. unfold secret_ckey. rewrite Ek, Ec. reflexivity.
Qed.

Lemma secret_alone L m1 m2 secret c : (31 <= List.length secret)%nat -> ckey_new L m1 secret c = ckey_new L m2 secret c.
Proof.
  intros H. unfold ckey_new, set_secretbytes.
  assert (E : firstn 32 (secret ++ x00 :: m1) = firstn 32 (secret ++ x00 :: m2)); [|rewrite E; reflexivity].
  change (secret ++ x00 :: m1) with (secret ++ [x00] ++ m1). change (secret ++ x00 :: m2) with (secret ++ [x00] ++ m2).
  rewrite !app_assoc, !firstn_app. assert (Z : 32 - List.length (secret ++ [x00]) = 0) by (rewrite app_length; cbn [List.length]; lia).
  rewrite Z. reflexivity.
Qed.

(** What comes after the first 32 bytes does not count. *)
Lemma secret_first L mem secret more c : List.length secret = 32 -> ckey_new L mem (secret ++ more) c = ckey_new L mem secret c.
Proof.
  intros H. unfold ckey_new, set_secretbytes. rewrite (firstn_secret secret mem H).
  rewrite <- app_assoc, firstn_app, H, Nat.sub_diag, firstn_O, app_nil_r, <- H, firstn_all. reflexivity.
Qed.

Lemma secret_long L m1 m2 secret c : (31 <= List.length secret)%nat ->
  ckey_new L m1 secret c = ckey_new L m2 secret c /\
  (List.length secret = 31 -> ckey_new L m1 secret c = ckey_new L m1 (secret ++ [x00]) c) /\
  (forall more, (32 <= List.length secret)%nat -> ckey_new L m1 (secret ++ more) c = ckey_new L m1 secret c).
Proof.
  intros H. split; [apply secret_alone, H|]. split.
  - intros E. assert (E' : List.length (secret ++ [x00]) = 32) by (rewrite app_length, E; reflexivity).
    unfold ckey_new, set_secretbytes. rewrite (firstn_secret (secret ++ [x00]) m1 E'), <- (firstn_secret (secret ++ [x00]) [] E'), <- !app_assoc. cbn [app].
    change (secret ++ x00 :: m1) with (secret ++ [x00] ++ m1). change (secret ++ [x00; x00]) with (secret ++ [x00] ++ [x00]).
    rewrite !app_assoc, !(firstn_app 32 (secret ++ [x00])), E', Nat.sub_diag, !firstn_O. reflexivity.
  - intros more E. unfold ckey_new, set_secretbytes. rewrite <- app_assoc, !firstn_app.
    replace (32 - List.length secret) with 0 by lia. rewrite !firstn_O. reflexivity.
Qed.

Section Lib.
Context (G : curve) (L : openssl) (M : library G L).

(** What is known about the object made from a secret. *)
Definition good (s : bytes) (p : point G) (c : bool) (k : ckey L) : Prop :=
  p_bytes L (pub L k) = point_text G c p /\ is_fullyvalid L (pub L k) = true /\
  held_secret G L M (p_key L (pub L k)) = Some s /\ held_point G L M (p_key L (pub L k)) = Some p.

Lemma key_made mem s p c : List.length s = 32 -> point_of G s = Some p -> exists k, ckey_new L mem s c = Ok k /\ good s p c k.
Proof.
  intros Ls Hp. unfold ckey_new, set_secretbytes. rewrite (firstn_secret s mem Ls).
  destruct (derive_law G L M s (ec_new L) p Hp) as (k & -> & Hs & Hpt & _). cbn [bind].
  destruct (form_law G L M c k) as (Fs & Fp & Ff).
  assert (W : ec_i2o L (ec_form L c k) = point_text G c p).
  { rewrite (write_law G L M (ec_form L c k) p) by (rewrite Fp; exact Hpt). rewrite Ff. reflexivity. }
  rewrite W. unfold pubkey_of.
  destruct (read_law G L M (point_text G c p) (ec_form L c k) p (point_read G c p)) as (k' & -> & Rs & Rp).
  eexists. split; [reflexivity|]. repeat split; cbn [pub p_bytes p_key is_fullyvalid]; [|exact Rp]. rewrite Rs, Fs. exact Hs.
Qed.

Lemma good_unique mem s p c k : List.length s = 32 -> point_of G s = Some p -> ckey_new L mem s c = Ok k -> good s p c k.
Proof. intros Ls Hp E. destruct (key_made mem s p c Ls Hp) as (k' & E' & Gk). congruence. Qed.

Lemma verifies_iff k p h sig : held_point G L M k = Some p -> ec_verifies L k h sig = true <-> valid_sig G p h sig.
Proof. intros H. unfold ec_verifies. rewrite Z.eqb_eq. exact (verify_law G L M k p h sig H). Qed.

Lemma read_verifies b p h sig : read_point G b = Some p -> pub_verify L (CPubKey L b) h sig = true <-> valid_sig G p h sig.
Proof.
  intros H. unfold pub_verify, CPubKey, pubkey_of. destruct (read_law G L M b (ec_new L) p H) as (k & -> & _ & Hk). cbn [p_key].
  apply verifies_iff, Hk.
Qed.

Lemma script_verifies b p h sig : read_point G b = Some p -> script_ecdsa L b h sig = true <-> valid_sig G p h sig.
Proof.
  intros H. unfold script_ecdsa. destruct (read_law G L M b (ec_new L) p H) as (k & -> & _ & Hk). cbn [snd].
  apply verifies_iff, Hk.
Qed.

Lemma sign_cases s p c k h r : good s p c k -> point_of G s = Some p ->
  (List.length h <> 32 /\ sign L k h r = Err ValueError) \/
  (List.length h = 32 /\ sign L k h r = Err AssertionError /\ ec_sign L (p_key L (pub L k)) h r = None) \/
  (List.length h = 32 /\ exists sig, sign L k h r = Ok sig /\ valid_sig G p h sig /\ (blen sig <= 72)%N).
Proof.
  intros (_ & _ & Hs & _) Hp. unfold sign. destruct (blen h =? 32)%N eqn:E; cbn [negb].
  - right. assert (Lh : List.length h = 32) by (unfold blen in E; lia).
    destruct (ec_sign L (p_key L (pub L k)) h r) as [sig|] eqn:S; [right|left; auto].
    split; [exact Lh|]. exists sig. split; [reflexivity|]. exact (sign_law G L M _ s p h r sig Hs Hp Lh S).
  - left. split; [unfold blen in E; lia|reflexivity].
Qed.

Lemma sign_ok s p c k h r sig : good s p c k -> point_of G s = Some p -> sign L k h r = Ok sig ->
  List.length h = 32 /\ valid_sig G p h sig /\ (blen sig <= 72)%N.
Proof.
  intros Hg Hp S. destruct (sign_cases s p c k h r Hg Hp) as [(_ & E)|[(_ & E & _)|(Lh & sig' & E & V)]]; [congruence|congruence|].
  rewrite E in S. injection S as <-. auto.
Qed.

(** A signature made for [t] counts in every transaction with the same signature hash. *)
Lemma signed_elsewhere s p c k r sig sc t t' i i' x h : good s p c k -> point_of G s = Some p -> wf_tx t' ->
  SignatureHash sc t (Z.of_nat i) (Z.of_N (bN x)) = Ok h ->
  RawSignatureHash sc t' (Z.of_nat i') (Z.of_N (bN x)) = RawSignatureHash sc t (Z.of_nat i) (Z.of_N (bN x)) ->
  sign L k h r = Ok sig -> signed_by (script_ecdsa L) t' i' sc (p_bytes L (pub L k)) (sig ++ [x]).
Proof.
  intros Hg Hp W' SH Raw S. destruct (sign_ok s p c k h r sig Hg Hp S) as (_ & V & _).
  exists sig, x. split; [reflexivity|]. left.
  assert (SH' : SignatureHash sc t' (Z.of_nat i') (Z.of_N (bN x)) = Ok h) by (unfold SignatureHash in *; rewrite Raw; exact SH).
  assert (B : (0 <= Z.of_N (bN x) < 2 ^ 32)%Z) by (pose proof (bN_lt x); lia).
  apply (SignatureHash_iff sc t' i' (Z.of_N (bN x)) h W' B) in SH'. destruct SH' as (m & Hm & ->). exists m. split; [exact Hm|].
  destruct Hg as (Eb & _). rewrite Eb. apply (script_verifies _ p); [apply point_read|exact V].
Qed.

Lemma hash_index sc t i x h : SignatureHash sc t (Z.of_nat i) x = Ok h -> (i < List.length (t_vin t))%nat.
Proof.
  unfold SignatureHash, RawSignatureHash. destruct (Z.of_nat (List.length (t_vin t)) <=? Z.of_nat i)%Z eqn:E; [discriminate|]. intros _. lia.
Qed.

Lemma key_length s p c k : good s p c k -> List.length (p_bytes L (pub L k)) = if c then 33 else 65.
Proof. intros (E & _). rewrite E. apply point_length. Qed.

Lemma key_short s p c k : good s p c k -> (blen (p_bytes L (pub L k)) <= 65)%N.
Proof. intros H. apply key_length in H. unfold blen. rewrite H. destruct c; lia. Qed.

Lemma two_pushes a b : (blen a <= 75)%N -> (blen b <= 75)%N -> cscript [IData a; IData b] = Ok (short_push a ++ short_push b).
Proof.
  intros A B. unfold cscript. cbn [objs_ser coerce]. rewrite !enc_ok by lia. cbn [bind]. rewrite !enc_short by assumption. rewrite app_nil_r. reflexivity.
Qed.

Lemma p2pkh_spends s p c k r sig t t' i i' x h ss flags : good s p c k -> point_of G s = Some p -> wf_tx t' ->
  SignatureHash (p2pkh_script (Hash160 (p_bytes L (pub L k)))) t (Z.of_nat i) (Z.of_N (bN x)) = Ok h ->
  RawSignatureHash (p2pkh_script (Hash160 (p_bytes L (pub L k)))) t' (Z.of_nat i') (Z.of_N (bN x)) =
  RawSignatureHash (p2pkh_script (Hash160 (p_bytes L (pub L k)))) t (Z.of_nat i) (Z.of_N (bN x)) ->
  (i' < List.length (t_vin t'))%nat ->
  sign L k h r = Ok sig -> sig ++ [x] <> Hash160 (p_bytes L (pub L k)) -> cscript [IData (sig ++ [x]); IData (p_bytes L (pub L k))] = Ok ss ->
  VerifyScript (script_ecdsa L) ss (p2pkh_script (Hash160 (p_bytes L (pub L k)))) t' (Z.of_nat i') flags = Ok tt.
Proof.
  intros Hg Hp W' SH Raw Len S NE CS. destruct (sign_ok s p c k h r sig Hg Hp S) as (_ & _ & Ls).
  pose proof (key_short s p c k Hg) as Lk.
  assert (L1 : (blen (sig ++ [x]) <= 75)%N) by (unfold blen in *; rewrite app_length; cbn [List.length]; lia).
  rewrite two_pushes in CS by (try exact L1; lia). injection CS as <-.
  apply Verify_p2pkh; [exact W'|lia|apply Hash160_length|exact L1|lia|].
  split; [reflexivity|]. eexists. split; [split; [intros _; reflexivity|intros E; contradiction]|].
  exact (signed_elsewhere s p c k r sig _ t t' i i' x h Hg Hp W' SH Raw S).
Qed.

(** ** Pay to script hash, with a script that asks for one key *)

Definition key_script (pk : bytes) : bytes := short_push pk ++ [xac].
Definition key_ops (pk : bytes) : list operation := [Op (blen pk) (Some pk) (short_push pk); Op 0xac None [xac]].

Lemma key_reads pk : (blen pk <= 75)%N -> reads_as (key_script pk) (key_ops pk).
Proof.
  clear M. intros H. split; [|reflexivity].
  constructor; [apply short_spelled, H|]. constructor; [apply (spelled_plain xac); cbv; reflexivity|constructor].
Qed.

Lemma key_cscript pk : (blen pk <= 75)%N -> cscript [IData pk; IOp 0xac] = Ok (key_script pk).
Proof.
  clear M. intros H. unfold cscript. cbn [objs_ser coerce]. rewrite enc_ok by lia. cbn [bind]. rewrite enc_short by assumption. reflexivity.
Qed.

Lemma key_script_length pk : blen (key_script pk) = (blen pk + 2)%N.
Proof. clear M. unfold key_script, short_push, blen. cbn [app List.length]. rewrite app_length. cbn [List.length]. lia. Qed.

Lemma key_signed sig pk : (blen pk <= 75)%N -> (blen sig <= 75)%N -> sig <> pk -> signed_script [sig] (key_ops pk) (key_script pk).
Proof.
  clear M. intros Hk Hs NE. assert (F : Forall (fun a => (blen a < 2 ^ 32)%N) [sig]) by (constructor; [lia|constructor]).
  apply signed_script_iff; [exact F|]. unfold key_ops. cbn [filter]. rewrite keep_short by assumption. rewrite keep_plain by (try exact F; cbv; reflexivity).
  cbn [existsb]. replace (bytes_eqb pk sig) with false by (symmetry; apply bytes_eqb_neq; congruence). reflexivity.
Qed.

Lemma p2sh_spends s p c k r sig t t' i i' x h ss flags : good s p c k -> point_of G s = Some p -> wf_tx t' -> In EvalP2SH flags ->
  SignatureHash (key_script (p_bytes L (pub L k))) t (Z.of_nat i) (Z.of_N (bN x)) = Ok h ->
  RawSignatureHash (key_script (p_bytes L (pub L k))) t' (Z.of_nat i') (Z.of_N (bN x)) =
  RawSignatureHash (key_script (p_bytes L (pub L k))) t (Z.of_nat i) (Z.of_N (bN x)) ->
  (i' < List.length (t_vin t'))%nat ->
  sign L k h r = Ok sig -> sig ++ [x] <> p_bytes L (pub L k) -> cscript [IData (sig ++ [x]); IData (key_script (p_bytes L (pub L k)))] = Ok ss ->
  VerifyScript (script_ecdsa L) ss (p2sh_script (Hash160 (key_script (p_bytes L (pub L k))))) t' (Z.of_nat i') flags = Ok tt.
Proof.
  intros Hg Hp W' Fl SH Raw Len S NE CS. destruct (sign_ok s p c k h r sig Hg Hp S) as (_ & _ & Ls).
  pose proof (key_short s p c k Hg) as Lk. set (pk := p_bytes L (pub L k)) in *.
  assert (L1 : (blen (sig ++ [x]) <= 75)%N) by (unfold blen in *; rewrite app_length; cbn [List.length]; lia).
  assert (L2 : (blen (key_script pk) <= 75)%N) by (rewrite key_script_length; lia).
  rewrite two_pushes in CS by assumption. assert (ss = short_push (sig ++ [x]) ++ short_push (key_script pk)) as -> by congruence.
  assert (F : Forall (fun k => (blen k <= 75)%N) [sig ++ [x]; key_script pk]) by (repeat constructor; assumption).
  assert (E : short_push (sig ++ [x]) ++ short_push (key_script pk) = concat (map short_push [sig ++ [x]; key_script pk]))
    by (cbn [map concat]; rewrite app_nil_r; reflexivity).
  rewrite E. apply Verify_p2sh; [exact W'|lia|apply Hash160_length|exact Fl|]. split; [apply short_pushes_only, F|].
  exists (key_script pk), [sig ++ [x]], [[x01]]. split; [apply evaluates_pushes; [exact F|cbn [List.length]; lia|reflexivity]|].
  split; [cbn [List.length]; lia|]. split; [reflexivity|].
  assert (V : verdict (signed_by (script_ecdsa L) t' i' (key_script pk) pk (sig ++ [x])) [x01]).
  { left. split; [|reflexivity]. exact (signed_elsewhere s p c k r sig _ t t' i i' x h Hg Hp W' SH Raw S). }
  split; [|apply (accepting_verdict _ _ _ V); exact (signed_elsewhere s p c k r sig _ t t' i i' x h Hg Hp W' SH Raw S)].
  apply (evaluates_ops _ _ _ _ _ (key_ops pk)); [apply key_reads; lia|rewrite key_script_length; lia|].
  exists [], (key_ops pk), 1%Z. unfold key_ops at 1. apply runs_cons_iff. eexists. split; [apply step_push_iff; split; [lia|reflexivity]|].
  apply runs_cons_iff. eexists. split; [|apply runs_nil_iff; reflexivity].
  apply step_checksig_iff. exists pk, (sig ++ [x]), [], (key_script pk), [x01]. split; [reflexivity|].
  split; [apply key_signed; [lia|exact L1|exact NE]|]. split; [exact V|]. split; [lia|]. split; [reflexivity|]. unfold room. cbn [ScriptEval_Spec.main ScriptEval_Spec.side List.length]. lia.
Qed.
End Lib.

Lemma hash_made s t i ht ops : wf_tx t -> wf_script s -> reads_as s ops -> (i < List.length (t_vin t))%nat -> (0 <= ht < 2 ^ 32)%Z -> base ht <> 3%Z ->
  exists h, SignatureHash s t (Z.of_nat i) ht = Ok h /\ List.length h = 32.
Proof.
  intros W Ws R Hi B N3. assert (C : exists chunks, splits chunks s) by (apply splits_iff, reads_exists; eauto).
  destruct (signs_total s t i ht W Ws C Hi) as [m Hm]; [contradiction|]. exists (Hash m). split; [|apply Hash_length].
  apply SignatureHash_iff; [exact W|exact B|]. eauto.
Qed.

Lemma unsigned_wf txid vout value spk ss t : List.length txid = 32 -> (0 <= vout < 2 ^ 32)%Z -> (- 2 ^ 63 <= value < 2 ^ 63)%Z ->
  wf_script spk -> wf_script ss -> moves txid vout value spk ss t -> wf_tx t.
Proof.
  intros L1 V A S1 S2 (Ei & Eo & El & Ev). unfold wf_tx. rewrite Ei, Eo, El, Ev. cbn [List.length].
  split; [constructor; [|constructor]|split; [constructor; [|constructor]|lia]].
  - split; [split; assumption|]. cbn [i_scriptSig i_nSequence]. split; [exact S2|lia].
  - split; assumption.
Qed.

Lemma outpoint_made txid vout : List.length txid = 32 -> (0 <= vout < 2 ^ 32)%Z -> outpoint_new txid vout = Ok (mkOutPoint txid vout).
Proof.
  intros L1 V. unfold outpoint_new. replace (blen txid =? 32)%N with true by (unfold blen; lia). cbn [negb].
  replace ((0 <=? vout) && (vout <=? 4294967295))%Z with true by lia. reflexivity.
Qed.

Lemma script_of_short c h : List.length h = 20 -> wf_script (script_of c h).
Proof.
  intros H. unfold wf_script, blen, MAX_SIZE. destruct c; cbn [script_of]; unfold p2sh_script, p2pkh_script; rewrite !app_length, ?H; cbn [List.length]; lia.
Qed.

Section Programs.
Context (G : curve) (L : openssl) (M : library G L).

Lemma p2pkh_program mem rnd h p txid vout value addr c d :
  List.length h = 32 -> point_of G h = Some p -> List.length txid = 32 -> (0 <= vout < 2 ^ 32)%Z -> (- 2 ^ 63 <= value < 2 ^ 63)%Z ->
  List.length d = 20 -> address_str (Address c (version_of mainnet c) d) = Ok addr ->
  (forall k e sig, ec_sign L k e rnd = Some sig -> sig ++ [x01] <> Hash160 (point_text G true p)) ->
  (spend_p2pkh L mem rnd h txid vout value addr = Err AssertionError /\ exists k e, ec_sign L k e rnd = None) \/
  (exists t ss b, spend_p2pkh L mem rnd h txid vout value addr = Ok (to_hex b) /\ tx_de b = Ok (t, []) /\
     moves txid vout value (script_of c d) ss t /\
     forall flags, VerifyScript (script_ecdsa L) ss (p2pkh_script (Hash160 (point_text G true p))) t 0 flags = Ok tt).
Proof.
  intros Lh Hp Lt V A Ld Ea NE. assert (Hn : network mainnet) by (left; reflexivity).
  unfold spend_p2pkh.
  destruct (secret_text mainnet h true Hn Lh) as (sec & _ & -> & Ek & Ec & _). cbn [bind].
  unfold secret_ckey. rewrite Ek, Ec. destruct (key_made G L M mem h p true Lh Hp) as (k & -> & Hg). cbn [bind].
  pose proof Hg as (Eb & _). rewrite outpoint_made by assumption. cbn [bind].
  change (txin_new (mkOutPoint txid vout) [] 4294967295) with (Ok (mkTxIn (mkOutPoint txid vout) [] 4294967295)). cbn [bind].
  rewrite p2pkh_cscript by apply Hash160_length. cbn [bind].
  destruct (address_text_roundtrip mainnet c d Hn) as (a' & Ea' & Ra). rewrite Ea in Ea'. injection Ea' as <-. rewrite Ra. cbn [bind].
  rewrite to_script by exact Ld. cbn [bind].
  set (t0 := mkTx [mkTxIn (mkOutPoint txid vout) [] 4294967295] [mkTxOut value (script_of c d)] 0 1).
  change (tx_new _ _ 0 1) with (Ok t0). cbn [bind].
  assert (W0 : wf_tx t0) by (apply (unsigned_wf txid vout value (script_of c d) []); auto using script_of_short; [cbv; discriminate|repeat split]).
  destruct (hash_made (p2pkh_script (Hash160 (p_bytes L (pub L k)))) t0 0 1 _ W0 (script_of_short P2PKH _ (Hash160_length _)) (p2pkh_reads _ (Hash160_length _))) as (e & Ee & Le);
    [cbn; lia|lia|cbv; discriminate|].
  change (Z.of_nat 0) with 0%Z in Ee. rewrite Ee. cbn [bind].
  destruct (sign_cases G L M h p true k e rnd Hg Hp) as [(NL & _)|[(_ & -> & Es)|(_ & sig & Es & _ & Ls)]]; [contradiction|left; split; [reflexivity|eauto]|].
  assert (NE' : sig ++ [x01] <> Hash160 (p_bytes L (pub L k))).
  { rewrite Eb. unfold sign in Es. destruct (negb _); [discriminate|]. destruct (ec_sign L _ e rnd) as [sg|] eqn:Q; [|discriminate]. injection Es as <-. eapply NE, Q. }
  right. rewrite Es. cbn [bind]. cbv zeta.
  pose proof (key_short G L M h p true k Hg) as Lk.
  assert (L1 : (blen (sig ++ [x01]) <= 75)%N) by (unfold blen in *; rewrite app_length; cbn [List.length]; lia).
  pose proof (two_pushes (sig ++ [x01]) (p_bytes L (pub L k)) L1 ltac:(lia)) as CS. rewrite CS. cbn [bind].
  set (ss := short_push (sig ++ [x01]) ++ short_push (p_bytes L (pub L k))) in *.
  set (t1 := fill_in t0 ss).
  assert (Wss : wf_script ss).
  { unfold ss, wf_script, MAX_SIZE, short_push, blen in *. rewrite app_length. cbn [List.length]. lia. }
  assert (Mv : moves txid vout value (script_of c d) ss t1) by (repeat split).
  assert (W1 : wf_tx t1) by (apply (unsigned_wf txid vout value (script_of c d) ss); auto using script_of_short).
  assert (Ver : forall flags, VerifyScript (script_ecdsa L) ss (p2pkh_script (Hash160 (p_bytes L (pub L k)))) t1 0 flags = Ok tt).
  { intros flags. apply (p2pkh_spends G L M h p true k rnd sig t0 t1 0 0 x01 e ss flags Hg Hp W1 Ee); auto.
    apply Raw_same. repeat split. }
  rewrite Ver. cbn [bind]. destruct (tx_codec t1 W1) as (b & Eb1 & Db). rewrite Eb1. cbn [bind].
  exists t1, ss, b. split; [reflexivity|]. specialize (Db []). rewrite app_nil_r in Db. split; [exact Db|]. split; [exact Mv|].
  rewrite <- Eb. exact Ver.
Qed.

Lemma p2sh_program mem rnd h p txid vout value addr c d :
  List.length h = 32 -> point_of G h = Some p -> List.length txid = 32 -> (0 <= vout < 2 ^ 32)%Z -> (- 2 ^ 63 <= value < 2 ^ 63)%Z ->
  List.length d = 20 -> address_str (Address c (version_of mainnet c) d) = Ok addr ->
  (forall k e sig, ec_sign L k e rnd = Some sig -> sig ++ [x01] <> point_text G true p) ->
  (spend_p2sh L mem rnd h txid vout value addr = Err AssertionError /\ exists k e, ec_sign L k e rnd = None) \/
  (exists t ss b payto, spend_p2sh L mem rnd h txid vout value addr = Ok (to_hex (x21 :: point_text G true p ++ [xac]), payto, to_hex b) /\
     address_str (Address P2SH (version_of mainnet P2SH) (Hash160 (x21 :: point_text G true p ++ [xac]))) = Ok payto /\
     tx_de b = Ok (t, []) /\ moves txid vout value (script_of c d) ss t /\
     VerifyScript (script_ecdsa L) ss (p2sh_script (Hash160 (x21 :: point_text G true p ++ [xac]))) t 0 [EvalP2SH] = Ok tt).
Proof.
  intros Lh Hp Lt V A Ld Ea NE. assert (Hn : network mainnet) by (left; reflexivity).
  unfold spend_p2sh.
  destruct (secret_text mainnet h true Hn Lh) as (sec & _ & -> & Ek & Ec & _). cbn [bind].
  unfold secret_ckey. rewrite Ek, Ec. destruct (key_made G L M mem h p true Lh Hp) as (k & -> & Hg). cbn [bind].
  pose proof Hg as (Eb & _). pose proof (key_short G L M h p true k Hg) as Lk.
  rewrite key_cscript by lia. cbn [bind].
  set (redeem := key_script (p_bytes L (pub L k))).
  assert (Er : redeem = x21 :: point_text G true p ++ [xac]).
  { unfold redeem, key_script, short_push. rewrite Eb. unfold blen. rewrite point_length. change (Nb (N.of_nat 33)) with x21. reflexivity. }
  assert (Lr : (blen redeem <= 75)%N) by (unfold redeem; rewrite key_script_length; lia).
  unfold to_p2sh_scriptPubKey. replace (520 <? blen redeem)%N with false by lia. cbn [andb].
  rewrite p2sh_cscript by apply Hash160_length. cbn [bind].
  rewrite (from_script_complete mainnet _ P2SH (Hash160 redeem) Hn) by (apply pays_script; [reflexivity|apply Hash160_length]). cbn [bind].
  destruct (address_text_roundtrip mainnet P2SH (Hash160 redeem) Hn) as (payto & Epay & _). rewrite Epay. cbn [bind].
  rewrite outpoint_made by assumption. cbn [bind].
  change (txin_new (mkOutPoint txid vout) [] 4294967295) with (Ok (mkTxIn (mkOutPoint txid vout) [] 4294967295)). cbn [bind].
  destruct (address_text_roundtrip mainnet c d Hn) as (a' & Ea' & Ra). rewrite Ea in Ea'. injection Ea' as <-. rewrite Ra. cbn [bind].
  rewrite to_script by exact Ld. cbn [bind].
  set (t0 := mkTx [mkTxIn (mkOutPoint txid vout) [] 4294967295] [mkTxOut value (script_of c d)] 0 1).
  change (tx_new _ _ 0 1) with (Ok t0). cbn [bind].
  assert (W0 : wf_tx t0) by (apply (unsigned_wf txid vout value (script_of c d) []); auto using script_of_short; [cbv; discriminate|repeat split]).
  assert (Wr : wf_script redeem) by (unfold wf_script, MAX_SIZE; lia).
  assert (Lk75 : (blen (p_bytes L (pub L k)) <= 75)%N) by lia.
  destruct (hash_made redeem t0 0 1 _ W0 Wr (key_reads (p_bytes L (pub L k)) Lk75)) as (e & Ee & Le);
    [cbn; lia|lia|cbv; discriminate|].
  change (Z.of_nat 0) with 0%Z in Ee. rewrite Ee. cbn [bind].
  destruct (sign_cases G L M h p true k e rnd Hg Hp) as [(NL & _)|[(_ & -> & Es)|(_ & sig & Es & _ & Ls)]]; [contradiction|left; split; [reflexivity|eauto]|].
  assert (NE' : sig ++ [x01] <> p_bytes L (pub L k)).
  { rewrite Eb. unfold sign in Es. destruct (negb _); [discriminate|]. destruct (ec_sign L _ e rnd) as [sg|] eqn:Q; [|discriminate]. injection Es as <-. eapply NE, Q. }
  right. rewrite Es. cbn [bind]. cbv zeta.
  assert (L1 : (blen (sig ++ [x01]) <= 75)%N) by (unfold blen in *; rewrite app_length; cbn [List.length]; lia).
  pose proof (two_pushes (sig ++ [x01]) redeem L1 Lr) as CS. rewrite CS. cbn [bind].
  set (ss := short_push (sig ++ [x01]) ++ short_push redeem) in *.
  set (t1 := fill_in t0 ss).
  assert (Wss : wf_script ss).
  { unfold ss, wf_script, MAX_SIZE, short_push, blen in *. rewrite app_length. cbn [List.length]. lia. }
  assert (Mv : moves txid vout value (script_of c d) ss t1) by (repeat split).
  assert (W1 : wf_tx t1) by (apply (unsigned_wf txid vout value (script_of c d) ss); auto using script_of_short).
  assert (Ver : VerifyScript (script_ecdsa L) ss (p2sh_script (Hash160 redeem)) t1 0 [EvalP2SH] = Ok tt).
  { apply (p2sh_spends G L M h p true k rnd sig t0 t1 0 0 x01 e ss [EvalP2SH] Hg Hp W1 (or_introl eq_refl) Ee); auto.
    apply Raw_same. repeat split. }
  rewrite Ver. cbn [bind]. destruct (tx_codec t1 W1) as (b & Eb1 & Db). rewrite Eb1. cbn [bind]. rewrite <- Er.
  exists t1, ss, b, payto. split; [reflexivity|]. split; [exact Epay|]. specialize (Db []). rewrite app_nil_r in Db. split; [exact Db|]. split; [exact Mv|].
  exact Ver.
Qed.

(** ** Addresses *)

Lemma covered_raw s ops t i t' i' ht : wf_tx t -> wf_tx t' -> reads_as s ops -> same_covered ht t i t' i' ->
  RawSignatureHash s t' (Z.of_nat i') ht = RawSignatureHash s t (Z.of_nat i) ht.
Proof.
  clear M. intros W W' R S. assert (C : exists chunks, splits chunks s) by (apply splits_iff, reads_exists; eauto). destruct C as [chunks C].
  assert (SC : scriptcode s (concat (without [xab] chunks))) by (exists chunks; auto). symmetry. exact (covered_same s s _ t i t' i' ht W W' SC SC S).
Qed.

Lemma covered_index ht t i t' i' : same_covered ht t i t' i' -> (i' < List.length (t_vin t'))%nat.
Proof. clear M. intros (_ & _ & (x1 & x2 & _ & E & _) & _). apply nth_error_Some. congruence. Qed.

Lemma key_address pr secret p c k : network pr -> good G L M secret p c k ->
  address_of_pubkey L pr (pub L k) = Ok (Address P2PKH (version_of pr P2PKH) (Hash160 (point_text G c p))) /\
  to_scriptPubKey pr (Address P2PKH (version_of pr P2PKH) (Hash160 (point_text G c p))) = Ok (p2pkh_script (Hash160 (point_text G c p))).
Proof.
  intros Hn (Eb & Ev & _). split; [|apply (to_script pr P2PKH), Hash160_length].
  unfold address_of_pubkey. rewrite Ev, Eb. unfold from_pubkey. rewrite p2pkh_from_ok by exact Hn. reflexivity.
Qed.

Lemma address_spends mem secret p c k pr a spk t t' i i' x h r sig ss flags :
  List.length secret = 32 -> point_of G secret = Some p -> ckey_new L mem secret c = Ok k -> network pr ->
  address_of_pubkey L pr (pub L k) = Ok a -> to_scriptPubKey pr a = Ok spk -> wf_tx t -> wf_tx t' -> same_covered (Z.of_N (bN x)) t i t' i' ->
  SignatureHash spk t (Z.of_nat i) (Z.of_N (bN x)) = Ok h -> sign L k h r = Ok sig -> sig ++ [x] <> Hash160 (p_bytes L (pub L k)) ->
  cscript [IData (sig ++ [x]); IData (p_bytes L (pub L k))] = Ok ss ->
  VerifyScript (script_ecdsa L) ss spk t' (Z.of_nat i') flags = Ok tt.
Proof.
  intros Ls Hp Ek Hn Ea Es W W' C SH S NE CS. pose proof (good_unique G L M mem secret p c k Ls Hp Ek) as Hg.
  destruct (key_address pr secret p c k Hn Hg) as (Ea' & Es'). rewrite Ea in Ea'. assert (a = Address P2PKH (version_of pr P2PKH) (Hash160 (point_text G c p))) as -> by congruence.
  assert (spk = p2pkh_script (Hash160 (point_text G c p))) as -> by congruence.
  pose proof Hg as (Eb & _). rewrite <- Eb in *.
  apply (p2pkh_spends G L M secret p c k r sig t t' i i' x h ss flags Hg Hp W' SH); auto.
  - apply (covered_raw _ _ _ _ _ _ _ W W' (p2pkh_reads _ (Hash160_length _)) C).
  - exact (covered_index _ _ _ _ _ C).
Qed.

Lemma script_spends mem secret p c k pr redeem a spk t t' i i' x h r sig ss flags :
  List.length secret = 32 -> point_of G secret = Some p -> ckey_new L mem secret c = Ok k -> network pr ->
  cscript [IData (p_bytes L (pub L k)); IOp 0xac] = Ok redeem -> from_redeemScript pr redeem = Ok a -> to_scriptPubKey pr a = Ok spk ->
  wf_tx t -> wf_tx t' -> same_covered (Z.of_N (bN x)) t i t' i' -> In EvalP2SH flags ->
  SignatureHash redeem t (Z.of_nat i) (Z.of_N (bN x)) = Ok h -> sign L k h r = Ok sig -> sig ++ [x] <> p_bytes L (pub L k) ->
  cscript [IData (sig ++ [x]); IData redeem] = Ok ss ->
  VerifyScript (script_ecdsa L) ss spk t' (Z.of_nat i') flags = Ok tt.
Proof.
  intros Ls Hp Ek Hn Er Ea Es W W' C Fl SH S NE CS. pose proof (good_unique G L M mem secret p c k Ls Hp Ek) as Hg.
  pose proof (key_short G L M secret p c k Hg) as Lk. rewrite key_cscript in Er by lia. injection Er as <-.
  destruct (redeem_address pr (key_script (p_bytes L (pub L k))) Hn) as (Ea' & Es'); [rewrite key_script_length; lia|].
  rewrite Ea in Ea'. injection Ea' as ->. rewrite Es in Es'.
  unfold to_p2sh_scriptPubKey in Es'. rewrite key_script_length in Es'. replace (520 <? _)%N with false in Es' by lia. cbn [andb] in Es'.
  rewrite p2sh_cscript in Es' by apply Hash160_length. injection Es' as ->.
  assert (L75 : (blen (p_bytes L (pub L k)) <= 75)%N) by lia.
  apply (p2sh_spends G L M secret p c k r sig t t' i i' x h ss flags Hg Hp W' Fl SH); auto.
  - apply (covered_raw _ _ _ _ _ _ _ W W' (key_reads _ L75) C).
  - exact (covered_index _ _ _ _ _ C).
Qed.
End Programs.

Section Whole.
Context (G : curve) (L : openssl) (M : library G L).

Lemma signs_and_verifies mem secret p c : List.length secret = 32 -> point_of G secret = Some p ->
  exists k, ckey_new L mem secret c = Ok k /\
    p_bytes L (pub L k) = point_text G c p /\ is_valid L (pub L k) = true /\ is_fullyvalid L (pub L k) = true /\ is_compressed L (pub L k) = c /\
    (forall h r, List.length h <> 32 -> sign L k h r = Err ValueError) /\
    (forall h r, List.length h = 32 -> (exists sig, sign L k h r = Ok sig) \/ (sign L k h r = Err AssertionError /\ exists key, ec_sign L key h r = None)) /\
    (forall h r sig, sign L k h r = Ok sig -> valid_sig G p h sig /\ pub_verify L (pub L k) h sig = true /\
       forall c', pub_verify L (CPubKey L (point_text G c' p)) h sig = true) /\
    (forall h sig, pub_verify L (pub L k) h sig = true <-> valid_sig G p h sig).
Proof.
  intros Ls Hp. destruct (key_made G L M mem secret p c Ls Hp) as (k & E & Hg). exists k. split; [exact E|].
  pose proof (key_length G L M secret p c k Hg) as Lk. pose proof Hg as (Eb & Ev & Hs & Hpt).
  split; [exact Eb|]. split; [unfold is_valid, blen; rewrite Lk; destruct c; reflexivity|]. split; [exact Ev|].
  split; [unfold is_compressed, blen; rewrite Lk; destruct c; reflexivity|].
  split; [|split; [|split]].
  - intros h r N. destruct (sign_cases G L M secret p c k h r Hg Hp) as [(_ & X)|[(X & _)|(X & _)]]; [exact X|contradiction|contradiction].
  - intros h r N. destruct (sign_cases G L M secret p c k h r Hg Hp) as [(X & _)|[(_ & X & Y)|(_ & sig & X & _)]]; [contradiction|eauto|eauto].
  - intros h r sig S. destruct (sign_ok G L M secret p c k h r sig Hg Hp S) as (_ & V & _). split; [exact V|]. split; [apply (verifies_iff G L M _ p); assumption|].
    intros c'. apply (read_verifies G L M _ p); [apply point_read|exact V].
  - intros h sig. exact (verifies_iff G L M _ p h sig Hpt).
Qed.

Lemma readable_keys b :
  (is_fullyvalid L (CPubKey L b) = true <-> exists p, read_point G b = Some p) /\
  (forall p h sig, read_point G b = Some p ->
     (pub_verify L (CPubKey L b) h sig = true <-> valid_sig G p h sig) /\ (script_ecdsa L b h sig = true <-> valid_sig G p h sig)) /\
  (forall pr, network pr ->
     (forall p, read_point G b = Some p -> address_of_bytes L pr b = Ok (Address P2PKH (version_of pr P2PKH) (Hash160 b))) /\
     (read_point G b = None -> address_of_bytes L pr b = Err CBitcoinAddressError)).
Proof.
  assert (T : forall p, read_point G b = Some p -> is_fullyvalid L (CPubKey L b) = true).
  { intros p H. unfold CPubKey, pubkey_of. destruct (read_law G L M b (ec_new L) p H) as (k & -> & _). reflexivity. }
  assert (F : read_point G b = None -> is_fullyvalid L (CPubKey L b) = false).
  { intros H. unfold CPubKey, pubkey_of. pose proof (refuse_law G L M b (ec_new L) H) as R. destruct (ec_o2i L b (ec_new L)) as [ok k]. exact R. }
  assert (B : p_bytes L (CPubKey L b) = b) by (unfold CPubKey, pubkey_of; destruct (ec_o2i L b (ec_new L)); reflexivity).
  split; [|split].
  - split; [|intros (p & H); eapply T, H]. intros V. destruct (read_point G b) as [p|]; [eauto|]. rewrite F in V by reflexivity. discriminate.
  - intros p h sig H. split; [apply (read_verifies G L M _ p), H|apply (script_verifies G L M _ p), H].
  - intros pr Hn. unfold address_of_bytes, address_of_pubkey. split.
    + intros p H. rewrite (T p H), B. unfold from_pubkey. rewrite p2pkh_from_ok by exact Hn. reflexivity.
    + intros H. rewrite (F H). reflexivity.
Qed.

Lemma hash_exists s t i ht ops : wf_tx t -> wf_script s -> reads_as s ops -> (i < List.length (t_vin t))%nat -> (0 <= ht < 2 ^ 32)%Z ->
  (base ht = 3%Z -> (i < List.length (t_vout t))%nat) -> exists h, SignatureHash s t (Z.of_nat i) ht = Ok h /\ List.length h = 32.
Proof.
  clear M. intros W Ws R Hi B N3. assert (C : exists chunks, splits chunks s) by (apply splits_iff, reads_exists; eauto).
  destruct (signs_total s t i ht W Ws C Hi N3) as [m Hm]. exists (Hash m). split; [|apply Hash_length].
  apply SignatureHash_iff; [exact W|exact B|]. eauto.
Qed.

Lemma type_range x : (0 <= Z.of_N (bN x) < 2 ^ 32)%Z.
Proof. clear M. pose proof (bN_lt x). lia. Qed.

Lemma paid_can_be_spent mem secret p c : List.length secret = 32 -> point_of G secret = Some p ->
  exists k, ckey_new L mem secret c = Ok k /\ forall pr, network pr ->
  exists a spk, address_of_pubkey L pr (pub L k) = Ok a /\ to_scriptPubKey pr a = Ok spk /\
  forall t i x, wf_tx t -> (i < List.length (t_vin t))%nat -> (base (Z.of_N (bN x)) = 3%Z -> (i < List.length (t_vout t))%nat) ->
  exists h, SignatureHash spk t (Z.of_nat i) (Z.of_N (bN x)) = Ok h /\ List.length h = 32 /\
  forall r sig, sign L k h r = Ok sig -> sig ++ [x] <> Hash160 (p_bytes L (pub L k)) ->
  exists ss, cscript [IData (sig ++ [x]); IData (p_bytes L (pub L k))] = Ok ss /\
  forall t' i' flags, wf_tx t' -> same_covered (Z.of_N (bN x)) t i t' i' -> VerifyScript (script_ecdsa L) ss spk t' (Z.of_nat i') flags = Ok tt.
Proof.
  intros Ls Hp. destruct (key_made G L M mem secret p c Ls Hp) as (k & Ek & Hg). exists k. split; [exact Ek|]. intros pr Hn.
  destruct (key_address G L M pr secret p c k Hn Hg) as (Ea & Es). eexists. eexists. split; [exact Ea|]. split; [exact Es|]. intros t i x W Hi N3.
  destruct (hash_exists _ t i (Z.of_N (bN x)) _ W (script_of_short P2PKH _ (Hash160_length (point_text G c p))) (p2pkh_reads _ (Hash160_length _)) Hi (type_range x) N3)
    as (h & Eh & Lh).
  exists h. split; [exact Eh|]. split; [exact Lh|]. intros r sig S NE.
  destruct (sign_ok G L M secret p c k h r sig Hg Hp S) as (_ & _ & Lsig). pose proof (key_short G L M secret p c k Hg) as Lk.
  assert (L1 : (blen (sig ++ [x]) <= 75)%N) by (unfold blen in *; rewrite app_length; cbn [List.length]; lia).
  assert (L2 : (blen (p_bytes L (pub L k)) <= 75)%N) by lia.
  pose proof (two_pushes (sig ++ [x]) (p_bytes L (pub L k)) L1 L2) as CS. eexists. split; [exact CS|]. intros t' i' flags W' C.
  exact (address_spends G L M mem secret p c k pr _ _ t t' i i' x h r sig _ flags Ls Hp Ek Hn Ea Es W W' C Eh S NE CS).
Qed.

Lemma script_can_be_spent mem secret p c : List.length secret = 32 -> point_of G secret = Some p ->
  exists k redeem, ckey_new L mem secret c = Ok k /\ cscript [IData (p_bytes L (pub L k)); IOp 0xac] = Ok redeem /\ forall pr, network pr ->
  exists a spk, from_redeemScript pr redeem = Ok a /\ to_scriptPubKey pr a = Ok spk /\
  forall t i x, wf_tx t -> (i < List.length (t_vin t))%nat -> (base (Z.of_N (bN x)) = 3%Z -> (i < List.length (t_vout t))%nat) ->
  exists h, SignatureHash redeem t (Z.of_nat i) (Z.of_N (bN x)) = Ok h /\ List.length h = 32 /\
  forall r sig, sign L k h r = Ok sig -> sig ++ [x] <> p_bytes L (pub L k) ->
  exists ss, cscript [IData (sig ++ [x]); IData redeem] = Ok ss /\
  forall t' i' flags, wf_tx t' -> same_covered (Z.of_N (bN x)) t i t' i' -> In EvalP2SH flags ->
    VerifyScript (script_ecdsa L) ss spk t' (Z.of_nat i') flags = Ok tt.
Proof.
  intros Ls Hp. destruct (key_made G L M mem secret p c Ls Hp) as (k & Ek & Hg). pose proof (key_short G L M secret p c k Hg) as Lk.
  assert (L2 : (blen (p_bytes L (pub L k)) <= 75)%N) by lia.
  pose proof (key_cscript _ L2) as Er. eexists. eexists. split; [exact Ek|]. split; [exact Er|]. intros pr Hn.
  assert (L3 : (blen (key_script (p_bytes L (pub L k))) <= 520)%N) by (rewrite key_script_length; lia).
  destruct (redeem_address pr _ Hn L3) as (Ea & Es).
  assert (Es2 : to_scriptPubKey pr (Address P2SH (SCRIPT_ADDR pr) (Hash160 (key_script (p_bytes L (pub L k))))) = Ok (p2sh_script (Hash160 (key_script (p_bytes L (pub L k)))))).
  { exact (to_script pr P2SH _ (Hash160_length _)). }
  eexists. eexists. split; [exact Ea|]. split; [exact Es2|]. intros t i x W Hi N3.
  assert (Ws : wf_script (key_script (p_bytes L (pub L k)))) by (apply (N.le_trans _ _ _ L3); cbv; discriminate).
  destruct (hash_exists _ t i (Z.of_N (bN x)) _ W Ws (key_reads _ L2) Hi (type_range x) N3) as (h & Eh & Lh).
  exists h. split; [exact Eh|]. split; [exact Lh|]. intros r sig S NE.
  destruct (sign_ok G L M secret p c k h r sig Hg Hp S) as (_ & _ & Lsig).
  assert (L1 : (blen (sig ++ [x]) <= 75)%N) by (unfold blen in *; rewrite app_length; cbn [List.length]; lia).
  assert (L4 : (blen (key_script (p_bytes L (pub L k))) <= 75)%N) by (rewrite key_script_length; lia).
  pose proof (two_pushes (sig ++ [x]) _ L1 L4) as CS. eexists. split; [exact CS|]. intros t' i' flags W' C Fl.
  exact (script_spends G L M mem secret p c k pr _ _ _ t t' i i' x h r sig _ flags Ls Hp Ek Hn Er Ea Es2 W W' C Fl Eh S NE CS).
Qed.
End Whole.
