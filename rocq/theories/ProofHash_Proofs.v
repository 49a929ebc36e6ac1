(** Proofs about Proof_Model.v, part 2: what a proof hash binds. *)
From Verif Require Import Base Bits_Model Bits_Spec Bits_Proofs Sha256 Serialize_Model Serialize_Spec Serialize_Proofs
  Tx_Model Tx_Spec Tx_Proofs Proof_Model Proof_Spec Proof_Proofs.
From Coq Require Import ZifyBool ZifyNat ZifyN.
Ltac Zify.zify_post_hook ::= Z.div_mod_to_equations.

Lemma xor_pad_length h : List.length h = 32 -> List.length (xor_pad h) = 32.
Proof.
  assert (forall a b, List.length (xor_bytes a b) = Nat.min (List.length a) (List.length b)) as E.
  { induction a as [|x a IH]; intros [|y b]; cbn [xor_bytes List.length]; auto. rewrite IH. reflexivity. }
  intros H. unfold xor_pad. rewrite E, H. reflexivity.
Qed.

Lemma lxor_byte_lt a b : (N.lxor (bN a) (bN b) < 256)%N.
Proof.
  pose proof (bN_lt a) as Ha. pose proof (bN_lt b) as Hb.
  destruct (N.eq_dec (N.lxor (bN a) (bN b)) 0) as [->|N0]; [reflexivity|].
  change 256%N with (2 ^ 8)%N. apply N.log2_lt_pow2; [lia|].
  eapply N.le_lt_trans; [apply N.log2_lxor|]. 
  assert (forall x, (x < 256 -> N.log2 x < 8)%N) as K.
  { intros x Hx. destruct (N.eq_dec x 0) as [->|]; [reflexivity|]. apply N.log2_lt_pow2; [lia|exact Hx]. }
  apply N.max_lub_lt; apply K; assumption.
Qed.

Lemma xor_bytes_inv a : forall p, List.length a <= List.length p -> xor_bytes (xor_bytes a p) p = a.
Proof.
  induction a as [|x a IH]; intros [|y p] H; cbn [xor_bytes List.length] in *; try reflexivity; try lia.
  rewrite IH by lia. f_equal. apply bN_inj. rewrite bN_Nb_small; rewrite ?(bN_Nb_small _ (lxor_byte_lt x y)).
  - rewrite N.lxor_assoc, N.lxor_nilpotent, N.lxor_0_r. reflexivity.
  - rewrite N.lxor_assoc, N.lxor_nilpotent, N.lxor_0_r. apply bN_lt.
Qed.

Lemma xor_pad_inv h : List.length h = 32 -> xor_pad (xor_pad h) = h.
Proof. intros H. apply xor_bytes_inv. rewrite H. apply Nat.le_refl. Qed.

(** ** Hashes have 32 bytes *)

Lemma phash_length ct v h : phash ct v = Ok h -> List.length h = 32.
Proof.
  unfold phash. induction v using val_ind'; try discriminate.
  - rewrite hashes_full. cbn [snd]. destruct (c_hash (ct c)) as [tg|] eqn:E.
    + unfold tagged. rewrite E. destruct (hash_fields _ _ _) as [d|]; cbn [bind]; [|discriminate]. destruct tg as [t|]; [|discriminate].
      intros H0; inversion H0. apply sha256_length.
    + destruct fs as [|[] [|]]; try discriminate. destruct (tx_GetHash t) as [h0|] eqn:E2; cbn [bind]; [|discriminate].
      intros H0; inversion H0. apply xor_pad_length. unfold tx_GetHash in E2. destruct (tx_ser t); [|discriminate]. inversion E2. apply Hash_length.
  - cbn [hashes snd]. unfold tagged. destruct (c_hash (ct c)) as [[t|]|]; cbn [bind]; try discriminate. intros H0; inversion H0. apply sha256_length.
  - assumption.
Qed.

(** ** Leaf encodings determine the value *)

Lemma transports_inj ct sr v1 v2 e1 e2 r1 r2 :
  fits ct any_bits sr v1 -> fits ct any_bits sr v2 ->
  match sr with SerProof _ | SerUnion _ => False | _ => True end ->
  ser_leaf sr v1 = Ok e1 -> ser_leaf sr v2 = Ok e2 -> e1 ++ r1 = e2 ++ r2 -> v1 = v2 /\ r1 = r2.
Proof.
  intros F1 F2 L E1 E2 E. destruct sr; try contradiction; inversion F1; subst; inversion F2; subst; cbn [ser_leaf to_py] in E1, E2.
  - apply prim_ok_check in H0, H1.
    destruct (prim_roundtrip s v H0) as (x & X1 & X2), (prim_roundtrip s v0 H1) as (y & Y1 & Y2).
    rewrite E1 in X1. injection X1 as <-. rewrite E2 in Y1. injection Y1 as <-. specialize (X2 r1). specialize (Y2 r2).
    rewrite E in X2. rewrite X2 in Y2. inversion Y2. auto.
  - destruct (bits_new_spec l) as (b1 & N1 & O1 & B1), (bits_new_spec l0) as (b2 & N2 & O2 & B2).
    rewrite N1 in E1. rewrite N2 in E2. cbn [bind] in *.
    pose proof (bits_ser_prefix_free b1 b2 e1 e2 r1 r2 O1 O2 E1 E2 E) as HB.
    assert (HL : l = l0) by (rewrite <- B1, <- B2; tauto). split; [congruence|].
    assert (b1 = b2) by congruence. assert (e1 = e2) by congruence. subst e2. apply app_inv_head in E. exact E.
  - destruct (prefixed_codec tx_ser tx_de wf_tx tx_codec t H) as (x & X1 & X2 & _), (prefixed_codec tx_ser tx_de wf_tx tx_codec t0 H0) as (y & Y1 & Y2 & _).
    rewrite E1 in X1. injection X1 as <-. rewrite E2 in Y1. injection Y1 as <-. specialize (X2 r1). specialize (Y2 r2).
    rewrite E in X2. rewrite X2 in Y2. inversion Y2. auto.
  - destruct (prefixed_codec outpoint_ser outpoint_de wf_outpoint outpoint_codec o H) as (x & X1 & X2 & _), (prefixed_codec outpoint_ser outpoint_de wf_outpoint outpoint_codec o0 H0) as (y & Y1 & Y2 & _).
    rewrite E1 in X1. injection X1 as <-. rewrite E2 in Y1. injection Y1 as <-. specialize (X2 r1). specialize (Y2 r2).
    rewrite E in X2. rewrite X2 in Y2. inversion Y2. auto.
Qed.

Lemma app_inj_len {A} (a b r1 r2 : list A) : List.length a = List.length b -> a ++ r1 = b ++ r2 -> a = b /\ r1 = r2.
Proof.
  revert b; induction a as [|x a IH]; intros [|y b] L E; try discriminate; cbn in *; [auto|].
  inversion E; subst. destruct (IH b) as [-> ->]; [lia|assumption|auto].
Qed.

(** ** The parts of the data hash *)

Lemma hash_fields_parts ct attrs : forall fs m, hash_fields ct attrs fs = Ok m <-> exists ps, parts ct attrs fs ps /\ m = concat ps.
Proof.
  induction attrs as [|[n sr] attrs IH]; intros fs m.
  - destruct fs; cbn [hash_fields]; split.
    + intros H; inversion H. exists []. split; [constructor|reflexivity].
    + intros (ps & H & ->). inversion H. reflexivity.
    + discriminate.
    + intros (ps & H & _). inversion H.
  - destruct fs as [|f fs]; cbn [hash_fields]; [split; [discriminate|intros (ps & H & _); inversion H]|].
    assert (K : forall p, (match sr with SerProof _ | SerUnion _ => phash ct f | _ => ser_leaf sr f end) = Ok p <-> part ct (n, sr) f p).
    { intros p. unfold part. cbn [snd]. destruct sr; reflexivity. }
    split.
    + intros H. destruct (match sr with SerProof _ | SerUnion _ => _ | _ => _ end) as [p|] eqn:E; cbn [bind] in H; [|discriminate].
      destruct (hash_fields ct attrs fs) as [r|] eqn:E2; cbn [bind] in H; [|discriminate]. inversion H; subst.
      apply IH in E2. destruct E2 as (ps & Hp & ->). exists (p :: ps). split; [constructor; [apply K; reflexivity|exact Hp]|reflexivity].
    + intros (ps & H & ->). inversion H as [|? ? ? ? p qs Hp Hq]; subst. apply K in Hp. rewrite Hp. cbn [bind].
      assert (hash_fields ct attrs fs = Ok (concat qs)) as -> by (apply IH; eauto). reflexivity.
Qed.

Lemma data_hash_full ct c fs dh : data_hash ct (PFull c fs) = Ok dh <-> exists ps, parts ct (c_attrs (ct c)) fs ps /\ dh = sha256 (concat ps).
Proof.
  unfold data_hash. rewrite hashes_full. cbn [fst]. split.
  - destruct (hash_fields _ _ _) as [m|] eqn:E; cbn [bind]; [|discriminate]. intros H; inversion H; subst.
    apply hash_fields_parts in E. destruct E as (ps & Hp & ->). eauto.
  - intros (ps & Hp & ->). assert (hash_fields ct (c_attrs (ct c)) fs = Ok (concat ps)) as -> by (apply hash_fields_parts; eauto). reflexivity.
Qed.

Lemma phash_tag ct v c t h : class_of v = Some c -> c_hash (ct c) = HTag (Some t) -> 
  match v with PView _ _ _ => False | _ => True end ->
  (phash ct v = Ok h <-> exists dh, data_hash ct v = Ok dh /\ h = sha256 (t ++ dh)).
Proof.
  intros Hc Ht NV. unfold phash, data_hash. destruct v; try discriminate; try contradiction; cbn in Hc; inversion Hc; subst c0.
  - rewrite hashes_full. cbn [fst snd]. rewrite Ht. unfold tagged. rewrite Ht. destruct (hash_fields _ _ _) as [d|]; cbn [bind].
    + unfold tag_hash. split; [intros H; inversion H; eauto|]. intros (d' & H1 & H2). congruence.
    + split; [discriminate|intros (? & ? & _); discriminate].
  - cbn [hashes fst snd]. unfold tagged. rewrite Ht. cbn [bind]. unfold tag_hash. split; [intros H; inversion H; eauto|].
    intros (d' & H1 & H2). congruence.
Qed.

Lemma sha_cases m1 m2 : sha256 m1 = sha256 m2 -> m1 = m2 \/ collision sha256 m1 m2.
Proof. intros H. destruct (bytes_eq_dec m1 m2) as [->|N]; [left; reflexivity|right; split; assumption]. Qed.

(** Two values fitting the same declaration: their classes are rivals. *)
Definition rivals (ct : ctable) (k1 k2 : cid) : Prop :=
  k1 = k2 \/ exists t1 t2, c_hash (ct k1) = HTag (Some t1) /\ c_hash (ct k2) = HTag (Some t2) /\ t1 <> t2.

Lemma fits_standing ct Q sr v k : fits ct Q sr v -> class_of v = Some k -> standing ct sr k.
Proof.
  intros H Hk. inversion H; subst; try discriminate Hk; cbn in *.
  - inversion Hk; subst. assumption.
  - inversion Hk; subst. assumption.
  - destruct (fits_class _ _ _ _ H1) as (k' & E & D). rewrite Hk in E. inversion E; subst. eauto.
Qed.

Lemma fits_retract ct Q sr v : fits ct Q sr v -> is_proof v = true -> exists c, fits ct Q (SerProof c) v.
Proof. intros H P. inversion H; subst; try discriminate P; eauto. Qed.

Lemma fits_not_view ct Q sr v : fits ct Q sr v -> match v with PView _ _ _ => False | _ => True end.
Proof. intros H. induction H; try exact I. exact IHfits. Qed.

Lemma holds_class ct c v : holds ct (SerProof c) v -> exists k, class_of v = Some k /\ declared ct c k.
Proof.
  intros H. inversion H; subst; cbn; eauto. destruct (fits_class _ _ _ _ H1) as (k & Hk & _). unfold is_proof in H0. rewrite Hk in H0. discriminate.
Qed.

Lemma holds_standing ct sr v k : holds ct sr v -> class_of v = Some k -> standing ct sr k.
Proof.
  intros H Hk. inversion H; subst; cbn in *.
  - unfold is_proof in H0. rewrite Hk in H0. discriminate.
  - inversion Hk; subst. assumption.
  - inversion Hk; subst. assumption.
  - destruct (holds_class _ _ _ H1) as (k' & E & D). rewrite Hk in E. inversion E; subst. eauto.
Qed.

Lemma holds_not_view ct sr v : holds ct sr v -> match v with PView _ _ _ => False | _ => True end.
Proof. intros H. induction H; try exact I; [eapply fits_not_view; eassumption|exact IHholds]. Qed.

Lemma holds_leaf ct sr v : match sr with SerProof _ | SerUnion _ => False | _ => True end -> holds ct sr v -> fits ct any_bits sr v.
Proof. intros L H. inversion H; subst; try contradiction L; assumption. Qed.

Scheme fits_mind' := Induction for fits Sort Prop with fits_all_mind' := Induction for fits_all Sort Prop.
Combined Scheme fits_both' from fits_mind', fits_all_mind'.

Lemma fits_holds_both ct : (forall sr v, fits ct any_bits sr v -> holds ct sr v) /\ (forall attrs fs, fits_all ct any_bits attrs fs -> holds_all ct attrs fs).
Proof.
  apply (fits_both' ct any_bits (fun sr v _ => holds ct sr v) (fun attrs fs _ => holds_all ct attrs fs)); intros;
    try (apply Ho_leaf; [reflexivity|constructor; assumption]).
  - apply Ho_full; assumption.
  - apply Ho_hash; assumption.
  - eapply Ho_union; eassumption.
  - constructor.
  - constructor; assumption.
Qed.
Lemma fits_holds ct sr v : fits ct any_bits sr v -> holds ct sr v.
Proof. apply fits_holds_both. Qed.

Lemma binding_sub ct c fs1 fs2 f1 f2 : c_hash (ct c) <> HTx -> In f1 fs1 -> In f2 fs2 -> hash_collision ct f1 f2 ->
  hash_collision ct (PFull c fs1) (PFull c fs2).
Proof.
  intros HT I1 I2 (m1 & m2 & H1 & H2 & HC). exists m1, m2. split; [eapply H_sub; eassumption|]. split; [eapply H_sub; eassumption|exact HC].
Qed.

Lemma hash_binding ct : wf_table ct -> wf_tags ct -> forall v1 v2 c1 c2 k1 k2 h,
  holds ct (SerProof c1) v1 -> holds ct (SerProof c2) v2 ->
  class_of v1 = Some k1 -> class_of v2 = Some k2 -> rivals ct k1 k2 ->
  phash ct v1 = Ok h -> phash ct v2 = Ok h -> agree ct v1 v2 \/ hash_collision ct v1 v2.
Proof.
  intros W T. induction v1 as [| | | |k fs1 IH|k dh1|] using val_ind'; intros v2 c1 c2 k1 k2 h F1 F2 K1 K2 R H1 H2;
    try (destruct (holds_class _ _ _ F1) as (? & X & _); discriminate X); try (exfalso; exact (holds_not_view _ _ _ F1)); cbn in K1; inversion K1; subst k1; clear K1.
  all: pose proof (holds_not_view _ _ _ F2) as NV2.
  all: destruct (c_hash (ct k)) as [[t1|]|] eqn:Ek.
  - (* tagged, complete *)
    apply (phash_tag ct (PFull k fs1) k t1 h eq_refl Ek I) in H1. destruct H1 as (d1 & D1 & ->).
    assert (R2 : exists t2, c_hash (ct k2) = HTag (Some t2) /\ (k = k2 \/ t1 <> t2)).
    { destruct R as [<-|(a & b & Ha & Hb & Hn)]; [eauto|]. exists b. split; [exact Hb|]. right. congruence. }
    destruct R2 as (t2 & Ek2 & Rt).
    apply (phash_tag ct _ k2 t2 _ K2 Ek2 NV2) in H2. destruct H2 as (d2 & D2 & HE).
    destruct (sha_cases _ _ HE) as [EQ|HC].
    2:{ right. exists (t1 ++ d1), (t2 ++ d2). split; [eapply H_tag; [reflexivity|exact Ek|exact D1]|]. split; [eapply H_tag; eassumption|exact HC]. }
    destruct (app_inj_len _ _ _ _ (eq_trans (tag_len ct T _ _ Ek) (eq_sym (tag_len ct T _ _ Ek2))) EQ) as [<- <-].
    destruct Rt as [<-|N]; [|congruence]. clear EQ HE.
    destruct v2 as [| | | |k' fs2|k' dh2|]; try discriminate K2; try contradiction NV2; cbn in K2; inversion K2; subst k'; clear K2 NV2.
    2:{ left. apply A_right; [reflexivity|]. cbn in D2. inversion D2; subst. exact D1. }
    pose proof (proj1 (data_hash_full _ _ _ _) D1) as (ps1 & P1 & E1). pose proof (proj1 (data_hash_full _ _ _ _) D2) as (ps2 & P2 & E2).
    rewrite E1 in E2. destruct (sha_cases _ _ E2) as [EQ|HC].
    2:{ right. exists (concat ps1), (concat ps2). split; [apply H_data; [congruence|exact P1]|]. split; [apply H_data; [congruence|exact P2]|exact HC]. }
    assert (FA1 : holds_all ct (c_attrs (ct k)) fs1) by (inversion F1; subst; [discriminate|assumption]).
    assert (FA2 : holds_all ct (c_attrs (ct k)) fs2) by (inversion F2; subst; [discriminate|assumption]).
    assert (HT : c_hash (ct k) <> HTx) by congruence.
    enough (Forall2 (agree ct) fs1 fs2 \/ exists f1 f2, In f1 fs1 /\ In f2 fs2 /\ hash_collision ct f1 f2) as [A|(f1 & f2 & I1 & I2 & HC)].
    { left. apply A_full, A. }
    { right. eapply binding_sub; eassumption. }
    assert (HA : forall name sr, In (name, sr) (c_attrs (ct k)) -> forall a b, standing ct sr a -> standing ct sr b -> rivals ct a b).
    { intros name sr Hi a b Ha Hb. eapply (tag_distinct ct T); eassumption. }
    revert HA. clear D1 D2 Ek Ek2 F1 F2 E1 E2 HT.
    revert fs1 fs2 ps1 ps2 IH P1 P2 EQ FA1 FA2. generalize (c_attrs (ct k)) as attrs.
    induction attrs as [|[name sr] attrs IHa]; intros fs1 fs2 ps1 ps2 IH P1 P2 EQ FA1 FA2 HA.
    { inversion FA1; inversion FA2. left. constructor. }
    inversion FA1 as [|? ? ? f1 fs1' G1 G1']; subst. inversion FA2 as [|? ? ? f2 fs2' G2 G2']; subst.
    inversion P1 as [|? ? ? ? p1 ps1' Q1 Q1']; subst. inversion P2 as [|? ? ? ? p2 ps2' Q2 Q2']; subst.
    inversion IH as [|? ? IHf IHfs]; subst. cbn [concat] in EQ.
    assert (K : (agree ct f1 f2 \/ hash_collision ct f1 f2) /\ concat ps1' = concat ps2').
    { destruct (match sr with SerProof _ | SerUnion _ => true | _ => false end) eqn:Esr.
      - assert (Hp1 : phash ct f1 = Ok p1) by (unfold part in Q1; cbn [snd] in Q1; destruct sr; try discriminate Esr; exact Q1).
        assert (Hp2 : phash ct f2 = Ok p2) by (unfold part in Q2; cbn [snd] in Q2; destruct sr; try discriminate Esr; exact Q2).
        destruct (app_inj_len _ _ _ _ (eq_trans (phash_length _ _ _ Hp1) (eq_sym (phash_length _ _ _ Hp2))) EQ) as [<- HEQ].
        split; [|exact HEQ].
        assert (PP : forall f, holds ct sr f -> exists c a, holds ct (SerProof c) f /\ class_of f = Some a).
        { intros f Gf. destruct sr; try discriminate Esr.
          - destruct (holds_class _ _ _ Gf) as (a & ? & _). eauto.
          - inversion Gf as [? ? Hn Hl| | |? ? ? Hc Hf]; subst; [inversion Hl; subst; match goal with H : fits _ _ (SerProof _) f |- _ => destruct (fits_class _ _ _ _ H) as (? & X & _); unfold is_proof in Hn; rewrite X in Hn; discriminate end|]. destruct (holds_class _ _ _ Hf) as (a & ? & _). eauto. }
        destruct (PP f1 G1) as (a1 & b1 & X1 & Y1), (PP f2 G2) as (a2 & b2 & X2 & Y2).
        eapply IHf; [exact X1|exact X2|exact Y1|exact Y2| |exact Hp1|exact Hp2].
        eapply HA; [left; reflexivity|exact (holds_standing _ _ _ _ G1 Y1)|exact (holds_standing _ _ _ _ G2 Y2)].
      - assert (L : match sr with SerProof _ | SerUnion _ => False | _ => True end) by (destruct sr; try exact I; discriminate Esr).
        assert (Hp1 : ser_leaf sr f1 = Ok p1) by (unfold part in Q1; cbn [snd] in Q1; destruct sr; try discriminate Esr; exact Q1).
        assert (Hp2 : ser_leaf sr f2 = Ok p2) by (unfold part in Q2; cbn [snd] in Q2; destruct sr; try discriminate Esr; exact Q2).
        destruct (transports_inj ct sr f1 f2 p1 p2 _ _ (holds_leaf _ _ _ L G1) (holds_leaf _ _ _ L G2) L Hp1 Hp2 EQ) as [<- HEQ]. split; [left; apply A_refl|exact HEQ]. }
    destruct K as [[K|K] HEQ].
    + destruct (IHa fs1' fs2' ps1' ps2' IHfs Q1' Q2' HEQ G1' G2') as [A|(x & y & I1 & I2 & HC)].
      * intros n s Hi. apply (HA n). right. exact Hi.
      * left. constructor; assumption.
      * right. exists x, y. split; [right; exact I1|]. split; [right; exact I2|exact HC].
    + right. exists f1, f2. split; [left; reflexivity|]. split; [left; reflexivity|exact K].
  - (* no tag *)
    unfold phash in H1. rewrite hashes_full in H1. cbn [snd] in H1. rewrite Ek in H1. unfold tagged in H1. rewrite Ek in H1. destruct (hash_fields _ _ _); discriminate H1.
  - (* transaction *)
    destruct R as [<-|(a & b & Ha & _)]; [|congruence].
    unfold phash in H1. rewrite hashes_full in H1. cbn [snd] in H1. rewrite Ek in H1.
    destruct fs1 as [|[| |t1| | | |] [|]]; try discriminate H1.
    destruct v2 as [| | | |k' fs2|k' dh2|]; try discriminate K2; try contradiction NV2; cbn in K2; inversion K2; subst k'; clear K2.
    2:{ unfold phash in H2. cbn [hashes snd] in H2. unfold tagged in H2. rewrite Ek in H2. discriminate H2. }
    unfold phash in H2. rewrite hashes_full in H2. cbn [snd] in H2. rewrite Ek in H2.
    destruct fs2 as [|[| |t2| | | |] [|]]; try discriminate H2.
    destruct (tx_GetHash t1) as [h1|] eqn:G1; cbn [bind] in H1; [|discriminate]. destruct (tx_GetHash t2) as [h2|] eqn:G2; cbn [bind] in H2; [|discriminate].
    assert (L1 : List.length h1 = 32) by (unfold tx_GetHash in G1; destruct (tx_ser t1); [|discriminate]; inversion G1; apply Hash_length).
    assert (L2 : List.length h2 = 32) by (unfold tx_GetHash in G2; destruct (tx_ser t2); [|discriminate]; inversion G2; apply Hash_length).
    assert (h1 = h2) as <-.
    { rewrite <- (xor_pad_inv h1 L1), <- (xor_pad_inv h2 L2). f_equal. congruence. }
    destruct (wf_tx_class ct W k Ek) as (_ & name & Ea).
    assert (W1 : wf_tx t1) by (inversion F1 as [|? ? ? ? FA| |]; subst; [discriminate|]; rewrite Ea in FA; inversion FA as [|? ? ? ? ? Ft]; subst; apply holds_leaf in Ft; [inversion Ft; assumption|exact I]).
    assert (W2 : wf_tx t2) by (inversion F2 as [|? ? ? ? FA| |]; subst; [discriminate|]; rewrite Ea in FA; inversion FA as [|? ? ? ? ? Ft]; subst; apply holds_leaf in Ft; [inversion Ft; assumption|exact I]).
    destruct (tx_hash_binds t1 t2 h1 W1 W2 G1 G2) as [<-|(e1 & e2 & S1 & S2 & N & HH)]; [left; apply A_refl|right].
    unfold Hash in HH. destruct (sha_cases _ _ HH) as [EQ|HC].
    + exists e1, e2. split; [eapply H_tx1; eassumption|]. split; [eapply H_tx1; eassumption|]. split; assumption.
    + exists (sha256 e1), (sha256 e2). split; [eapply H_tx2; eassumption|]. split; [eapply H_tx2; eassumption|exact HC].
  - (* tagged, fully pruned *)
    apply (phash_tag ct (PHash k dh1) k t1 h eq_refl Ek I) in H1. destruct H1 as (d1 & D1 & ->).
    assert (R2 : exists t2, c_hash (ct k2) = HTag (Some t2) /\ (k = k2 \/ t1 <> t2)).
    { destruct R as [<-|(a & b & Ha & Hb & Hn)]; [eauto|]. exists b. split; [exact Hb|]. right. congruence. }
    destruct R2 as (t2 & Ek2 & Rt).
    apply (phash_tag ct _ k2 t2 _ K2 Ek2 NV2) in H2. destruct H2 as (d2 & D2 & HE).
    destruct (sha_cases _ _ HE) as [EQ|HC].
    2:{ right. exists (t1 ++ d1), (t2 ++ d2). split; [eapply H_tag; [reflexivity|exact Ek|exact D1]|]. split; [eapply H_tag; eassumption|exact HC]. }
    destruct (app_inj_len _ _ _ _ (eq_trans (tag_len ct T _ _ Ek) (eq_sym (tag_len ct T _ _ Ek2))) EQ) as [<- <-].
    destruct Rt as [<-|N]; [|congruence]. left. apply A_left; [exact K2|]. cbn in D1. inversion D1; subst. exact D2.
  - unfold phash in H1. cbn [hashes snd] in H1. unfold tagged in H1. rewrite Ek in H1. discriminate H1.
  - unfold phash in H1. cbn [hashes snd] in H1. unfold tagged in H1. rewrite Ek in H1. discriminate H1.
Qed.

Lemma complete_not_hash c dh : ~ complete (PHash c dh).
Proof. intros H. inversion H. Qed.

Lemma agree_complete ct : forall v1 v2, agree ct v1 v2 -> complete v1 -> complete v2 -> v1 = v2.
Proof.
  induction v1 as [| | | |k fs1 IH|k dh1|] using val_ind'; intros v2 A C1 C2; inversion A; subst; try reflexivity;
    try (exfalso; eapply complete_not_hash; eassumption).
  f_equal. inversion C1; subst. inversion C2; subst. clear A C1 C2.
  match goal with H : Forall2 _ _ _ |- _ => revert IH H0 H1; induction H; intros IH H0 H1 end; [reflexivity|].
  inversion IH; subst. inversion H0; subst. inversion H1; subst. f_equal; auto.
Qed.

(** ** Hashes exist *)

Definition tagged_class (ct : ctable) (c : cid) : Prop := exists t, c_hash (ct c) = HTag (Some t).

Lemma leaf_ser_ok ct sr v : fits ct any_bits sr v -> match sr with SerProof _ | SerUnion _ => True | _ => exists e, ser_leaf sr v = Ok e end.
Proof.
  intros H. pose proof (leaf_transports ct sr v H) as L. destruct sr; try exact I; destruct L as (e & _ & E & _); exists e; exact E.
Qed.
