(** Transport of views whose hidden sub-proofs have variants (C21). *)
From Verif Require Import Base Serialize_Model Serialize_Spec Serialize_Proofs Proof_Model Proof_Spec Proof_Proofs ProofHash_Proofs ProofView_Proofs ProofReplay_Proofs.

Inductive loose (ct : ctable) : ser -> val -> Prop :=
| Lo_leaf sr v : is_proof v = false -> fits ct bits_survive sr v -> loose ct sr v
| Lo_full c k fs : declared ct c k -> loose_all ct (c_attrs (ct k)) fs -> loose ct (SerProof c) (PFull k fs)
| Lo_hash c k dh : declared ct c k -> List.length dh = 32 -> loose ct (SerProof c) (PHash k dh)
| Lo_union cs c v : In c cs -> loose ct (SerProof c) v -> loose ct (SerUnion cs) v
with loose_all (ct : ctable) : list (string * ser) -> list val -> Prop :=
| LoA_nil : loose_all ct [] []
| LoA_cons name sr attrs f fs : loose ct sr f -> loose_all ct attrs fs -> loose_all ct ((name, sr) :: attrs) (f :: fs).

Scheme loose_mind := Induction for loose Sort Prop with loose_all_mind := Induction for loose_all Sort Prop.
Combined Scheme loose_both from loose_mind, loose_all_mind.

Definition ok_variant (ct : ctable) (sr : ser) : Prop :=
  okser ct sr /\ match sr with SerUnion cs => forall m, In m cs -> c_kind (ct m) = Plain | _ => True end.
Definition ok_attr (ct : ctable) (sr : ser) : Prop :=
  ok_variant ct sr /\ match sr with SerProof b => base_declared ct b | _ => True end.

Lemma leaf_any ct sr v : is_proof v = false -> fits ct bits_survive sr v -> fits ct any_bits sr v.
Proof.
  intros L H. destruct H; try discriminate L; try (constructor; auto; fail); [constructor; exact I|].
  inversion H0; subst; discriminate L.
Qed.

Definition arrival (ct : ctable) (sr : ser) (v : val) : Prop := exists enc F, ser_val ct sr v = Ok enc /\
  ((fits ct bits_survive sr v /\ forall rest fuel, F <= fuel -> de_val ct fuel sr (enc ++ rest) = Ok (v, rest)) \/
   (~ fits ct bits_survive sr v /\ exists b k dh u, sr = SerProof b /\ v = PHash k dh /\ c_kind (ct b) = Variant u /\ In k u /\
      forall rest fuel, F <= fuel -> de_val ct fuel sr (enc ++ rest) = Ok (PHash b dh, rest)) \/
   (~ fits ct bits_survive sr v /\ (forall k dh, v <> PHash k dh) /\
      forall rest fuel, F <= fuel -> de_val ct fuel sr (enc ++ rest) = Err SerializerTypeError)).

Definition arrival_all (ct : ctable) (attrs : list (string * ser)) (fs : list val) : Prop := exists enc F,
  ser_fields ct attrs fs = Ok enc /\
  ((fits_all ct bits_survive attrs fs /\ forall rest fuel, F <= fuel -> de_fields ct fuel attrs (enc ++ rest) = Ok (combine (map fst attrs) fs, rest)) \/
   (~ fits_all ct bits_survive attrs fs /\ forall rest fuel, F <= fuel -> de_fields ct fuel attrs (enc ++ rest) = Err SerializerTypeError) \/
   (~ fits_all ct bits_survive attrs fs /\ exists gs, List.length gs = List.length attrs /\
      (forall rest fuel, F <= fuel -> de_fields ct fuel attrs (enc ++ rest) = Ok (combine (map fst attrs) gs, rest)) /\
      forall kw, (forall i n x, nth_error (map fst attrs) i = Some n -> nth_error gs i = Some x -> assoc n kw = Some x) ->
        construct_loop ct attrs kw = Err SerializerTypeError)).

Lemma fits_attr_ok ct Q sr v : wf_table ct -> okser ct sr -> fits ct Q sr v ->
  check ct sr v = Ok tt /\ match sr with SerProof _ => if is_proof v then Ok tt else Err AttributeError | _ => Ok tt end = Ok tt.
Proof.
  intros W O H. split; [eapply check_fits; eassumption|]. destruct sr; try reflexivity.
  destruct (fits_class _ _ _ _ H) as (k & Hk & _). unfold is_proof. rewrite Hk. reflexivity.
Qed.

Lemma all_arrive ct : wf_table ct -> variant_table ct ->
  (forall sr v, loose ct sr v -> ok_variant ct sr -> arrival ct sr v) /\
  (forall attrs fs, loose_all ct attrs fs -> (forall name sr, In (name, sr) attrs -> ok_attr ct sr) -> arrival_all ct attrs fs).
Proof.
  intros W VT.
  apply (loose_both ct (fun sr v _ => ok_variant ct sr -> arrival ct sr v)
    (fun attrs fs _ => (forall name sr, In (name, sr) attrs -> ok_attr ct sr) -> arrival_all ct attrs fs)).
  - intros sr v L H (O & _). destruct (proj1 (all_transport ct W) sr v (leaf_any _ _ _ L H) O) as (enc & F & E & C & _).
    exists enc, F. split; [exact E|]. destruct C as [C|(C & _)]; [left; exact C|contradiction].
  - intros c k fs D Hfs IH O. destruct IH as (enc & F & E & C).
    { intros n s Hi. pose proof (VT _ _ _ Hi) as V. split; [split; [eapply attr_okser, Hi|]|]; destruct s; auto. }
    destruct (variant_transports ct c k fs W D) as (ix & Eix & V).
    exists (x00 :: ix ++ enc), (S F). split; [cbn [ser_val]; rewrite ser_proof_full, Eix; cbn [bind]; rewrite E; reflexivity|].
    assert (R : forall rest fuel, de_val ct (S fuel) (SerProof c) ((x00 :: ix ++ enc) ++ rest) =
      do (kw, s) <- de_fields ct fuel (c_attrs (ct k)) (enc ++ rest); do p <- construct ct k kw; Ok (p, s)).
    { intros rest fuel. cbn [de_val]. rewrite de_proof_S.
      change ((x00 :: ix ++ enc) ++ rest) with (write_bool false ++ (ix ++ enc) ++ rest). rewrite read_bool_write. cbn [bind].
      rewrite <- app_assoc, (proj1 (V _)). reflexivity. }
    destruct C as [(HS & C)|[(HS & C)|(HS & gs & HL & C & B)]].
    + left. split; [constructor; assumption|]. intros rest [|fuel] HF; [lia|]. rewrite R, C by lia. cbn [bind].
      rewrite (construct_fits ct bits_survive k fs W HS). reflexivity.
    + right. right. split; [intros H; inversion H; subst; contradiction|]. split; [discriminate|].
      intros rest [|fuel] HF; [lia|]. rewrite R, C by lia. reflexivity.
    + right. right. split; [intros H; inversion H; subst; contradiction|]. split; [discriminate|].
      intros rest [|fuel] HF; [lia|]. rewrite R, C by lia. cbn [bind]. unfold construct. rewrite B; [reflexivity|].
      apply assoc_combine; [apply wf_names, W|]. rewrite map_length. symmetry. exact HL.
  - intros c k dh D L O. exists (xff :: dh), 1. split; [reflexivity|].
    assert (R : forall rest fuel, 1 <= fuel -> de_val ct fuel (SerProof c) ((xff :: dh) ++ rest) = Ok (PHash c dh, rest)).
    { intros rest [|fuel] HF; [lia|]. cbn [de_val]. rewrite de_proof_S.
      change ((xff :: dh) ++ rest) with (write_bool true ++ dh ++ rest). rewrite read_bool_write. cbn [bind].
      rewrite fd_read_app_n; [reflexivity|]. unfold blen. rewrite L. reflexivity. }
    destruct (Nat.eq_dec k c) as [->|N].
    + left. split; [constructor; assumption|exact R].
    + right. left. split; [intros H; inversion H; subst; congruence|]. unfold declared in D. destruct (c_kind (ct c)) as [|u] eqn:Ek; [contradiction|].
      exists c, k, dh, u. auto.
  - intros cs c v Hc Hv IH (O & PU). destruct IH as (enc & F & E & C); [split; exact I|].
    destruct O as (c' & name & Ha).
    assert (HK : exists k, class_of v = Some k /\ declared ct c k).
    { inversion Hv; subst; try (eexists; split; [reflexivity|assumption]). destruct (fits_class _ _ _ _ H0) as (k & Hk & Hd). eauto. }
    destruct HK as (k & Hk & Hd). destruct (In_nth_error _ _ Hc) as (i & Hi).
    destruct (wf_unions ct W c' name cs i c k Ha Hi Hd) as (Hs & Hno).
    exists (write_varuint (Z.of_nat i) ++ enc), F. split.
    { cbn [ser_val] in *. unfold ser_union. rewrite (union_index_spec ct v k Hk cs i c Hi Hs Hno), E. reflexivity. }
    cbn [de_val] in *. destruct C as [(HS & C)|[(HS & b & k' & dh & u & Eb & Ev & Ku & _)|(HS & NH & C)]].
    + left. split; [econstructor; eassumption|]. intros rest fuel HF. rewrite <- app_assoc, read_write_varuint by lia. cbn [bind].
      rewrite (nth_error_if cs i c Hi). apply C; exact HF.
    + exfalso. inversion Eb; subst b. rewrite (PU c Hc) in Ku. discriminate.
    + right. right. split.
      { intros H. inversion H as [| | | | | |? c2 ? Hc2 Hf2]; subst. apply HS.
        pose proof (PU c2 Hc2) as P2. pose proof (PU c Hc) as P1. destruct (fits_class _ _ _ _ Hf2) as (k2 & Hk2 & Hd2).
        unfold declared in Hd, Hd2. rewrite P1 in Hd. rewrite P2 in Hd2. assert (E2 : c2 = c) by congruence. rewrite <- E2. exact Hf2. }
      split; [exact NH|]. intros rest fuel HF. rewrite <- app_assoc, read_write_varuint by lia. cbn [bind].
      rewrite (nth_error_if cs i c Hi). apply C; exact HF.
  - intros _. exists [], 0. split; [reflexivity|]. left. split; [constructor|reflexivity].
  - intros name sr attrs f fs Hf IHf Hfs IHfs O.
    destruct (O name sr (or_introl eq_refl)) as (O1 & O2). pose proof (proj1 O1) as O3.
    destruct (IHf O1) as (e1 & F1 & E1 & C1).
    destruct IHfs as (e2 & F2 & E2 & C2); [intros n s Hi; eapply O; right; exact Hi|].
    exists (e1 ++ e2), (Nat.max F1 F2). split; [cbn [ser_fields]; rewrite E1; cbn [bind]; rewrite E2; reflexivity|].
    destruct C1 as [(S1 & C1)|[(S1 & b & k & dh & u & -> & -> & Ku & Iu & C1)|(S1 & _ & C1)]].
    + destruct C2 as [(S2 & C2)|[(S2 & C2)|(S2 & gs & HL & C2 & B)]].
      * left. split; [constructor; assumption|]. intros rest fuel HF. cbn [de_fields]. rewrite <- app_assoc, C1 by lia. cbn [bind].
        rewrite C2 by lia. reflexivity.
      * right. left. split; [intros H; inversion H; subst; contradiction|]. intros rest fuel HF. cbn [de_fields]. rewrite <- app_assoc, C1 by lia. cbn [bind].
        rewrite C2 by lia. reflexivity.
      * right. right. split; [intros H; inversion H; subst; contradiction|]. exists (f :: gs). split; [cbn; lia|]. split.
        -- intros rest fuel HF. cbn [de_fields]. rewrite <- app_assoc, C1 by lia. cbn [bind]. rewrite C2 by lia. reflexivity.
        -- intros kw A. cbn [construct_loop]. rewrite (A 0 name f eq_refl eq_refl). cbn [bind].
           destruct (fits_attr_ok ct _ sr f W O3 S1) as (K1 & K2). rewrite K1. cbn [bind]. rewrite K2. cbn [bind].
           rewrite B; [reflexivity|]. intros i. apply (A (S i)).
    + assert (BAD : forall kw, assoc name kw = Some (PHash b dh) -> construct_loop ct ((name, SerProof b) :: attrs) kw = Err SerializerTypeError).
      { intros kw A. cbn [construct_loop]. rewrite A. cbn [bind check]. rewrite Ku.
        assert (existsb (isinst ct (PHash b dh)) u = false) as ->; [|reflexivity].
        destruct (existsb (isinst ct (PHash b dh)) u) eqn:Ex; [|reflexivity]. apply existsb_exists in Ex. destruct Ex as (m & Im & Hm).
        apply isinst_iff in Hm. destruct Hm as (k' & Ek' & Sm). inversion Ek'; subst k'. exfalso. exact (O2 u m Ku Im Sm). }
      assert (NF : ~ fits_all ct bits_survive ((name, SerProof b) :: attrs) (PHash k dh :: fs)) by (intros H; inversion H; subst; contradiction).
      destruct C2 as [(S2 & C2)|[(S2 & C2)|(S2 & gs & HL & C2 & B)]].
      * right. right. split; [exact NF|]. exists (PHash b dh :: fs). split; [cbn; f_equal; symmetry; eapply fits_all_length, S2|]. split.
        -- intros rest fuel HF. cbn [de_fields]. rewrite <- app_assoc, C1 by lia. cbn [bind]. rewrite C2 by lia. reflexivity.
        -- intros kw A. apply BAD. apply (A 0); reflexivity.
      * right. left. split; [exact NF|]. intros rest fuel HF. cbn [de_fields]. rewrite <- app_assoc, C1 by lia. cbn [bind]. rewrite C2 by lia. reflexivity.
      * right. right. split; [exact NF|]. exists (PHash b dh :: gs). split; [cbn; lia|]. split.
        -- intros rest fuel HF. cbn [de_fields]. rewrite <- app_assoc, C1 by lia. cbn [bind]. rewrite C2 by lia. reflexivity.
        -- intros kw A. apply BAD. apply (A 0); reflexivity.
    + right. left. split; [intros H; inversion H; subst; contradiction|]. intros rest fuel HF. cbn [de_fields]. rewrite <- app_assoc, C1 by lia. reflexivity.
Qed.

(** The frozen form of a view of a fitting proof is loose. *)
Lemma sealed_loose ct sr f h : wf_table ct -> fits ct bits_survive sr f -> is_proof f = true -> phash ct f = Ok h -> loose ct sr (sealed ct f).
Proof.
  intros W H L P. destruct (phash_data ct _ sr f h W H P) as (d & D & LD).
  assert (K : forall c, fits ct bits_survive (SerProof c) f -> loose ct (SerProof c) (sealed ct f)).
  { intros c Hc. destruct (fits_class _ _ _ _ Hc) as (k & Hk & Dk). unfold sealed. rewrite Hk, (dhash_ok _ _ _ D). apply Lo_hash; assumption. }
  destruct sr; try (inversion H; subst; discriminate L).
  - apply K, H.
  - inversion H as [| | | | | |? c ? Hi Hc]; subst. eapply Lo_union; [exact Hi|apply K, Hc].
Qed.

Lemma frozen_loose ct : wf_table ct -> forall o sr v, fits ct bits_survive sr o -> shows ct o v ->
  (is_proof o = true -> exists h, phash ct o = Ok h) -> loose ct sr (frozen ct v).
Proof.
  intros W. induction o as [pv|bl|t0|o0|c fs IH|c dh|c0 o0 st0 IHo0 IHst0] using val_ind'; intros sr v H S P;
    inversion S as [? L|? ? ? HF HL|]; subst; try discriminate L; try (apply Lo_leaf; [reflexivity|exact H]).
  - destruct (P eq_refl) as (h & Hh). rewrite frozen_view. destruct (forallb is_none st) eqn:EN.
    + exact (sealed_loose ct sr _ h W H eq_refl Hh).
    + assert (FF : loose_all ct (c_attrs (ct c)) (freeze_fields ct fs st)).
      { pose proof (fits_full_all _ _ _ _ _ H) as FA. pose proof (phash_sub ct _ sr c fs h W H Hh) as AH.
        clear S H P EN Hh. revert FA HL HF IH AH. generalize (c_attrs (ct c)) as attrs.
        intros attrs FA HL HF IH AH. revert st HF HL. induction FA as [|name s attrs f fs Hf Hfs IHa]; intros st HF HL.
        - inversion HF; subst. constructor.
        - inversion HF as [|? s0 ? st' R HF']; subst. inversion IH as [|? ? IHf IHfs]; subst. cbn in HL.
          pose proof (IHa IHfs (all_hashed_tl _ _ _ _ _ AH) st' HF' ltac:(lia)) as A. cbn [freeze_fields].
          assert (HH : is_proof f = true -> exists h, phash ct f = Ok h) by (apply (AH 0 _ _ eq_refl eq_refl)).
          apply LoA_cons; [|exact A]. destruct R as [->|(x & -> & Hx)].
          + destruct (is_proof f) eqn:L.
            * destruct (HH eq_refl) as (hf & Hhf). eapply sealed_loose; eassumption.
            * assert (sealed ct f = f) as -> by (destruct f; try discriminate L; reflexivity). apply Lo_leaf; assumption.
          + apply IHf; assumption. }
      clear -H FF. remember (PFull c fs) as o eqn:E.
      induction H; try discriminate E; [inversion E; subst; apply Lo_full; assumption|eapply Lo_union; [eassumption|auto]].
  - cbn [frozen]. rewrite forallb_none_repeat. inversion H as [| | | | |? ? D LD|? b ? Hi Hb]; subst; [apply Lo_hash; assumption|].
    eapply Lo_union; [exact Hi|]. inversion Hb; subst. apply Lo_hash; assumption.
Qed.

(** What arrives when a used view is serialized and deserialized. *)
Lemma view_arrival ct c o h os : wf_table ct -> variant_table ct -> fits ct bits_survive (SerProof c) o -> phash ct o = Ok h ->
  let v := steps ct (prune ct o) os in
  let w := frozen ct v in
  exists enc, ser_proof ct v = Ok enc /\
  ((fits ct bits_survive (SerProof c) w /\ forall rest, de_class ct c (enc ++ rest) = Ok (w, rest)) \/
   (~ fits ct bits_survive (SerProof c) w /\ (exists k dh, w = PHash k dh /\ k <> c /\ forall rest, de_class ct c (enc ++ rest) = Ok (PHash c dh, rest))) \/
   (~ fits ct bits_survive (SerProof c) w /\ (forall k dh, w <> PHash k dh) /\ forall rest, de_class ct c (enc ++ rest) = Err SerializerTypeError)).
Proof.
  intros W VT H P v w. pose proof (prune_shows _ _ _ _ H) as S0. pose proof (steps_shows ct _ W os _ o _ H S0) as S. fold v in S.
  pose proof (frozen_loose ct W o _ v H S (fun _ => ex_intro _ h P)) as L. fold w in L.
  destruct (proj1 (all_arrive ct W VT) _ _ L (conj I I)) as (enc & F & E & C). exists enc.
  split. { pose proof (ser_frozen ct bits_survive W o (SerProof c) v h H S (fun _ => P)) as SF. cbn [ser_val] in *. rewrite SF. exact E. }
  destruct C as [(HS & C)|[(HS & b & k & dh & u & Eb & Ew & Ku & Iu & C)|(HS & NH & C)]].
  - left. split; [exact HS|]. intros rest. eapply de_class_any. intros fuel HF. apply C, HF.
  - right. left. split; [exact HS|]. exists k, dh. inversion Eb; subst b. split; [exact Ew|]. split.
    + intros ->. apply HS. rewrite Ew. apply F_hash; [unfold declared; rewrite Ku; exact Iu|]. rewrite Ew in L. inversion L; subst; [discriminate|assumption].
    + intros rest. eapply de_class_any. intros fuel HF. apply C, HF.
  - right. right. split; [exact HS|]. split; [exact NH|]. intros rest. eapply de_class_any. intros fuel HF. apply C, HF.
Qed.
