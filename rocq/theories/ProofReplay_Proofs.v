(** Proofs about Proof_Model.v, part 4: computations on views, transport of views. *)
From Verif Require Import Base Bits_Model Sha256 Serialize_Model Serialize_Spec Serialize_Proofs
  Tx_Model Tx_Spec Proof_Model Proof_Spec Proof_Proofs ProofHash_Proofs ProofView_Proofs.
From Coq Require Import ZifyBool ZifyNat ZifyN.
Ltac Zify.zify_post_hook ::= Z.div_mod_to_equations.

(** ** Views only gain attributes *)

Inductive vext : val -> val -> Prop :=
| VE_refl v : vext v v
| VE_view c o st st' : Forall2 (fun s s' => forall x, s = Some x -> exists x', s' = Some x' /\ vext x x') st st' ->
    vext (PView c o st) (PView c o st').

Lemma vext_trans : forall a b c, vext a b -> vext b c -> vext a c.
Proof.
  induction a as [pv|bl|t0|o0|c0 fs IH|c0 dh|c0 o0 st0 IHo0 IHst0] using val_ind'; intros b c H1 H2; inversion H1; subst; try exact H2.
  inversion H2 as [|? ? ? st2 G2]; subst; [exact H1|]. apply VE_view.
  match goal with H : Forall2 _ st0 st' |- _ => rename H into G1 end. clear H1 H2.
  revert st2 G2 IHst0. induction G1 as [|s s' st st' R F IHF]; intros st2 G2 IHs; inversion G2 as [|? s2 ? st2' R2 F2]; subst; [constructor|].
  inversion IHs as [|? ? I1 I2]; subst. constructor; [|apply IHF; assumption].
  intros x ->. destruct (R x eq_refl) as (x' & -> & V). destruct (R2 x' eq_refl) as (x2 & -> & V2). exists x2. split; [reflexivity|].
  eapply I1; eassumption.
Qed.

Lemma forall2_refl {A} (R : A -> A -> Prop) l : (forall x, R x x) -> Forall2 R l l.
Proof. intros H. induction l; constructor; auto. Qed.

Lemma vext_set c o st i x : (forall y, nth_error st i = Some (Some y) -> vext y x) -> vext (PView c o st) (PView c o (set_nth i (Some x) st)).
Proof.
  intros H. apply VE_view. revert i H. induction st as [|s st IH]; intros [|i] H; cbn; constructor.
  - intros y ->. exists x. split; [reflexivity|]. apply H. reflexivity.
  - apply forall2_refl. intros z y ->. exists y. split; [reflexivity|apply VE_refl].
  - intros y ->. exists y. split; [reflexivity|apply VE_refl].
  - apply IH. intros y Hy. apply H. exact Hy.
Qed.

Lemma read_vext ct Q path : wf_table ct -> forall sr o v, fits ct Q sr o -> shows ct o v -> vext v (snd (read ct v path)).
Proof.
  intros W. induction path as [|name path IH]; intros sr o v H S; [apply VE_refl|]. cbn [read].
  destruct S as [v L|c fs st HF HL|c dh].
  - destruct v; try discriminate L; apply VE_refl.
  - destruct (attr_index (c_attrs (ct c)) name) as [i|] eqn:Ei.
    + destruct (view_get ct Q sr c fs st name i W H (Sh_full ct c fs st HF HL) Ei) as (f & x & Ef & (sr' & Hf) & Hx & G1 & G2 & C).
      rewrite G2. specialize (IH sr' f x Hf Hx). destruct (read ct x path) as [r x']. cbn [snd] in *. cbn [put_back]. rewrite Ei, set_nth_twice.
      apply vext_set. intros y Hy. destruct C as [C|(C & _)]; rewrite C in Hy; inversion Hy; subst. exact IH.
    + cbn [get]. rewrite Ei. apply VE_refl.
  - cbn [get]. destruct (attr_index _ _) as [i|] eqn:Ei; [|apply VE_refl].
    destruct (nth_error _ i) as [[y|]|] eqn:E; try apply VE_refl. exfalso. clear -E. revert i E.
    induction (List.length (c_attrs (ct c))) as [|n IHn]; intros [|i] E; cbn in E; try discriminate. eauto.
Qed.

(** ** Reading the frozen form *)

Lemma forallb_none_nth (st : list (option val)) i x : nth_error st i = Some (Some x) -> forallb is_none st = false.
Proof. revert i; induction st as [|s st IH]; intros [|i] H; cbn in *; try discriminate; [inversion H; reflexivity|]. rewrite (IH i H). destruct (is_none s); reflexivity. Qed.

Lemma freeze_nth ct fs : forall st i x f, nth_error fs i = Some f -> nth_error st i = Some (Some x) -> nth_error (freeze_fields ct fs st) i = Some (frozen ct x).
Proof. induction fs as [|g fs IH]; intros [|s st] [|i] x f Hf Hs; cbn in *; try discriminate; [inversion Hs; reflexivity|eauto]. Qed.

Lemma pruned_only_nth P c fs i f : pruned_only P (PFull c fs) -> nth_error fs i = Some f -> pruned_only P f.
Proof. intros H Hf. inversion H as [? Hx|? ? HF|]; subst; [discriminate Hx|]. rewrite Forall_forall in HF. apply HF. eapply nth_error_In, Hf. Qed.

Lemma put_back_settled ct c fs i x name : attr_index (c_attrs (ct c)) name = Some i -> nth_error fs i = Some x -> put_back ct (PFull c fs) name x = PFull c fs.
Proof. intros Ei Ex. cbn [put_back]. rewrite Ei, set_nth_id; auto. Qed.

Lemma replay ct Q path : wf_table ct -> forall sr o v v2, fits ct Q sr o -> shows ct o v -> shows ct o v2 ->
  vext (snd (read ct v path)) v2 ->
  let r := read ct (frozen ct v2) path in
  snd r = frozen ct v2 /\ observe (fst r) = observe (fst (read ct o path)) /\
  (forall h, phash ct o = Ok h -> pruned_only (tagged_class ct) (frozen ct v2) -> hash_of ct (fst r) = hash_of ct (fst (read ct o path))).
Proof.
  intros W. induction path as [|name path IH]; intros sr o v v2 H S S2 V.
  - cbn. split; [reflexivity|]. split.
    + unfold observe. rewrite (frozen_class _ _ _ S2). destruct (class_of o) eqn:E; [reflexivity|].
      assert (L : is_proof o = false) by (unfold is_proof; rewrite E; reflexivity). rewrite (shows_leaf _ _ _ S2 L).
      destruct o; try discriminate L; reflexivity.
    + intros h P T. rewrite P. eapply frozen_hash; eassumption.
  - cbn [read] in *. destruct S as [v L|c fs st HF HL|c dh].
    + rewrite (shows_leaf _ _ _ S2 L). destruct v; try discriminate L; cbn; auto.
    + destruct (attr_index (c_attrs (ct c)) name) as [i|] eqn:Ei.
      * destruct (view_get ct Q sr c fs st name i W H (Sh_full ct c fs st HF HL) Ei) as (f & x & Ef & (sr' & Hf) & Hx & G1 & G2 & C).
        rewrite G1. rewrite G2 in V. pose proof (IH sr' f x) as IH'. destruct (read ct x path) as [rx x'] eqn:Rx. cbn [snd] in V, IH'.
        cbn [put_back] in V. rewrite Ei, set_nth_twice in V.
        inversion S2 as [? LX|? ? st2 HF2 HL2|]; [discriminate LX|]; subst v2.
        assert (Li : i < List.length st) by (rewrite HL; destruct (attr_index_nth _ _ _ Ei) as (s & Es); apply nth_error_Some; congruence).
        assert (K : exists x2, nth_error st2 i = Some (Some x2) /\ vext x' x2).
        { inversion V as [|? ? ? ? VF]; subst.
          - exists x'. split; [apply set_nth_same; exact Li|apply VE_refl].
          - destruct (forall2_nth _ _ _ _ _ VF (set_nth_same i (Some x') st Li)) as (s2 & Es2 & R). destruct (R x' eq_refl) as (x2 & -> & V2). eauto. }
        destruct K as (x2 & Ex2 & V2). destruct (forall2_nth _ _ _ _ _ HF2 Ef) as (s2 & Es2 & R). rewrite Ex2 in Es2. inversion Es2; subst s2.
        destruct R as [R|(x2' & R & Hx2)]; [discriminate|]. inversion R; subst x2'.
        specialize (IH' x2 Hf Hx Hx2 V2). rewrite frozen_view, (forallb_none_nth _ _ _ Ex2) in *.
        pose proof (freeze_nth ct fs st2 i x2 f Ef Ex2) as Efz.
        assert (G3 : get ct (PFull c (freeze_fields ct fs st2)) name = Ok (frozen ct x2, PFull c (freeze_fields ct fs st2))).
        { cbn [get]. rewrite Ei, Efz. reflexivity. }
        assert (EL : is_proof f = false -> fst (read ct (frozen ct x2) path) = fst (read ct f path)).
        { intros Lf. rewrite (shows_leaf _ _ _ Hx2 Lf). destruct f; try discriminate Lf; reflexivity. }
        rewrite G3. cbn zeta in IH'. destruct IH' as (I1 & I2 & I3).
        destruct (read ct (frozen ct x2) path) as [r x3]. destruct (read ct f path) as [rf f']. cbn [fst snd] in *. subst x3.
        split; [apply (put_back_settled ct c _ i); assumption|]. split; [exact I2|].
        intros h P T. destruct (is_proof f) eqn:Lf.
        -- assert (exists hf, phash ct f = Ok hf) as (hf & Hhf).
           { destruct (attr_index_nth _ _ _ Ei) as (s & Es). eapply (phash_sub ct Q sr c fs h W H P); eassumption. }
           eapply I3; [exact Hhf|]. eapply pruned_only_nth; eassumption.
        -- rewrite (EL eq_refl). reflexivity.
      * assert (get ct (PFull c fs) name = Err AttributeError) as -> by (cbn [get]; rewrite Ei; reflexivity).
        inversion S2 as [? LX|? ? st2 HF2 HL2|]; [discriminate LX|]; subst v2. rewrite frozen_view.
        assert (forall w, class_of w = Some c -> match w with PView _ _ _ => False | _ => True end -> get ct w name = Err AttributeError) as K.
        { intros w Hw. destruct w; try discriminate Hw; try contradiction; inversion Hw; subst; cbn [get]; rewrite Ei; auto. }
        rewrite K; [cbn; auto|destruct (forallb _ _); reflexivity|destruct (forallb _ _); exact I].
    + inversion S2 as [? LX| |]; [discriminate LX|]; subst v2. assert (E0 : frozen ct (PView c (PHash c dh) (repeat None (List.length (c_attrs (ct c))))) = PHash c dh).
      { cbn [frozen]. rewrite forallb_none_repeat. reflexivity. }
      rewrite E0. destruct (get ct (PHash c dh) name) as [[? ?]|] eqn:G; [|cbn; auto].
      cbn [get] in G. destruct (attr_index _ _); discriminate.
Qed.

(** ** Computations *)

Lemma same_observe ct r1 r2 : same_result ct r1 r2 -> observe r2 = observe r1.
Proof.
  destruct r1 as [y|e], r2 as [x|e']; cbn; try contradiction; [|congruence]. intros S. rewrite (shows_class _ _ _ S).
  destruct (class_of y) eqn:E; [reflexivity|]. rewrite (shows_leaf _ _ _ S); [reflexivity|]. unfold is_proof. rewrite E. reflexivity.
Qed.

Lemma same_hash_of ct r1 r2 : same_result ct r1 r2 -> hash_of ct r2 = hash_of ct r1.
Proof.
  destruct r1 as [y|e], r2 as [x|e']; cbn; try contradiction; [|congruence]. intros S. unfold phash. rewrite (shows_hashes _ _ _ S). reflexivity.
Qed.

Lemma run_shows {R} ct Q (p : prog R) : wf_table ct -> forall sr o v, fits ct Q sr o -> shows ct o v ->
  shows ct o (snd (run ct p v)) /\ vext v (snd (run ct p v)).
Proof.
  intros W. induction p as [r|path k IH|path k IH]; intros sr o v H S; cbn [run].
  - split; [exact S|apply VE_refl].
  - destruct (read_shows ct Q path W sr o v H S) as (S' & _). pose proof (read_vext ct Q path W sr o v H S) as V.
    destruct (read ct v path) as [r v']. cbn [fst snd] in *. destruct (IH (observe r) sr o v' H S') as (A & B). split; [exact A|].
    eapply vext_trans; eassumption.
  - destruct (read_shows ct Q path W sr o v H S) as (S' & _). pose proof (read_vext ct Q path W sr o v H S) as V.
    destruct (read ct v path) as [r v']. cbn [fst snd] in *. destruct (IH (hash_of ct r) sr o v' H S') as (A & B). split; [exact A|].
    eapply vext_trans; eassumption.
Qed.

Lemma run_same {R} ct Q (p : prog R) : wf_table ct -> forall sr o v, fits ct Q sr o -> shows ct o v ->
  fst (run ct p v) = fst (run ct p o) /\ snd (run ct p o) = o.
Proof.
  intros W. induction p as [r|path k IH|path k IH]; intros sr o v H S; cbn [run]; [auto| |].
  - destruct (read_shows ct Q path W sr o v H S) as (S' & E). pose proof (read_settled ct Q path sr o H) as F.
    destruct (read ct v path) as [r v']. destruct (read ct o path) as [r2 o']. cbn [fst snd] in *. subst o'.
    rewrite (same_observe _ _ _ E). eapply IH; eassumption.
  - destruct (read_shows ct Q path W sr o v H S) as (S' & E). pose proof (read_settled ct Q path sr o H) as F.
    destruct (read ct v path) as [r v']. destruct (read ct o path) as [r2 o']. cbn [fst snd] in *. subst o'.
    rewrite (same_hash_of _ _ _ E). eapply IH; eassumption.
Qed.

Lemma run_replay {R} ct Q (p : prog R) h : wf_table ct -> forall sr o v v2, fits ct Q sr o -> shows ct o v -> shows ct o v2 ->
  vext (snd (run ct p v)) v2 -> phash ct o = Ok h -> pruned_only (tagged_class ct) (frozen ct v2) ->
  run ct p (frozen ct v2) = (fst (run ct p o), frozen ct v2).
Proof.
  intros W. induction p as [r|path k IH|path k IH]; intros sr o v v2 H S S2 V P T; cbn [run] in *; [reflexivity| |].
  - destruct (read_shows ct Q path W sr o v H S) as (S' & E). pose proof (read_settled ct Q path sr o H) as F.
    pose proof (fun V1 => replay ct Q path W sr o v v2 H S S2 V1) as RP.
    destruct (read ct v path) as [r v'] eqn:Rv. cbn [fst snd] in *.
    pose proof (run_shows ct Q (k (observe r)) W sr o v' H S') as (_ & V').
    specialize (RP (vext_trans _ _ _ V' V)). destruct RP as (A & B & _).
    destruct (read ct o path) as [r2 o']. destruct (read ct (frozen ct v2) path) as [r3 w']. cbn [fst snd] in *. subst o' w'.
    rewrite (same_observe _ _ _ E) in V. rewrite B. eapply IH; eassumption.
  - destruct (read_shows ct Q path W sr o v H S) as (S' & E). pose proof (read_settled ct Q path sr o H) as F.
    pose proof (fun V1 => replay ct Q path W sr o v v2 H S S2 V1) as RP.
    destruct (read ct v path) as [r v'] eqn:Rv. cbn [fst snd] in *.
    pose proof (run_shows ct Q (k (hash_of ct r)) W sr o v' H S') as (_ & V').
    specialize (RP (vext_trans _ _ _ V' V)). destruct RP as (A & _ & B). specialize (B h P T).
    destruct (read ct o path) as [r2 o']. destruct (read ct (frozen ct v2) path) as [r3 w']. cbn [fst snd] in *. subst o' w'.
    rewrite (same_hash_of _ _ _ E) in V. rewrite B. eapply IH; eassumption.
Qed.

(** ** The frozen form fits again, in tables without variants *)

Definition plain_ser (ct : ctable) (sr : ser) : Prop :=
  match sr with SerProof k => plain_tagged ct k | SerUnion ks => forall k, In k ks -> plain_tagged ct k | _ => True end.

Lemma plain_declared ct c : c_kind (ct c) = Plain -> declared ct c c.
Proof. unfold declared. intros ->. reflexivity. Qed.

Lemma sealed_fits ct Q sr f h : wf_table ct -> fits ct Q sr f -> plain_ser ct sr -> is_proof f = true -> phash ct f = Ok h ->
  fits ct Q sr (sealed ct f) /\ pruned_only (tagged_class ct) (sealed ct f).
Proof.
  intros W H PS L P. destruct (phash_data ct Q sr f h W H P) as (d & D & LD).
  assert (K : forall c, fits ct Q (SerProof c) f -> plain_tagged ct c -> fits ct Q (SerProof c) (sealed ct f) /\ pruned_only (tagged_class ct) (sealed ct f)).
  { intros c Hc (PK & TG). destruct (fits_class _ _ _ _ Hc) as (k & Hk & Dk). unfold declared in Dk. rewrite PK in Dk. subst k.
    unfold sealed. rewrite Hk, (dhash_ok _ _ _ D). split; [apply F_hash; [apply plain_declared, PK|exact LD]|apply PO_hash; exact TG]. }
  destruct sr; try (inversion H; subst; discriminate L).
  - apply K; assumption.
  - inversion H as [| | | | | |? c ? Hi Hc]; subst. destruct (K c Hc (PS c Hi)) as (A & B). split; [econstructor; eassumption|exact B].
Qed.

Lemma leaf_pruned_only P v : is_proof v = false -> pruned_only P v.
Proof. intros L. apply PO_leaf. destruct v; try discriminate L; reflexivity. Qed.

Lemma frozen_fits ct Q : wf_table ct -> plain_table ct -> forall o sr v, fits ct Q sr o -> plain_ser ct sr -> shows ct o v ->
  (is_proof o = true -> exists h, phash ct o = Ok h) ->
  fits ct Q sr (frozen ct v) /\ pruned_only (tagged_class ct) (frozen ct v).
Proof.
  intros W PT. induction o as [pv|bl|t0|o0|c fs IH|c dh|c0 o0 st0 IHo0 IHst0] using val_ind'; intros sr v H PS S P;
    inversion S as [? L|? ? ? HF HL|]; subst; try discriminate L; try (split; [exact H|apply leaf_pruned_only; reflexivity]).
  - destruct (P eq_refl) as (h & Hh). rewrite frozen_view. destruct (forallb is_none st) eqn:EN.
    + destruct (sealed_fits ct Q sr _ h W H PS eq_refl Hh) as (A & B). unfold sealed in A, B. cbn [class_of] in A, B. auto.
    + assert (FF : fits_all ct Q (c_attrs (ct c)) (freeze_fields ct fs st) /\ Forall (pruned_only (tagged_class ct)) (freeze_fields ct fs st)).
      { pose proof (fits_full_all _ _ _ _ _ H) as FA. pose proof (phash_sub ct Q sr c fs h W H Hh) as AH.
        assert (PA : forall name s, In (name, s) (c_attrs (ct c)) -> plain_ser ct s) by (intros name s Hi; exact (PT c name s Hi)).
        clear S H P EN Hh. revert FA HL HF IH AH PA. generalize (c_attrs (ct c)) as attrs.
        intros attrs FA HL HF IH AH PA. revert st HF HL. induction FA as [|name s attrs f fs Hf Hfs IHa]; intros st HF HL.
        - inversion HF; subst. split; constructor.
        - inversion HF as [|? s0 ? st' R HF']; subst. inversion IH as [|? ? IHf IHfs]; subst. cbn in HL.
          destruct (IHa IHfs (all_hashed_tl _ _ _ _ _ AH) (fun n x Hi => PA n x (or_intror Hi)) st' HF' ltac:(lia)) as (A & B).
          cbn [freeze_fields]. pose proof (PA name s (or_introl eq_refl)) as PSf.
          assert (HH : is_proof f = true -> exists h, phash ct f = Ok h) by (apply (AH 0 _ _ eq_refl eq_refl)).
          enough (fits ct Q s (match s0 with Some x => frozen ct x | None => sealed ct f end) /\
                  pruned_only (tagged_class ct) (match s0 with Some x => frozen ct x | None => sealed ct f end)) as (A' & B') by (split; constructor; assumption).
          destruct R as [->|(x & -> & Hx)].
          + destruct (is_proof f) eqn:L.
            * destruct (HH eq_refl) as (hf & Hhf). eapply sealed_fits; eassumption.
            * assert (sealed ct f = f) as -> by (destruct f; try discriminate L; reflexivity). split; [exact Hf|apply leaf_pruned_only, L].
          + apply IHf; assumption. }
      destruct FF as (FF & PO). split; [|apply PO_full, PO]. clear -H FF. remember (PFull c fs) as o eqn:E.
      induction H; try discriminate E; [inversion E; subst; apply F_full; assumption|eapply F_union; [eassumption|auto]].
  - cbn [frozen]. rewrite forallb_none_repeat. split; [exact H|]. apply PO_hash. destruct (P eq_refl) as (h & Hh). unfold phash in Hh. cbn in Hh.
    unfold tagged in Hh. unfold tagged_class. destruct (c_hash (ct c)) as [[t|]|]; try discriminate. eauto.
Qed.

(** ** Statements on replay *)

Lemma view_transport {R} ct c o h (p : prog R) : wf_table ct -> fits ct bits_survive (SerProof c) o -> phash ct o = Ok h ->
  let v := snd (run ct p (prune ct o)) in
  fits ct bits_survive (SerProof c) (frozen ct v) -> pruned_only (tagged_class ct) (frozen ct v) ->
  exists enc w, ser_proof ct v = Ok enc /\ (forall rest, de_class ct c (enc ++ rest) = Ok (w, rest)) /\
    phash ct w = Ok h /\ fst (run ct p (prune ct o)) = fst (run ct p o) /\ fst (run ct p w) = fst (run ct p o) /\ w = frozen ct v.
Proof.
  intros W H P v FF PO. pose proof (prune_shows _ _ _ _ H) as S0. destruct (run_shows ct bits_survive p W _ o _ H S0) as (S & V). fold v in S, V.
  assert (FA : fits ct any_bits (SerProof c) (frozen ct v)).
  { clear -FF. revert FF. generalize (SerProof c) as sr. generalize (frozen ct v) as w. intros w sr Hw.
    apply (fits_mind ct bits_survive (fun sr w _ => fits ct any_bits sr w) (fun a fs _ => fits_all ct any_bits a fs)) with (v := w); try (intros; econstructor; eauto; fail).
    - intros; constructor. exact I.
    - exact Hw. }
  destruct (proof_roundtrip ct c (frozen ct v) W FA) as (enc & E & D & _). exists enc, (frozen ct v).
  split. { pose proof (ser_frozen ct bits_survive W o (SerProof c) v h H S (fun _ => P)) as SF. cbn [ser_val] in SF. rewrite SF. exact E. }
  split; [intros rest; apply D, FF|]. split; [exact (frozen_hash ct bits_survive W o (SerProof c) v h H S P PO)|].
  split; [eapply run_same; eassumption|]. split; [|reflexivity].
  erewrite run_replay; [reflexivity|exact W|exact H|exact S0|exact S|apply VE_refl|exact P|exact PO].
Qed.

Lemma replay_plain {R} ct c o h (p : prog R) : wf_table ct -> plain_table ct -> plain_tagged ct c ->
  fits ct bits_survive (SerProof c) o -> phash ct o = Ok h ->
  exists enc w, ser_proof ct (snd (run ct p (prune ct o))) = Ok enc /\ (forall rest, de_class ct c (enc ++ rest) = Ok (w, rest)) /\
    phash ct w = Ok h /\ fst (run ct p (prune ct o)) = fst (run ct p o) /\ fst (run ct p w) = fst (run ct p o).
Proof.
  intros W PT PC H P. pose proof (prune_shows _ _ _ _ H) as S0. destruct (run_shows ct bits_survive p W _ o _ H S0) as (S & _).
  destruct (frozen_fits ct bits_survive W PT o (SerProof c) _ H PC S) as (A & B); [eauto|].
  destruct (view_transport ct c o h p W H P A B) as (enc & w & E & D & Hh & R1 & R2 & _). exists enc, w. auto.
Qed.
