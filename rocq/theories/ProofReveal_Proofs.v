(** What the bytes of a pruned view depend on (C20). *)
From Verif Require Import Base Serialize_Model Proof_Model Proof_Spec Proof_Proofs ProofHash_Proofs ProofView_Proofs.

Inductive sim (ct : ctable) : list (list string) -> list (list string) -> val -> val -> Prop :=
| Si_leaf dn al v : is_proof v = false -> sim ct dn al v v
| Si_hash dn al c dh : sim ct dn al (prune ct (PHash c dh)) (prune ct (PHash c dh))
| Si_unv dn al c o1 o2 : class_of o1 = Some c -> class_of o2 = Some c -> data_hash ct o1 = data_hash ct o2 -> ~ visits ct c al ->
    sim ct dn al (prune ct o1) (prune ct o2)
| Si_vis dn al c fs1 fs2 st1 st2 : visits ct c al -> sim_all ct dn al (c_attrs (ct c)) fs1 fs2 st1 st2 ->
    sim ct dn al (PView c (PFull c fs1) st1) (PView c (PFull c fs2) st2)
with sim_all (ct : ctable) : list (list string) -> list (list string) -> list (string * ser) -> list val -> list val -> list (option val) -> list (option val) -> Prop :=
| SA_nil dn al : sim_all ct dn al [] [] [] [] []
| SA_none dn al name sr attrs f1 fs1 f2 fs2 st1 st2 : looks_same ct (through name al) f1 f2 -> existsb (starts name) dn = false ->
    sim_all ct dn al attrs fs1 fs2 st1 st2 -> sim_all ct dn al ((name, sr) :: attrs) (f1 :: fs1) (f2 :: fs2) (None :: st1) (None :: st2)
| SA_some dn al name sr attrs f1 fs1 f2 fs2 x1 x2 st1 st2 : looks_same ct (through name al) f1 f2 ->
    sim ct (through name dn) (through name al) x1 x2 ->
    sim_all ct dn al attrs fs1 fs2 st1 st2 -> sim_all ct dn al ((name, sr) :: attrs) (f1 :: fs1) (f2 :: fs2) (Some x1 :: st1) (Some x2 :: st2).

Scheme sim_mind := Induction for sim Sort Prop with sim_all_mind := Induction for sim_all Sort Prop.
Combined Scheme sim_both from sim_mind, sim_all_mind.

Lemma not_started name ps : existsb (starts name) ps = false -> through name ps = [].
Proof.
  unfold through. induction ps as [|p ps IH]; cbn; [reflexivity|]. destruct (starts name p); cbn; [discriminate|exact IH].
Qed.

Lemma prune_sim ct al o1 o2 dn : looks_same ct al o1 o2 -> (forall name, existsb (starts name) dn = false) -> sim ct dn al (prune ct o1) (prune ct o2).
Proof.
  intros H ND. destruct H as [al v L|al c dh|al c o1 o2 C1 C2 D V|al c fs1 fs2 V A].
  - unfold prune. assert (class_of v = None) as -> by (destruct v; try discriminate L; reflexivity). apply Si_leaf, L.
  - apply Si_hash.
  - eapply Si_unv; eassumption.
  - unfold prune. cbn [class_of]. apply Si_vis; [exact V|]. clear V. induction A; cbn; [constructor|]. apply SA_none; auto.
Qed.

(** An unvisited original: nothing depends on its contents. *)
Lemma looks_nil ct f1 f2 : looks_same ct [] f1 f2 -> f1 = f2 \/ exists c, class_of f1 = Some c /\ class_of f2 = Some c /\ data_hash ct f1 = data_hash ct f2.
Proof.
  intros H. inversion H as [| |? c ? ? C1 C2 D V|? c ? ? V A]; subst; auto; [eauto|].
  destruct V as (n & sr & _ & V). discriminate V.
Qed.

Lemma sim_weak ct dn dn' al v1 v2 : (forall name, existsb (starts name) dn' = existsb (starts name) dn) -> (forall name, through name dn' = through name dn) ->
  sim ct dn al v1 v2 -> sim ct dn' al v1 v2.
Proof.
  intros E T H. destruct H as [|dn al c dh|dn al c o1 o2 C1 C2 D V|dn al c fs1 fs2 st1 st2 V A]; [apply Si_leaf; assumption|apply Si_hash|eapply Si_unv; eassumption|].
  apply Si_vis; [exact V|]. clear V. induction A; [constructor|apply SA_none; auto; rewrite E; assumption|apply SA_some; auto; rewrite T; assumption].
Qed.

Lemma sim_all_other ct dn al attrs fs1 fs2 st1 st2 name p : sim_all ct dn al attrs fs1 fs2 st1 st2 -> ~ In name (map fst attrs) ->
  sim_all ct ((name :: p) :: dn) al attrs fs1 fs2 st1 st2.
Proof.
  induction 1 as [|dn al n sr attrs f1 fs1 f2 fs2 st1 st2 L E A IH|dn al n sr attrs f1 fs1 f2 fs2 x1 x2 st1 st2 L X A IH]; intros NI; [constructor| |];
    cbn in NI; assert (N : String.eqb name n = false) by (apply String.eqb_neq; intros ->; tauto).
  - apply SA_none; [exact L| |apply IH; tauto]. cbn. rewrite N. exact E.
  - apply SA_some; [exact L| |apply IH; tauto]. unfold through. cbn [filter starts]. rewrite N. exact X.
Qed.

Lemma sim_all_get ct dn al attrs fs1 fs2 st1 st2 i name sr : sim_all ct dn al attrs fs1 fs2 st1 st2 -> nth_error attrs i = Some (name, sr) ->
  exists f1 f2, nth_error fs1 i = Some f1 /\ nth_error fs2 i = Some f2 /\ looks_same ct (through name al) f1 f2 /\
    ((nth_error st1 i = Some None /\ nth_error st2 i = Some None /\ existsb (starts name) dn = false) \/
     exists x1 x2, nth_error st1 i = Some (Some x1) /\ nth_error st2 i = Some (Some x2) /\ sim ct (through name dn) (through name al) x1 x2).
Proof.
  intros H. revert i. induction H; intros i Hi; [destruct i; discriminate| |]; destruct i as [|i]; cbn [nth_error] in *; auto;
    inversion Hi; subst; do 2 eexists; (split; [reflexivity|]); (split; [reflexivity|]); (split; [eassumption|]); [left; auto|right; eauto].
Qed.

Lemma sim_all_set ct dn al attrs fs1 fs2 st1 st2 i name sr p x1 x2 : NoDup (map fst attrs) -> sim_all ct dn al attrs fs1 fs2 st1 st2 ->
  nth_error attrs i = Some (name, sr) -> sim ct (p :: through name dn) (through name al) x1 x2 ->
  sim_all ct ((name :: p) :: dn) al attrs fs1 fs2 (set_nth i (Some x1) st1) (set_nth i (Some x2) st2).
Proof.
  intros ND H. revert i. induction H as [|dn al n s attrs f1 fs1 f2 fs2 st1 st2 L E A IH|dn al n s attrs f1 fs1 f2 fs2 y1 y2 st1 st2 L X A IH]; intros i Hi Hx;
    [destruct i; discriminate| |]; inversion ND as [|? ? NI ND']; subst; destruct i as [|i]; cbn [nth_error set_nth] in *.
  - inversion Hi; subst. apply SA_some; [exact L| |apply sim_all_other; assumption]. unfold through at 1. cbn [filter starts]. rewrite String.eqb_refl. exact Hx.
  - assert (N : String.eqb name n = false).
    { apply String.eqb_neq. intros ->. apply NI. apply nth_error_In in Hi. apply in_map_iff. exists (n, sr). auto. }
    apply SA_none; auto. cbn. rewrite N. exact E.
  - inversion Hi; subst. apply SA_some; [exact L| |apply sim_all_other; assumption]. unfold through at 1. cbn [filter starts]. rewrite String.eqb_refl. exact Hx.
  - assert (N : String.eqb name n = false).
    { apply String.eqb_neq. intros ->. apply NI. apply nth_error_In in Hi. apply in_map_iff. exists (n, sr). auto. }
    apply SA_some; auto. unfold through at 1. cbn [filter starts]. rewrite N. exact X.
Qed.

Lemma visited_attr ct c name i al p : attr_index (c_attrs (ct c)) name = Some i -> In (name :: p) al -> visits ct c al.
Proof.
  intros A I. destruct (attr_index_nth _ _ _ A) as (sr & Hn). exists name, sr. split; [eapply nth_error_In, Hn|].
  apply existsb_exists. exists (name :: p). split; [exact I|]. cbn. apply String.eqb_refl.
Qed.

Lemma in_through name p al : In (name :: p) al -> In p (through name al).
Proof.
  intros I. unfold through. apply in_map_iff. exists (name :: p). split; [reflexivity|]. apply filter_In. split; [exact I|]. cbn. apply String.eqb_refl.
Qed.

Lemma read_sim ct p : wf_table ct -> forall dn al v1 v2, sim ct dn al v1 v2 -> In p al ->
  sim ct (p :: dn) al (snd (read ct v1 p)) (snd (read ct v2 p)).
Proof.
  intros W. induction p as [|name p IH]; intros dn al v1 v2 H I.
  - cbn. eapply sim_weak; [| |exact H]; reflexivity.
  - cbn [read]. destruct H as [dn al v L|dn al c dh|dn al c o1 o2 C1 C2 D V|dn al c fs1 fs2 st1 st2 V A].
    + assert (get ct v name = Err AttributeError) as -> by (destruct v; try discriminate L; reflexivity). cbn. apply Si_leaf, L.
    + assert (exists e, get ct (prune ct (PHash c dh)) name = Err e) as (e & ->).
      { unfold prune. cbn [class_of get]. destruct (attr_index _ name) as [i|]; [|eauto].
        assert (N : forall (n : nat) j, nth_error (repeat (@None val) n) j = Some None \/ nth_error (repeat (@None val) n) j = None).
        { induction n as [|n IHn]; intros [|j]; cbn; auto. }
        destruct (N (List.length (c_attrs (ct c))) i) as [-> | ->]; cbn; eauto. }
      cbn. apply Si_hash.
    + assert (forall o, class_of o = Some c -> get ct (prune ct o) name = Err AttributeError) as E.
      { intros o Co. unfold prune. rewrite Co. cbn [get]. destruct (attr_index _ name) as [i|] eqn:Ai; [|reflexivity].
        exfalso. apply V. eapply visited_attr; eassumption. }
      rewrite !E by assumption. cbn. eapply Si_unv; eassumption.
    + cbn [get]. destruct (attr_index (c_attrs (ct c)) name) as [i|] eqn:Ai.
      2:{ cbn. apply Si_vis; [exact V|]. apply sim_all_other; [exact A|]. intros Hi. apply in_map_iff in Hi. destruct Hi as ([n s] & En & Hi). cbn in En. subst n.
          apply (proj1 (attr_index_none _ _) Ai s Hi). }
      destruct (attr_index_nth _ _ _ Ai) as (sr & Hn). destruct (sim_all_get _ _ _ _ _ _ _ _ _ _ _ A Hn) as (f1 & f2 & F1 & F2 & L & R).
      destruct R as [(S1 & S2 & NS)|(x1 & x2 & S1 & S2 & X)]; rewrite S1, S2.
      * rewrite F1, F2. cbn [bind].
        assert (X : sim ct (through name dn) (through name al) (prune ct f1) (prune ct f2)).
        { rewrite (not_started _ _ NS). apply prune_sim; [exact L|]. reflexivity. }
        specialize (IH _ _ _ _ X (in_through _ _ _ I)).
        destruct (read ct (prune ct f1) p) as [r1 y1]. destruct (read ct (prune ct f2) p) as [r2 y2]. cbn [snd] in IH |- *.
        cbn [put_back]. rewrite Ai, !set_nth_twice. apply Si_vis; [exact V|]. eapply sim_all_set; try eassumption. apply (wf_names ct W).
      * specialize (IH _ _ _ _ X (in_through _ _ _ I)).
        destruct (read ct x1 p) as [r1 y1]. destruct (read ct x2 p) as [r2 y2]. cbn [snd] in IH |- *.
        cbn [put_back]. rewrite Ai. apply Si_vis; [exact V|]. eapply sim_all_set; try eassumption. apply (wf_names ct W).
Qed.

Lemma forallb_none_repeat' n : forallb (@is_none val) (repeat None n) = true.
Proof. induction n; auto. Qed.

Lemma prune_after ct o : is_proof o = true -> after_ser ct (prune ct o) = prune ct o.
Proof.
  unfold prune, is_proof. destruct (class_of o) as [c|]; [|discriminate]. intros _. rewrite after_ser_view, forallb_none_repeat'. reflexivity.
Qed.

Lemma sim_none ct dn al attrs fs1 fs2 st1 st2 : sim_all ct dn al attrs fs1 fs2 st1 st2 -> forallb is_none st1 = forallb is_none st2.
Proof. induction 1; cbn; auto. Qed.

Lemma field_of_tl' ct o a attrs f fs : field_of ct o (a :: attrs) (f :: fs) -> field_of ct o attrs fs.
Proof. intros H i. apply (H (S i)). Qed.

Lemma after_sim ct : wf_table ct -> forall dn al v1 v2, sim ct dn al v1 v2 -> sim ct dn al (after_ser ct v1) (after_ser ct v2).
Proof.
  intros W. apply (sim_mind ct (fun dn al v1 v2 _ => sim ct dn al (after_ser ct v1) (after_ser ct v2))
    (fun dn al attrs fs1 fs2 st1 st2 _ => forall o1 o2, field_of ct o1 attrs fs1 -> field_of ct o2 attrs fs2 ->
       sim_all ct dn al attrs fs1 fs2 (after_fields ct o1 attrs st1) (after_fields ct o2 attrs st2))).
  - intros dn al v L. destruct v; try discriminate L; apply Si_leaf; reflexivity.
  - intros dn al c dh. rewrite prune_after by reflexivity. apply Si_hash.
  - intros dn al c o1 o2 C1 C2 D V. rewrite !prune_after by (unfold is_proof; rewrite ?C1, ?C2; reflexivity). eapply Si_unv; eassumption.
  - intros dn al c fs1 fs2 st1 st2 V A IH. rewrite !after_ser_view, (sim_none _ _ _ _ _ _ _ _ A).
    destruct (forallb is_none st2); apply Si_vis; auto. apply IH; apply field_of_full, W.
  - intros. constructor.
  - intros dn al name sr attrs f1 fs1 f2 fs2 st1 st2 L NS A IH o1 o2 F1 F2. cbn [after_fields].
    rewrite (F1 0 name sr f1 eq_refl eq_refl), (F2 0 name sr f2 eq_refl eq_refl).
    apply SA_some; [exact L| |apply IH; eapply field_of_tl'; eassumption]. rewrite (not_started _ _ NS). apply prune_sim; [exact L|reflexivity].
  - intros dn al name sr attrs f1 fs1 f2 fs2 x1 x2 st1 st2 L X IHX A IH o1 o2 F1 F2. cbn [after_fields].
    apply SA_some; [exact L|exact IHX|apply IH; eapply field_of_tl'; eassumption].
Qed.

Lemma incl_through name al dn : incl al dn -> incl (through name al) (through name dn).
Proof.
  intros I p Hp. unfold through in *. apply in_map_iff in Hp. destruct Hp as (q & E & Hq). apply filter_In in Hq. apply in_map_iff. exists q.
  split; [exact E|]. apply filter_In. split; [apply I|]; tauto.
Qed.

Lemma incl_starts name al dn : incl al dn -> existsb (starts name) dn = false -> existsb (starts name) al = false.
Proof.
  intros I H. destruct (existsb (starts name) al) eqn:E; [|reflexivity]. apply existsb_exists in E. destruct E as (p & Hp & Sp).
  rewrite (proj2 (existsb_exists (starts name) dn)) in H; [discriminate|]. exists p. auto.
Qed.

Lemma all_none_unvisited ct dn al attrs fs1 fs2 st1 st2 : sim_all ct dn al attrs fs1 fs2 st1 st2 -> forallb is_none st1 = true ->
  forall name sr, In (name, sr) attrs -> existsb (starts name) dn = false.
Proof.
  induction 1; cbn; intros E n s I; [contradiction| |discriminate]. destruct I as [I|I]; [inversion I; subst; assumption|eauto].
Qed.

Lemma sim_ser ct : wf_table ct -> forall dn al v1 v2, sim ct dn al v1 v2 -> incl al dn -> class_of v1 = class_of v2 /\ ser_proof ct v1 = ser_proof ct v2 /\ (is_proof v1 = false -> v1 = v2).
Proof.
  intros W. apply (sim_mind ct (fun dn al v1 v2 _ => incl al dn -> class_of v1 = class_of v2 /\ ser_proof ct v1 = ser_proof ct v2 /\ (is_proof v1 = false -> v1 = v2))
    (fun dn al attrs fs1 fs2 st1 st2 _ => incl al dn -> forall o1 o2, field_of ct o1 attrs fs1 -> field_of ct o2 attrs fs2 ->
       ser_view_fields ct o1 attrs st1 = ser_view_fields ct o2 attrs st2)).
  - auto.
  - auto.
  - intros dn al c o1 o2 C1 C2 D V _. unfold prune. rewrite C1, C2. split; [reflexivity|]. split; [|discriminate]. rewrite !ser_view, forallb_none_repeat', D. reflexivity.
  - intros dn al c fs1 fs2 st1 st2 V A IH I. split; [reflexivity|]. split; [|discriminate]. rewrite !ser_view, <- (sim_none _ _ _ _ _ _ _ _ A).
    destruct (forallb is_none st1) eqn:E.
    + exfalso. destruct V as (name & sr & Hi & Hs). rewrite (incl_starts name al dn I) in Hs; [discriminate|]. eapply all_none_unvisited; eassumption.
    + rewrite (IH I _ _ (field_of_full ct c fs1 W) (field_of_full ct c fs2 W)).
      rewrite (ser_variant_class ct (PView c (PFull c fs1) st1) (PView c (PFull c fs2) st2)) by reflexivity. reflexivity.
  - reflexivity.
  - intros dn al name sr attrs f1 fs1 f2 fs2 st1 st2 L NS A IH I o1 o2 F1 F2. cbn [ser_view_fields].
    rewrite (IH I _ _ (field_of_tl' _ _ _ _ _ _ F1) (field_of_tl' _ _ _ _ _ _ F2)).
    rewrite (F1 0 name sr f1 eq_refl eq_refl), (F2 0 name sr f2 eq_refl eq_refl). cbn [bind].
    rewrite (not_started name al) in L by (eapply incl_starts; eassumption). destruct (looks_nil _ _ _ L) as [->|(c & C1 & C2 & D)]; [reflexivity|].
    assert (is_proof f1 = true /\ is_proof f2 = true) as (P1 & P2) by (unfold is_proof; rewrite C1, C2; auto). rewrite P1, P2, D.
    f_equal. destruct sr; try reflexivity; try (destruct f1; try discriminate P1; destruct f2; try discriminate P2; reflexivity).
    unfold ser_union. rewrite (union_index_class ct cs f1 f2) by congruence. reflexivity.
  - intros dn al name sr attrs f1 fs1 f2 fs2 x1 x2 st1 st2 L X IHX A IH I o1 o2 F1 F2. cbn [ser_view_fields].
    rewrite (IH I _ _ (field_of_tl' _ _ _ _ _ _ F1) (field_of_tl' _ _ _ _ _ _ F2)).
    destruct (IHX (incl_through _ _ _ I)) as (C & Sx & E). f_equal.
    destruct (is_proof x1) eqn:P1; [|rewrite (E eq_refl); reflexivity]. unfold is_proof in P1.
    destruct sr; try exact Sx; try (destruct x1; cbn in P1, C; try discriminate P1; destruct x2; cbn in C; try discriminate C; reflexivity).
    cbn [ser_val]. rewrite Sx. unfold ser_union. rewrite (union_index_class ct cs x1 x2) by congruence. reflexivity.
Qed.

Lemma steps_sim ct : wf_table ct -> forall os dn al v1 v2, sim ct dn al v1 v2 -> incl (paths os) al ->
  exists dn', sim ct dn' al (steps ct v1 os) (steps ct v2 os) /\ incl (paths os) dn' /\ incl dn dn'.
Proof.
  intros W. induction os as [|x os IH]; intros dn al v1 v2 H I.
  - exists dn. split; [exact H|]. split; [intros ? []|intros ? Hi; exact Hi].
  - change (steps ct v1 (x :: os)) with (steps ct (step ct v1 x) os). change (steps ct v2 (x :: os)) with (steps ct (step ct v2 x) os).
    destruct x as [p|]; cbn [step].
    + assert (In p al) as Ip by (apply I; cbn; auto).
      destruct (IH (p :: dn) al _ _ (read_sim ct p W dn al v1 v2 H Ip)) as (dn' & A & B & C); [intros q Hq; apply I; cbn; auto|].
      exists dn'. split; [exact A|]. split; [|intros q Hq; apply C; right; exact Hq]. intros q Hq. cbn in Hq. destruct Hq as [<-|Hq]; [apply C; left; reflexivity|apply B, Hq].
    + destruct (IH dn al _ _ (after_sim ct W dn al v1 v2 H)) as (dn' & A & B & C); [exact I|]. exists dn'. auto.
Qed.

Lemma reveal ct os o1 o2 : wf_table ct -> looks_same ct (paths os) o1 o2 ->
  ser_proof ct (steps ct (prune ct o1) os) = ser_proof ct (steps ct (prune ct o2) os).
Proof.
  intros W L. destruct (steps_sim ct W os [] (paths os) _ _ (prune_sim ct (paths os) o1 o2 [] L (fun _ => eq_refl)) (incl_refl _)) as (dn & H & I & _).
  apply (sim_ser ct W dn _ _ _ H I).
Qed.

(** Serializing a view a second time gives the same bytes. *)
Lemma after_ser_same ct Q : wf_table ct -> forall o sr v, fits ct Q sr o -> shows ct o v -> ser_proof ct (after_ser ct v) = ser_proof ct v.
Proof.
  intros W. induction o as [pv|bl|t0|o0|c fs IH|c dh|c0 o0 st0 IHo0 IHst0] using val_ind'; intros sr v H S;
    inversion S as [? L|? ? ? HF HL|]; subst; try discriminate L; try reflexivity.
  - rewrite after_ser_view, !ser_view. destruct (forallb is_none st) eqn:E; [rewrite ser_view, E; reflexivity|]. rewrite ser_view.
    pose proof (fits_full_all _ _ _ _ _ H) as FA. pose proof (field_of_full ct c fs W) as FO.
    assert (N : forallb is_none (after_fields ct (PFull c fs) (c_attrs (ct c)) st) = false).
    { clear -E HL. revert E HL. generalize (c_attrs (ct c)) as attrs. induction st as [|[x|] st IH]; intros [|[n s] attrs] E HL; cbn in *; try discriminate; try reflexivity.
      destruct (peek ct (PFull c fs) n); cbn; [reflexivity|]. apply IH; [exact E|lia]. }
    rewrite N.
    rewrite (ser_variant_class ct (PView c (PFull c fs) (after_fields ct (PFull c fs) (c_attrs (ct c)) st)) (PView c (PFull c fs) st)) by reflexivity.
    assert (B : ser_view_fields ct (PFull c fs) (c_attrs (ct c)) (after_fields ct (PFull c fs) (c_attrs (ct c)) st) = ser_view_fields ct (PFull c fs) (c_attrs (ct c)) st).
    { clear S H E N. revert FO FA HL HF IH. generalize (PFull c fs) as o. generalize (c_attrs (ct c)) as attrs. intros attrs o FO FA. revert st FO.
      induction FA as [|name s attrs f fs Hf Hfs IHa]; intros st FO HL HF IH.
      - inversion HF; subst. reflexivity.
      - inversion HF as [|? s0 ? st' R HF']; subst. inversion IH as [|? ? IHf IHfs]; subst. cbn in HL.
        cbn [after_fields ser_view_fields]. rewrite (FO 0 name s f eq_refl eq_refl). cbn [bind].
        rewrite (IHa st' (field_of_tl' _ _ _ _ _ _ FO) ltac:(lia) HF' IHfs).
        destruct R as [->|(x & -> & Hx)].
        + f_equal. destruct (is_proof f) eqn:Lf.
          * assert (SP : ser_proof ct (prune ct f) = do dh <- data_hash ct f; Ok (xff :: dh)).
            { unfold prune. unfold is_proof in Lf. destruct (class_of f); [|discriminate]. rewrite ser_view, forallb_none_repeat'. reflexivity. }
            assert (CP : class_of (prune ct f) = class_of f) by (unfold prune; unfold is_proof in Lf; destruct (class_of f) eqn:Ef; [reflexivity|discriminate]).
            unfold ser_val. rewrite SP. unfold ser_union. destruct s; try rewrite (union_index_class ct _ (prune ct f) f CP); try reflexivity; inversion Hf; subst; discriminate Lf.
          * assert (prune ct f = f) as -> by (destruct f; try discriminate Lf; reflexivity).
            destruct s; try reflexivity; exfalso; inversion Hf as [| | | | | |? ? ? ? Hg]; subst; try discriminate Lf; inversion Hg; subst; discriminate Lf.
        + f_equal. pose proof (IHf s x Hf Hx) as EX.
          assert (CX : class_of (after_ser ct x) = class_of x).
          { destruct x; try reflexivity. rewrite after_ser_view. destruct (forallb is_none st); reflexivity. }
          destruct (is_proof f) eqn:Lf.
          * unfold ser_val. rewrite EX. unfold ser_union. destruct s; try rewrite (union_index_class ct _ (after_ser ct x) x CX); try reflexivity; inversion Hf; subst; discriminate Lf.
          * rewrite (shows_leaf _ _ _ Hx Lf). destruct f; try discriminate Lf; reflexivity. }
    rewrite B. reflexivity.
  - rewrite after_ser_view, forallb_none_repeat'. reflexivity.
Qed.
