(** Proofs for C22 and C23. *)
From Verif Require Import Base Serialize_Model Serialize_Proofs Proof_Model Proof_Spec Proof_Proofs Cache_Model Construct_Spec.

Fixpoint pruned_fields (ct : ctable) (attrs : list (string * ser)) (fs : list val) : bool :=
  match attrs, fs with
  | (_, SerProof _) :: attrs', f :: fs' => is_pruned ct f || pruned_fields ct attrs' fs'
  | _ :: attrs', _ :: fs' => pruned_fields ct attrs' fs'
  | _, _ => false
  end.

Lemma is_pruned_full ct c fs : is_pruned ct (PFull c fs) = pruned_fields ct (c_attrs (ct c)) fs.
Proof.
  cbn [is_pruned]. generalize (c_attrs (ct c)) as attrs. induction fs as [|f fs IH]; intros [|[n sr] attrs]; try reflexivity.
  cbn [pruned_fields]. rewrite <- IH. destruct sr; reflexivity.
Qed.

Scheme shaped_mind := Induction for shaped Sort Prop with shaped_all_mind := Induction for shaped_all Sort Prop.

Lemma complete_not_pruned ct v : complete v -> is_pruned ct v = false.
Proof.
  induction v as [pv|bl|t0|o0|c fs IH|c dh|c0 o0 st0 IHo0 IHst0] using val_ind'; intros C; try reflexivity; inversion C as [| | | |? ? HF]; subst.
  rewrite is_pruned_full. clear C. generalize (c_attrs (ct c)) as attrs. induction HF as [|f fs Hf Hfs IHfs]; intros [|[n sr] attrs]; try reflexivity.
  - destruct sr; reflexivity.
  - inversion IH; subst. cbn [pruned_fields]. destruct sr; auto. rewrite IHfs by assumption. rewrite H1 by assumption. reflexivity.
Qed.

Lemma not_pruned_complete ct : no_unions ct -> forall v, shaped ct v -> is_pruned ct v = false -> complete v.
Proof.
  intros NU. apply (shaped_mind ct (fun v _ => is_pruned ct v = false -> complete v)
    (fun attrs fs _ => (forall name cs, ~ In (name, SerUnion cs) attrs) -> pruned_fields ct attrs fs = false -> Forall complete fs)).
  - intros v L _. destruct v; try discriminate L; constructor.
  - discriminate.
  - discriminate.
  - intros c fs _ IH. rewrite is_pruned_full. intros P. constructor. apply IH; [apply NU|exact P].
  - constructor.
  - intros name sr attrs f fs Hf IHf T Hfs IHfs N P. constructor.
    + destruct (is_proof f) eqn:L; [|destruct f; try discriminate L; constructor].
      apply IHf. specialize (T eq_refl). destruct sr; try contradiction.
      * cbn [pruned_fields] in P. apply orb_false_elim in P. tauto.
      * exfalso. eapply N. left. reflexivity.
    + apply IHfs; [intros n cs Hi; eapply N; right; exact Hi|]. cbn [pruned_fields] in P. destruct sr; auto. apply orb_false_elim in P. tauto.
Qed.

Lemma is_pruned_exact ct v : no_unions ct -> shaped ct v -> (is_pruned ct v = false <-> complete v).
Proof. intros N S. split; [apply not_pruned_complete; assumption|apply complete_not_pruned]. Qed.

(** ** Constructors *)

Lemma isinst_exists ct v us : existsb (isinst ct v) us = true <-> exists k m, class_of v = Some k /\ In m us /\ subclass ct k m.
Proof.
  rewrite existsb_exists. split.
  - intros (m & I & H). apply isinst_iff in H. destruct H as (k & Hk & S). eauto.
  - intros (k & m & Hk & I & S). exists m. split; [exact I|]. apply isinst_iff. eauto.
Qed.

Lemma prim_check_errors s v e : prim_check s v = Err e -> e = SerializerTypeError \/ e = SerializerValueError.
Proof. destruct s, v; cbn; intros H; try discriminate; try (inversion H; auto); destruct (_ : bool) in H; inversion H; auto. Qed.

Definition attr_check (ct : ctable) (sr : ser) (v : val) : result unit :=
  do _ <- check ct sr v; match sr with SerProof _ => if is_proof v then Ok tt else Err AttributeError | _ => Ok tt end.

Lemma attr_check_checked ct sr v : checked ct sr -> (attr_check ct sr v = Ok tt /\ accepts ct sr v) \/
  (~ accepts ct sr v /\ exists e, attr_check ct sr v = Err e /\ (e = SerializerTypeError \/ e = SerializerValueError)).
Proof.
  intros K. unfold attr_check. destruct sr as [s| | | |c|cs]; cbn [checked] in K; try contradiction; cbn [check accepts].
  - destruct (prim_check s (to_py v)) as [[]|e] eqn:E.
    + left. split; [reflexivity|]. apply prim_ok_check, E.
    + right. split; [rewrite prim_ok_check; congruence|]. exists e. split; [reflexivity|]. eapply prim_check_errors, E.
  - destruct K as (u & K). rewrite K. pose proof (isinst_exists ct v u) as X. destruct (existsb (isinst ct v) u).
    + left. destruct (proj1 X eq_refl) as (k & m & Hk & I & S). cbn [bind]. unfold is_proof. rewrite Hk. split; [reflexivity|]. exists k. eauto.
    + right. split; [intros (k & Hk & m & I & S); assert (false = true) by (apply X; eauto); discriminate|]. exists SerializerTypeError. auto.
  - pose proof (isinst_exists ct v cs) as X. destruct (existsb (isinst ct v) cs).
    + left. split; [reflexivity|]. apply X. reflexivity.
    + right. split; [intros H; apply X in H; discriminate|]. exists SerializerTypeError. auto.
Qed.

Lemma construct_loop_step ct name sr attrs kw : construct_loop ct ((name, sr) :: attrs) kw =
  match assoc name kw with
  | None => Err KeyError
  | Some v => do _ <- attr_check ct sr v; do r <- construct_loop ct attrs kw; Ok (v :: r)
  end.
Proof.
  cbn [construct_loop]. destruct (assoc name kw) as [v|]; [|reflexivity]. cbn [bind]. unfold attr_check.
  destruct (check ct sr v) as [[]|e]; reflexivity.
Qed.

Lemma construct_loop_checked ct kw attrs : (forall name sr, In (name, sr) attrs -> checked ct sr) ->
  (exists vs, construct_loop ct attrs kw = Ok vs /\ supplied ct kw attrs vs) \/
  (exists e, construct_loop ct attrs kw = Err e /\ complains ct kw attrs e).
Proof.
  induction attrs as [|[name sr] attrs IH]; intros K; [left; exists []; split; [reflexivity|constructor]|].
  rewrite construct_loop_step. destruct (assoc name kw) as [v|] eqn:A; [|right; eexists; split; [reflexivity|]; constructor; exact A].
  destruct (attr_check_checked ct sr v (K _ _ (or_introl eq_refl))) as [(E & H)|(H & e & E & He)]; rewrite E; cbn [bind].
  - destruct IH as [(vs & E2 & S2)|(e & E2 & S2)]; [intros n s Hi; eapply K; right; exact Hi| |]; rewrite E2; cbn [bind].
    + left. eexists. split; [reflexivity|]. constructor; assumption.
    + right. eexists. split; [reflexivity|]. eapply Co_later; eassumption.
  - right. exists e. split; [reflexivity|]. eapply Co_bad; eassumption.
Qed.

Lemma supplied_unique ct kw attrs vs vs' : supplied ct kw attrs vs -> supplied ct kw attrs vs' -> vs = vs'.
Proof. intros H. revert vs'. induction H; intros vs' H'; inversion H'; subst; [reflexivity|]. f_equal; [congruence|auto]. Qed.

Lemma construct_exact ct c kw : (forall name sr, In (name, sr) (c_attrs (ct c)) -> checked ct sr) ->
  (forall p, construct ct c kw = Ok p <-> exists vs, p = PFull c vs /\ supplied ct kw (c_attrs (ct c)) vs) /\
  (forall e, construct ct c kw = Err e -> complains ct kw (c_attrs (ct c)) e).
Proof.
  intros K. unfold construct. destruct (construct_loop_checked ct kw _ K) as [(vs & -> & S)|(e & -> & C)]; cbn [bind].
  - split; [|discriminate]. intros p. split.
    + intros H. inversion H; subst. eauto.
    + intros (vs' & -> & S'). rewrite (supplied_unique _ _ _ _ _ S S'). reflexivity.
  - split; [|intros e' H; inversion H; subst; exact C]. intros p. split; [discriminate|]. intros (vs' & _ & S'). exfalso.
    clear K. revert vs' S'. induction C as [name sr attrs A|name sr attrs v e A B H|name sr attrs v e A B C IH]; intros vs' S';
      inversion S' as [|? ? ? v' vs'' A' Ac' S'']; subst; [congruence| |eapply IH; eassumption].
    assert (v' = v) by congruence. subst v'. contradiction.
Qed.

(** Any serializer: what gets through. *)
Lemma construct_ok_supplied ct c kw vs : supplied ct kw (c_attrs (ct c)) vs -> construct ct c kw = Ok (PFull c vs).
Proof.
  unfold construct. intros H. assert (construct_loop ct (c_attrs (ct c)) kw = Ok vs) as ->; [|reflexivity].
  induction H as [|name sr attrs v vs A Ac S IH]; [reflexivity|]. rewrite construct_loop_step, A, IH.
  assert (attr_check ct sr v = Ok tt) as ->; [|reflexivity]. unfold attr_check.
  destruct sr as [s| | | |c'|cs]; cbn [accepts check] in *.
  - apply prim_ok_check in Ac. rewrite Ac. reflexivity.
  - reflexivity.
  - destruct Ac as (t & ->). reflexivity.
  - destruct Ac as (o & ->). reflexivity.
  - destruct Ac as (k & Hk & Ac). unfold is_proof. rewrite Hk. destruct (c_kind (ct c')) as [|u]; [reflexivity|].
    assert (existsb (isinst ct v) u = true) as -> by (apply isinst_exists; destruct Ac as (m & I & Sm); eauto). reflexivity.
  - assert (existsb (isinst ct v) cs = true) as -> by (apply isinst_exists; exact Ac). reflexivity.
Qed.

(** ** The cache *)

Definition sound (ct : ctable) (seen : cid -> Prop) (ca : cache) : Prop := forall d a, ca d = Some a -> a = c_attrs (ct d) /\ seen d.

Lemma cached_some ca mro a : cached ca mro = Some a -> exists d, In d mro /\ ca d = Some a.
Proof.
  induction mro as [|c mro IH]; [discriminate|]. cbn. destruct (ca c) as [b|] eqn:E; intros H.
  - inversion H; subst. exists c. auto.
  - destruct (IH H) as (d & I & Hd). exists d. auto.
Qed.

Lemma attrs_for_sound ct seen ca c : sound ct seen ca -> sound ct (fun d => seen d \/ d = c) (snd (attrs_for ct ca c)).
Proof.
  intros S d a. unfold attrs_for. destruct (cached ca (c_supers (ct c))) as [b|]; cbn [snd].
  - intros H. destruct (S d a H) as (A & B). auto.
  - destruct (Nat.eqb_spec d c) as [->|_]; intros H; [inversion H; auto|]. destruct (S d a H) as (A & B). auto.
Qed.

Lemma after_sound ct h : sound ct (fun d => In d (map fst h)) (after ct h).
Proof.
  unfold after. enough (G : forall seen ca, sound ct seen ca ->
    sound ct (fun d => seen d \/ In d (map fst h)) (fold_left (fun ca x => snd (new ct ca (fst x) (snd x))) h ca)).
  { intros d a H. destruct (G (fun _ => False) empty_cache) with (d := d) (a := a) as (A & [[]|B]); auto. intros d' a' Hd. discriminate Hd. }
  induction h as [|[c kw] h IH]; intros seen ca S; cbn [fold_left map fst snd].
  - intros d a H. destruct (S d a H). auto.
  - assert (S' : sound ct (fun d => seen d \/ d = c) (snd (new ct ca c kw))).
    { unfold new. pose proof (attrs_for_sound ct seen ca c S) as A. destruct (attrs_for ct ca c) as [at' ca']. exact A. }
    intros d a H. destruct (IH _ _ S' d a H) as (A & B). split; [exact A|]. cbn. intuition.
Qed.

(** The instance gets the attributes of the class or of a superclass instantiated earlier. *)
Lemma new_after ct h c kw : exists d, (d = c \/ (subclass ct c d /\ In d (map fst h))) /\
  fst (new ct (after ct h) c kw) = do vs <- construct_loop ct (c_attrs (ct d)) kw; Ok (combine (map fst (c_attrs (ct d))) vs).
Proof.
  unfold new, attrs_for. destruct (cached (after ct h) (c_supers (ct c))) as [a|] eqn:E; cbn [fst].
  - destruct (cached_some _ _ _ E) as (d & I & Hd). destruct (after_sound ct h d a Hd) as (-> & B). exists d. auto.
  - exists c. auto.
Qed.

Lemma new_independent ct h c kw : harmless ct c h -> fst (new ct (after ct h) c kw) = fst (new ct empty_cache c kw).
Proof.
  intros N. destruct (new_after ct h c kw) as (d & D & E). destruct (new_after ct [] c kw) as (d' & D' & E').
  change (after ct []) with empty_cache in E'. rewrite E, E'.
  assert (c_attrs (ct d) = c_attrs (ct c)) as ->.
  { destruct D as [->|(S & I)]; [reflexivity|]. apply N; assumption. }
  destruct D' as [->|(_ & [])]. reflexivity.
Qed.

Lemma new_fresh ct c kw : fst (new ct empty_cache c kw) = named ct (construct ct c kw).
Proof.
  destruct (new_after ct [] c kw) as (d & [->|(_ & [])] & E). change (after ct []) with empty_cache in E. rewrite E. unfold named, construct.
  destruct (construct_loop ct (c_attrs (ct c)) kw); reflexivity.
Qed.
