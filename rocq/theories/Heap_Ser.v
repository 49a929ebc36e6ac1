(** Proofs about Heap_Model.v, part 4: serialization. *)
From Verif Require Import Base Sha256 Serialize_Model Tx_Model Proof_Model Proof_Spec Cache_Model Construct_Proofs
  Proof_Proofs ProofHash_Proofs ProofView_Proofs Heap_Model Heap_Spec Heap_Inv Heap_Step.
From Coq Require Import ZifyBool ZifyNat ZifyN.

(** ** Objects as values with views *)

(** The value (in the sense of Proof_Model, with views) an object is in a given state. *)
Inductive abs (ct : ctable) (h : list obj) : hval -> val -> Prop :=
| Ab_leaf v : is_proof v = false -> abs ct h (HLeaf v) v
| Ab_hash r o d : nth_error h r = Some o -> b_orig o = None -> b_fully o = true -> b_dhash o = Some d -> abs ct h (HRef r) (PHash (b_class o) d)
| Ab_full r o vs : nth_error h r = Some o -> b_orig o = None -> b_fully o = false -> abss ct h (map snd (b_attrs o)) vs -> abs ct h (HRef r) (PFull (b_class o) vs)
| Ab_view r o p v st : nth_error h r = Some o -> b_orig o = Some p -> content h (HRef p) v -> slots ct h (b_attrs o) (c_attrs (ct (b_class o))) st ->
    abs ct h (HRef r) (PView (b_class o) v st)
with abss (ct : ctable) (h : list obj) : list hval -> list val -> Prop :=
| As_nil : abss ct h [] []
| As_cons x v xs vs : abs ct h x v -> abss ct h xs vs -> abss ct h (x :: xs) (v :: vs)
with slots (ct : ctable) (h : list obj) : list (string * hval) -> list (string * ser) -> list (option val) -> Prop :=
| Sl_nil bs : slots ct h bs [] []
| Sl_set bs n sr attrs x a st : assoc n bs = Some x -> abs ct h x a -> slots ct h bs attrs st -> slots ct h bs ((n, sr) :: attrs) (Some a :: st)
| Sl_unset bs n sr attrs st : assoc n bs = None -> slots ct h bs attrs st -> slots ct h bs ((n, sr) :: attrs) (None :: st).

Scheme abs_mind := Induction for abs Sort Prop
  with abss_mind := Induction for abss Sort Prop
  with slots_mind := Induction for slots Sort Prop.
Combined Scheme abs_both from abs_mind, abss_mind, slots_mind.

Lemma abs_inv ct h r a o : abs ct h (HRef r) a -> nth_error h r = Some o ->
  (exists d, b_orig o = None /\ b_fully o = true /\ b_dhash o = Some d /\ a = PHash (b_class o) d) \/
  (exists vs, b_orig o = None /\ b_fully o = false /\ abss ct h (map snd (b_attrs o)) vs /\ a = PFull (b_class o) vs) \/
  (exists p v st, b_orig o = Some p /\ content h (HRef p) v /\ slots ct h (b_attrs o) (c_attrs (ct (b_class o))) st /\ a = PView (b_class o) v st).
Proof.
  intros A H. inversion A as [|? o1 d1 F1 F2 F3 F4|? o1 vs1 F1 F2 F3 F4|? o1 p1 v1 st1 F1 F2 F3 F4]; subst; rewrite H in F1; inversion F1; subst o1; eauto 10.
Qed.

Lemma abs_det ct h : (forall x a, abs ct h x a -> forall b, abs ct h x b -> a = b) /\ (forall xs vs, abss ct h xs vs -> forall ws, abss ct h xs ws -> vs = ws) /\
  (forall bs attrs st, slots ct h bs attrs st -> forall st', slots ct h bs attrs st' -> st = st').
Proof.
  apply abs_both.
  - intros v L b H. inversion H; reflexivity.
  - intros r o d E1 E2 E3 E4 b H. destruct (abs_inv _ _ _ _ _ H E1) as [(d' & ? & ? & ? & ->)|[(vs & ? & ? & ? & ->)|(p & v & st & ? & ? & ? & ->)]]; congruence.
  - intros r o vs E1 E2 E3 A IH b H. destruct (abs_inv _ _ _ _ _ H E1) as [(d' & ? & ? & ? & ->)|[(ws & ? & ? & ? & ->)|(p & v & st & ? & ? & ? & ->)]]; try congruence. f_equal. auto.
  - intros r o p v st E1 E2 C A IH b H. destruct (abs_inv _ _ _ _ _ H E1) as [(d' & ? & ? & ? & ->)|[(ws & ? & ? & ? & ->)|(p' & v' & st' & ? & C' & ? & ->)]]; try congruence.
    assert (p' = p) by congruence; subst p'. f_equal; [eapply content_fun; eassumption|auto].
  - intros ws H. inversion H; reflexivity.
  - intros x v xs vs A1 I1 A2 I2 ws H. inversion H; subst. f_equal; auto.
  - intros bs st' H. inversion H; reflexivity.
  - intros bs n sr attrs x a st E A IA Hs IS st' H. inversion H; subst; [|congruence]. f_equal; [|auto]. f_equal. apply IA. congruence.
  - intros bs n sr attrs st E Hs IS st' H. inversion H; subst; [congruence|]. f_equal. auto.
Qed.
Lemma abs_fun ct h x a b : abs ct h x a -> abs ct h x b -> a = b.
Proof. intros H. apply (proj1 (abs_det ct h) x a H). Qed.

(** Attributes of other objects do not matter. *)
Definition same_attrs (h h' : list obj) (r : ref) : Prop := forall o, nth_error h r = Some o -> exists o', nth_error h' r = Some o' /\ b_attrs o' = b_attrs o.

Lemma abs_keep ct h h' : grows h h' -> (forall r, same_attrs h h' r) ->
  (forall x a, abs ct h x a -> abs ct h' x a) /\ (forall xs vs, abss ct h xs vs -> abss ct h' xs vs) /\ (forall bs attrs st, slots ct h bs attrs st -> slots ct h' bs attrs st).
Proof.
  intros G SA. apply abs_both; try (intros; econstructor; eassumption).
  - intros r o d E1 E2 E3 E4. destruct (G r o E1) as (o' & E' & L). rewrite <- (la_class _ _ L).
    eapply Ab_hash; [exact E'|rewrite (la_orig _ _ L); exact E2|destruct (la_full _ _ L E2); congruence|apply (la_dhash _ _ L), E4].
  - intros r o fs E1 E2 E3 _ IH. destruct (G r o E1) as (o' & E' & L). rewrite <- (la_class _ _ L). destruct (la_full _ _ L E2) as (X & Y).
    eapply Ab_full; [exact E'|rewrite (la_orig _ _ L); exact E2|congruence|rewrite X; exact IH].
  - intros r o p v st E1 E2 C A IH. destruct (G r o E1) as (o' & E' & L). rewrite <- (la_class _ _ L). destruct (SA r o E1) as (o2 & E2' & Ea). rewrite E' in E2'. inversion E2'; subst o2.
    eapply Ab_view; [exact E'|rewrite (la_orig _ _ L); exact E2|eapply content_grow; eassumption|rewrite Ea, (la_class _ _ L); exact IH].
Qed.

(** ** Attributes that only serialization fetched *)

(** [quiet a b]: in [b], views that had something set have more attributes set, each one being a sub-proof
    of which nothing was read, or not a proof. *)
Inductive quiet (ct : ctable) : val -> val -> Prop :=
| Q_refl v : quiet ct v v
| Q_full c vs ws : quiets ct vs ws -> quiet ct (PFull c vs) (PFull c ws)
| Q_view c o st st' : forallb is_none st = false -> quieter ct o (c_attrs (ct c)) st st' -> quiet ct (PView c o st) (PView c o st')
with quiets (ct : ctable) : list val -> list val -> Prop :=
| Qs_nil : quiets ct [] []
| Qs_cons v w vs ws : quiet ct v w -> quiets ct vs ws -> quiets ct (v :: vs) (w :: ws)
with quieter (ct : ctable) : val -> list (string * ser) -> list (option val) -> list (option val) -> Prop :=
| Qr_nil o : quieter ct o [] [] []
| Qr_none o n sr attrs st st' : quieter ct o attrs st st' -> quieter ct o ((n, sr) :: attrs) (None :: st) (None :: st')
| Qr_fill o n sr attrs st st' f : peek ct o n = Ok f -> match f with PView _ _ _ => False | _ => True end -> quieter ct o attrs st st' ->
    quieter ct o ((n, sr) :: attrs) (None :: st) (Some (prune ct f) :: st')
| Qr_some o n sr attrs st st' v w : quiet ct v w -> quieter ct o attrs st st' -> quieter ct o ((n, sr) :: attrs) (Some v :: st) (Some w :: st').

Scheme quiet_mind := Induction for quiet Sort Prop
  with quiets_mind := Induction for quiets Sort Prop
  with quieter_mind := Induction for quieter Sort Prop.
Combined Scheme quiet_both from quiet_mind, quiets_mind, quieter_mind.

Lemma quiet_class ct a b : quiet ct a b -> class_of b = class_of a.
Proof. intros H. inversion H; reflexivity. Qed.

Lemma quiet_prune ct f x : match f with PView _ _ _ => False | _ => True end -> quiet ct (prune ct f) x -> x = prune ct f.
Proof.
  intros N H. unfold prune in *. destruct (class_of f) as [c|] eqn:Ec.
  - inversion H as [|? ? ? ? E1 E2|? ? ? ? Hn _ E1 E2]; subst; [reflexivity|]. rewrite forallb_none_repeat in Hn. discriminate.
  - destruct f; try discriminate Ec; inversion H; reflexivity.
Qed.

Lemma quieter_some ct o attrs st st' : quieter ct o attrs st st' -> forallb is_none st = false -> forallb is_none st' = false.
Proof. induction 1; cbn; auto. Qed.

Lemma quiet_trans ct : forall a b c, quiet ct a b -> quiet ct b c -> quiet ct a c.
Proof.
  induction a as [pv|bl|t0|o0|c0 fs IH|c0 dh|c0 o0 st0 IHo IHst] using val_ind'; intros b c H1 H2; inversion H1; subst; try exact H2.
  - inversion H2 as [|? ? ws' Q2|]; subst; [exact H1|]. apply Q_full. match goal with H : quiets ct fs _ |- _ => rename H into Q1 end. clear H1 H2.
    revert ws' Q2 IH. induction Q1 as [|v w vs ws A B IHB]; intros ws' Q2 IH; inversion Q2; subst; [constructor|]. inversion IH as [|? ? I1 I2]; subst. constructor; [eapply I1; eassumption|auto].
  - inversion H2 as [| |? ? ? st2 N2 Q2]; subst; [exact H1|]. match goal with H : quieter ct o0 _ st0 _ |- _ => rename H into Q1 end. apply Q_view; [assumption|]. clear - Q1 Q2 IHst.
    revert st2 Q2 IHst. induction Q1 as [o|o n sr attrs st st' Q1 IHQ|o n sr attrs st st' f Pf Nf Q1 IHQ|o n sr attrs st st' v w Qv Q1 IHQ]; intros st2 Q2 IHst.
    + exact Q2.
    + inversion Q2; subst; inversion IHst; subst; [constructor; auto|eapply Qr_fill; eauto].
    + inversion Q2; subst. inversion IHst; subst. match goal with H : quiet ct (prune ct f) _ |- _ => apply quiet_prune in H; [|exact Nf]; subst end. eapply Qr_fill; eauto.
    + inversion Q2; subst. inversion IHst as [|? ? I1 I2]; subst. cbn in I1. constructor; [eapply I1; eassumption|auto].
Qed.

(** *** The bytes are the same *)

Definition leafy (sr : ser) : Prop := match sr with SerProof _ | SerUnion _ => False | _ => True end.
Lemma ser_leaf_proof sr v w : leafy sr -> is_proof v = true -> is_proof w = true -> ser_leaf sr v = ser_leaf sr w.
Proof. intros L Pv Pw. destruct sr; try contradiction; destruct v; try discriminate Pv; destruct w; try discriminate Pw; reflexivity. Qed.

Lemma quiet_leaf ct sr a b : quiet ct a b -> leafy sr -> ser_leaf sr b = ser_leaf sr a.
Proof. intros H L. inversion H; subst; [reflexivity|apply ser_leaf_proof; auto..]. Qed.

Lemma ser_val_same ct sr a b : class_of b = class_of a -> ser_proof ct b = ser_proof ct a -> (leafy sr -> ser_leaf sr b = ser_leaf sr a) -> ser_val ct sr b = ser_val ct sr a.
Proof.
  intros C E L. destruct sr; cbn [ser_val]; try (apply L; exact Logic.I); [exact E|]. unfold ser_union. rewrite (union_index_class ct cs b a C), E. reflexivity.
Qed.

(** What an attribute of a view contributes to the serialization. *)
Definition slot_bytes (ct : ctable) (o : val) (name : string) (sr : ser) (s : option val) : result bytes :=
  match s with
  | Some f => ser_val ct sr f
  | None => do f <- peek ct o name; ser_val ct sr (prune ct f)
  end.

Lemma prune_ser ct f : match f with PView _ _ _ => False | _ => True end -> is_proof f = true -> ser_proof ct (prune ct f) = do dh <- data_hash ct f; Ok (xff :: dh).
Proof.
  intros N P. unfold prune. unfold is_proof in P. destruct (class_of f) as [c|] eqn:E; [|discriminate]. rewrite ser_view, forallb_none_repeat. reflexivity.
Qed.
Lemma prune_class ct f : class_of (prune ct f) = class_of f.
Proof. unfold prune. destruct (class_of f) eqn:E; [reflexivity|exact E]. Qed.

Lemma fill_bytes ct sr f : match f with PView _ _ _ => False | _ => True end ->
  (let b := if is_proof f then do dh <- data_hash ct f; Ok (xff :: dh) else Err AttributeError in
   match sr with SerProof _ => b | SerUnion cs => ser_union ct cs f b | _ => ser_leaf sr f end) = ser_val ct sr (prune ct f).
Proof.
  intros N. cbv zeta. destruct (is_proof f) eqn:P.
  - rewrite <- (prune_ser ct f N P). assert (Pp : is_proof (prune ct f) = true) by (unfold is_proof; rewrite prune_class; exact P).
    destruct sr; cbn [ser_val]; try (apply ser_leaf_proof; [exact Logic.I|exact P|exact Pp]); [reflexivity|]. unfold ser_union. rewrite (union_index_class ct cs (prune ct f) f (prune_class ct f)). reflexivity.
  - assert (prune ct f = f) as -> by (unfold prune; unfold is_proof in P; destruct (class_of f); [discriminate|reflexivity]).
    destruct sr; cbn [ser_val]; try reflexivity; [destruct f; try discriminate P; reflexivity|].
    unfold ser_union. destruct (union_index ct cs f); [|reflexivity]. destruct f; try discriminate P; reflexivity.
Qed.

Lemma view_fields_slots ct o : (forall n f, peek ct o n = Ok f -> match f with PView _ _ _ => False | _ => True end) ->
  forall n sr attrs s st, ser_view_fields ct o ((n, sr) :: attrs) (s :: st) =
  do x <- slot_bytes ct o n sr s; do r <- ser_view_fields ct o attrs st; Ok (x ++ r).
Proof.
  intros N n sr attrs s st. cbn [ser_view_fields]. destruct s as [f|]; [reflexivity|]. cbn [slot_bytes].
  destruct (peek ct o n) as [f|e] eqn:E; cbn [bind]; [|reflexivity]. rewrite fill_bytes; [reflexivity|eapply N, E].
Qed.

Lemma quiet_ser ct : (forall a b, quiet ct a b -> ser_proof ct b = ser_proof ct a) /\
  (forall vs ws, quiets ct vs ws -> forall attrs, ser_fields ct attrs ws = ser_fields ct attrs vs) /\
  (forall o attrs st st', quieter ct o attrs st st' -> ser_view_fields ct o attrs st' = ser_view_fields ct o attrs st).
Proof.
  apply quiet_both.
  - reflexivity.
  - intros c vs ws _ IH. rewrite !ser_proof_full, IH. rewrite (ser_variant_class ct (PFull c ws) (PFull c vs)) by reflexivity. reflexivity.
  - intros c o st st' N Q IH. rewrite !ser_view, N, (quieter_some _ _ _ _ _ Q N), IH. rewrite (ser_variant_class ct (PView c o st') (PView c o st)) by reflexivity. reflexivity.
  - reflexivity.
  - intros v w vs ws Q IQ _ IH [|[n sr] attrs]; [reflexivity|]. cbn [ser_fields]. rewrite IH, (ser_val_same ct sr v w (quiet_class _ _ _ Q) IQ (quiet_leaf _ _ _ _ Q)). reflexivity.
  - reflexivity.
  - intros o n sr attrs st st' _ IH. cbn [ser_view_fields]. rewrite IH. reflexivity.
  - intros o n sr attrs st st' f Pf Nf _ IH. cbn [ser_view_fields]. rewrite IH, Pf. cbn [bind]. rewrite fill_bytes by exact Nf. reflexivity.
  - intros o n sr attrs st st' v w Q IQ _ IH. cbn [ser_view_fields]. rewrite IH, (ser_val_same ct sr v w (quiet_class _ _ _ Q) IQ (quiet_leaf _ _ _ _ Q)). reflexivity.
Qed.

Section Ser.
Context (ct : ctable) (made : cid -> Prop) (PT : program_table ct made).
Notation sound := (Heap_Inv.sound ct made).
Notation formed := (Heap_Inv.formed ct made).
Notation abs := (abs ct).
Notation slots := (slots ct).
Notation quiet := (quiet ct).

Definition quiet_state (h h' : list obj) : Prop := forall x a, abs h x a -> exists b, abs h' x b /\ quiet a b.
Lemma quiet_state_refl h : quiet_state h h.
Proof. intros x a H. exists a. split; [exact H|constructor]. Qed.
Lemma quiet_state_trans a b c : quiet_state a b -> quiet_state b c -> quiet_state a c.
Proof. intros A B x v H. destruct (A x v H) as (w & Hw & Qw). destruct (B x w Hw) as (u & Hu & Qu). exists u. split; [exact Hu|]. eapply quiet_trans; eassumption. Qed.
Lemma quiet_state_keep h h' : grows h h' -> (forall r, same_attrs h h' r) -> quiet_state h h'.
Proof. intros G A x a H. exists a. split; [apply (proj1 (abs_keep ct h h' G A)), H|constructor]. Qed.
Lemma hashing_quiet s s' : hashing ct made s s' -> quiet_state (s_heap s) (s_heap s').
Proof.
  intros (_ & (G & _) & _ & Sh). apply quiet_state_keep; [exact G|]. intros r o H. destruct (shape_nth _ _ _ _ Sh H) as (o' & H' & E). exists o'. split; [exact H'|]. inversion E; reflexivity.
Qed.
Lemma snoc_quiet h o : quiet_state h (h ++ [o]).
Proof. apply quiet_state_keep; [apply grows_snoc|]. intros r x H. exists x. split; [|reflexivity]. rewrite nth_error_app1; [exact H|eapply nth_error_lt, H]. Qed.

Lemma abs_class s x a : sound s -> abs (s_heap s) x a -> match x with HLeaf _ => is_proof a = false | HRef r => exists o, nth_error (s_heap s) r = Some o /\ class_of a = Some (b_class o) end.
Proof. intros S H. inversion H; subst; eauto. Qed.

(** Every object is some value. *)
Lemma slots_ex h bs : (forall n x, assoc n bs = Some x -> exists a, abs h x a) -> forall attrs, exists st, slots h bs attrs st.
Proof.
  intros A. induction attrs as [|[n sr] attrs (st & IH)]; [exists []; constructor|]. destruct (assoc n bs) as [x|] eqn:E.
  - destruct (A n x E) as (a & Ha). exists (Some a :: st). econstructor; eassumption.
  - exists (None :: st). constructor; assumption.
Qed.

Lemma abs_ex s : sound s -> forall v x, content (s_heap s) x v -> exists a, abs (s_heap s) x a.
Proof.
  intros S. induction v as [pv|bl|t0|o0|c0 fs IH|c0 dh|c0 o0 st0 IHo IHst] using val_ind'; intros x C;
    try (destruct x as [w|r]; [destruct (content_leaf _ _ _ C) as (<- & L); eexists; constructor; exact L|
         destruct (content_object ct made _ _ _ S C) as (o & Ho & Ec); discriminate Ec]).
  - destruct x as [w|r]; [destruct (content_leaf _ _ _ C) as (<- & L); discriminate L|].
    destruct (content_object ct made _ _ _ S C) as (o & Ho & Ec). rewrite Forall_forall in IH.
    destruct (content_full_inv _ _ _ _ C Ho) as [(p & Eo & Cp)|[(d & Eo & Ef & Ed & X)|(fs' & Eo & Ef & Cs & X)]]; [|discriminate X|].
    + destruct (slots_ex (s_heap s) (b_attrs o)) with (attrs := c_attrs (ct (b_class o))) as (st & Hst).
      * intros n x Hx. destruct (content_attr ct made _ _ _ _ _ _ S C Ho Hx) as (c & fs' & i & f & E & Hi & Hf & Cf). inversion E; subst.
        apply (IH f); [eapply nth_error_In, Hf|exact Cf].
      * eexists. eapply Ab_view; eassumption.
    + inversion X; subst fs'. assert (B : exists vs, abss ct (s_heap s) (map snd (b_attrs o)) vs).
      { clear -IH Cs. induction Cs as [|y w ys ws Cy Cs IHC]; [exists []; constructor|]. destruct (IH w (or_introl eq_refl) y Cy) as (a & Ha).
        destruct IHC as (vs & Hvs); [intros z Hz; apply IH; right; exact Hz|]. exists (a :: vs). constructor; assumption. }
      destruct B as (vs & Hvs). eexists. eapply Ab_full; eassumption.
  - destruct x as [w|r]; [destruct (content_leaf _ _ _ C) as (<- & L); discriminate L|].
    destruct (content_object ct made _ _ _ S C) as (o & Ho & Ec).
    destruct (content_full_inv _ _ _ _ C Ho) as [(p & Eo & Cp)|[(d & Eo & Ef & Ed & X)|(fs' & Eo & Ef & Cs & X)]]; [| |discriminate X].
    + destruct (slots_ex (s_heap s) (b_attrs o)) with (attrs := c_attrs (ct (b_class o))) as (st & Hst).
      * intros n x Hx. destruct (content_attr ct made _ _ _ _ _ _ S C Ho Hx) as (c & fs' & i & f & E & _). discriminate E.
      * eexists. eapply Ab_view; eassumption.
    + eexists. eapply Ab_hash; eassumption.
  - exfalso. exact (content_not_view _ _ _ C).
Qed.

(** Nothing set in a view means nothing set in its slots, and conversely. *)
Lemma slots_nil h attrs st : slots h [] attrs st -> forallb is_none st = true.
Proof. remember [] as bs eqn:E. induction 1; subst; cbn; auto. discriminate. Qed.
Lemma slots_none h bs attrs st n sr x : slots h bs attrs st -> In (n, sr) attrs -> assoc n bs = Some x -> forallb is_none st = false.
Proof.
  induction 1 as [bs|bs m sr' attrs y a st E A Hs IH|bs m sr' attrs st E Hs IH]; intros Hi Hx; [contradiction|reflexivity|].
  destruct Hi as [Hi|Hi]; [inversion Hi; subst; congruence|]. cbn. auto.
Qed.

Lemma view_fully s r o p v st : sound s -> nth_error (s_heap s) r = Some o -> b_orig o = Some p -> content (s_heap s) (HRef r) v ->
  slots (s_heap s) (b_attrs o) (c_attrs (ct (b_class o))) st -> b_fully o = forallb is_none st.
Proof.
  intros S Ho Eo C Hs. pose proof (so_formed _ _ _ S r o Ho) as F. unfold Heap_Inv.formed in F. rewrite Eo in F. destruct F as (_ & _ & -> & _ & _).
  destruct (b_attrs o) as [|[n x] bs] eqn:Eb; [symmetry; eapply slots_nil, Hs|]. symmetry.
  assert (Hx : assoc n (b_attrs o) = Some x) by (rewrite Eb; cbn; rewrite String.eqb_refl; reflexivity).
  destruct (content_attr ct made _ _ _ _ _ _ S C Ho Hx) as (c & fs & i & f & -> & Hi & _). destruct (attr_index_nth _ _ _ Hi) as (sr & Hn).
  destruct (content_object ct made _ _ _ S C) as (o1 & Ho1 & Ec). rewrite Ho in Ho1. inversion Ho1; subst o1. inversion Ec; subst.
  eapply slots_none; [exact Hs|eapply nth_error_In, Hn|rewrite <- Eb; exact Hx].
Qed.

(** ** Fetching attributes of a view of which something was read is quiet *)

Lemma set_quiet s r o p v name x f : sound s -> nth_error (s_heap s) r = Some o -> b_orig o = Some p -> b_fully o = false -> assoc name (b_attrs o) = None ->
  content (s_heap s) (HRef r) v -> peek ct v name = Ok f -> abs (s_heap s) x (prune ct f) -> match f with PView _ _ _ => False | _ => True end ->
  grows (s_heap s) (set_nth r (with_attr name x o) (s_heap s)) -> quiet_state (s_heap s) (set_nth r (with_attr name x o) (s_heap s)).
Proof.
  intros S Ho Eo Ef En C Pf Ax Nf G. set (o' := with_attr name x o) in *. set (h' := set_nth r o' (s_heap s)) in *.
  assert (Ho' : nth_error h' r = Some o') by (apply set_nth_same; eapply nth_error_lt, Ho).
  assert (Ax' : abs h' x (prune ct f)).
  { inversion Ax as [? L E1 E2|? o1 d1 F1 F2 F3 F4 E1 E2|? o1 vs1 F1 F2 F3 F4 E1 E2|? o1 p1 v1 st1 F1 F2 F3 F4 E1 E2]; subst x.
    - constructor; exact L.
    - unfold prune in E2. destruct (class_of f) eqn:Ec; [discriminate|]. rewrite <- E2 in Ec. discriminate.
    - unfold prune in E2. destruct (class_of f) eqn:Ec; [discriminate|]. rewrite <- E2 in Ec. discriminate.
    - assert (Nn : forallb is_none st1 = true).
      { unfold prune in E2. destruct (class_of f) eqn:Ec; [|rewrite <- E2 in Ec; discriminate]. inversion E2. apply forallb_none_repeat. }
      assert (Nr : r <> r0).
      { intros <-. rewrite Ho in F1. inversion F1; subst o1. rewrite (view_fully s r o p1 v st1 S Ho F2 C F4) in Ef. congruence. }
      eapply Ab_view; [unfold h'; rewrite set_nth_other by congruence; exact F1|exact F2|eapply content_grow; eassumption|].
      clear -F4 Nn. induction F4; [constructor|discriminate Nn|constructor; auto]. }
  assert (K : (forall y a, abs (s_heap s) y a -> exists b, abs h' y b /\ quiet a b) /\ (forall ys vs, abss ct (s_heap s) ys vs -> exists ws, abss ct h' ys ws /\ quiets ct vs ws) /\
    (forall bs attrs st, slots (s_heap s) bs attrs st -> exists st', slots h' bs attrs st' /\
       Forall2 (fun a b => match a, b with None, None => True | Some a, Some b => quiet a b | _, _ => False end) st st')).
  { apply abs_both.
    - intros w L. exists w. split; [constructor; exact L|constructor].
    - intros r0 o0 d E1 E2 E3 E4. destruct (G r0 o0 E1) as (o1 & E' & L). exists (PHash (b_class o0) d). split; [|constructor]. rewrite <- (la_class _ _ L).
      eapply Ab_hash; [exact E'|rewrite (la_orig _ _ L); exact E2|destruct (la_full _ _ L E2); congruence|apply (la_dhash _ _ L), E4].
    - intros r0 o0 fs E1 E2 E3 _ (ws & IH & Qw). destruct (G r0 o0 E1) as (o1 & E' & L). destruct (la_full _ _ L E2) as (X & Y). exists (PFull (b_class o0) ws). split; [|apply Q_full, Qw]. rewrite <- (la_class _ _ L).
      eapply Ab_full; [exact E'|rewrite (la_orig _ _ L); exact E2|congruence|rewrite X; exact IH].
    - intros r0 o0 p0 v0 st E1 E2 C0 Hs (st' & Hs' & Qs).
      assert (C1 : content (s_heap s) (HRef r0) v0) by (eapply Ct_view; eassumption).
      pose proof (view_fully s r0 o0 p0 v0 st S E1 E2 C1 Hs) as Vf.
      destruct (Nat.eq_dec r r0) as [<-|Nr].
      + rewrite Ho in E1. inversion E1; subst o0. rewrite Ef in Vf. rewrite (content_fun _ _ _ _ C1 C) in *.
        assert (Z : forall attrs st st', slots (s_heap s) (b_attrs o) attrs st -> slots h' (b_attrs o) attrs st' ->
          Forall2 (fun a b => match a, b with None, None => True | Some a, Some b => quiet a b | _, _ => False end) st st' ->
          exists st2, slots h' (b_attrs o') attrs st2 /\ quieter ct v attrs st st2).
        { clear Hs Hs' Qs st st' Vf. induction attrs as [|[n sr] attrs IHa]; intros st st' Hs Hs' Qs; inversion Hs; subst; inversion Hs'; subst; inversion Qs; subst; try congruence; try contradiction.
          - exists []. split; constructor.
          - edestruct IHa as (st2 & I1 & I2); [eassumption..|]. eexists (Some _ :: st2). split; [|apply Qr_some; eassumption].
            eapply Sl_set; [|eassumption|exact I1]. unfold o'. cbn. rewrite assoc_snoc. match goal with H : assoc n (b_attrs o) = Some _ |- _ => rewrite H end. reflexivity.
          - edestruct IHa as (st2 & I1 & I2); [eassumption..|]. destruct (String.eqb_spec name n) as [<-|Nn].
            + exists (Some (prune ct f) :: st2). split; [|eapply Qr_fill; eassumption]. eapply Sl_set; [| |exact I1].
              * unfold o'. cbn. rewrite assoc_snoc, En, String.eqb_refl. reflexivity.
              * exact Ax'.
            + exists (None :: st2). split; [|apply Qr_none, I2]. apply Sl_unset; [|exact I1]. unfold o'. cbn. rewrite assoc_snoc. destruct (assoc n (b_attrs o)); [congruence|]. destruct (String.eqb_spec name n); [congruence|reflexivity]. }
        destruct (Z _ _ _ Hs Hs' Qs) as (st2 & Hs2 & Q2). exists (PView (b_class o) v st2). split; [|apply Q_view; [symmetry; exact Vf|exact Q2]].
        change (b_class o) with (b_class o'). eapply Ab_view; [exact Ho'|exact Eo|eapply content_grow; [exact G|]; assert (p0 = p) as <- by congruence; exact C0|exact Hs2].
      + exists (PView (b_class o0) v0 st'). split.
        * eapply Ab_view; [unfold h'; rewrite set_nth_other by congruence; exact E1|exact E2|eapply content_grow; eassumption|exact Hs'].
        * destruct (forallb is_none st) eqn:Fn.
          -- assert (st' = st) as ->; [|constructor]. clear -Fn Qs. induction Qs as [|a b st st' Q Qs IH]; [reflexivity|]. cbn in Fn. destruct a; [discriminate|]. destruct b; [contradiction|]. f_equal. auto.
          -- apply Q_view; [exact Fn|]. clear -Hs Qs. revert st' Qs. induction Hs; intros st' Qs; inversion Qs as [|? b ? ? Q Qs']; subst; [constructor|destruct b; [|contradiction]; constructor; auto..|].
             destruct b; [contradiction|]. constructor; auto.
    - exists []. split; constructor.
    - intros y w ys ws _ (b & Hb & Qb) _ (bs & Hbs & Qbs). exists (b :: bs). split; constructor; assumption.
    - intros bs. exists []. split; constructor.
    - intros bs n sr attrs y a st Ey _ (b & Hb & Qb) _ (st' & Hs & Qs). exists (Some b :: st'). split; [econstructor; eassumption|constructor; assumption].
    - intros bs n sr attrs st Ey _ (st' & Hs & Qs). exists (None :: st'). split; [constructor; assumption|constructor; [exact Logic.I|assumption]]. }
  intros y a H. exact (proj1 K y a H).
Qed.

Lemma peek_full c fs name i f : attr_index (c_attrs (ct c)) name = Some i -> nth_error fs i = Some f -> peek ct (PFull c fs) name = Ok f.
Proof. intros Hi Hf. unfold peek. cbn [get]. rewrite Hi, Hf. reflexivity. Qed.

Lemma slots_repeat h attrs : slots h [] attrs (repeat None (List.length attrs)).
Proof. induction attrs as [|[n sr] attrs IH]; cbn; constructor; auto. Qed.

Lemma fresh_abs h k o c f : nth_error h k = Some o -> b_orig o = Some c -> b_attrs o = [] -> content h (HRef c) f -> class_of f = Some (b_class o) -> abs h (HRef k) (prune ct f).
Proof. intros H E A C F. unfold prune. rewrite F. eapply Ab_view; [exact H|exact E|exact C|]. rewrite A. apply slots_repeat. Qed.

(** What an attribute that was not set holds after it was fetched, and what else changed. *)
Lemma hget_abs fuel : forall s r o v name x s', sound s -> nth_error (s_heap s) r = Some o -> content (s_heap s) (HRef r) v -> r < fuel -> hget ct fuel r name s = (Ok x, s') ->
  assoc name (b_attrs o) = None -> exists f, peek ct v name = Ok f /\ match f with PView _ _ _ => False | _ => True end /\ abs (s_heap s') x (prune ct f) /\ (b_fully o = false -> quiet_state (s_heap s) (s_heap s')).
Proof.
  induction fuel as [|fuel IH]; intros s r o v name x s' S Ho C Lf E Ea; [lia|].
  pose proof (hget_ok ct made PT _ _ _ _ _ _ _ S C Lf E) as (Sf & _ & _ & _ & c & fs & i & f & -> & Hi & Hf & Cx & _).
  cbn [hget] in E. unfold mbind at 1, fetch at 1 in E. rewrite Ho, Ea in E.
  pose proof (so_formed _ _ _ S r o Ho) as F. unfold Heap_Inv.formed in F. destruct (b_orig o) as [p|] eqn:Eo.
  2:{ destruct (cached _ _); discriminate E. }
  destruct F as (Lp & Pp & Ff & Fd & q & Hq & Ecq & Aq).
  assert (Cp : content (s_heap s) (HRef p) (PFull c fs)). { destruct (content_full_inv _ _ _ _ C Ho) as [(p1 & X & Y)|[(d & X & _)|(fs1 & X & _)]]; congruence. }
  unfold mbind at 1 in E. destruct (hget ct fuel p name s) as [[y|e] s1] eqn:Eg; [|discriminate E].
  assert (Lq : p < fuel) by lia. destruct (hget_ok ct made PT _ _ _ _ _ _ _ S Cp Lq Eg) as (S1 & Fo & Ca & Fr & P). cbn in P.
  destruct P as (c1 & fs1 & i1 & f1 & Ev & Hi1 & Hf1 & Cy & q1 & Hq1 & Hy). inversion Ev; subst c1 fs1. clear Ev. assert (i1 = i) by congruence; subst i1. assert (f1 = f) by congruence; subst f1.
  assert (Hr1 : nth_error (s_heap s1) r = Some o) by (apply Fr; [lia|exact Ho]).
  exists f. split; [eapply peek_full; eassumption|]. split; [eapply content_not_view, Cy|].
  assert (Q1 : b_fully o = false -> quiet_state (s_heap s) (s_heap s1)).
  { intros Nf. destruct (assoc name (b_attrs q)) as [y0|] eqn:Eq.
    - destruct fuel; [discriminate Eg|]. cbn [hget] in Eg. unfold mbind at 1, fetch at 1 in Eg. rewrite Hq, Eq in Eg. inversion Eg; subst. apply quiet_state_refl.
    - destruct (IH _ _ _ _ _ _ _ S Hq Cp Lq Eg Eq) as (_ & _ & _ & _ & Q). apply Q.
      destruct (b_attrs o) as [|[n z] bs] eqn:Eb; [congruence|]. destruct (Aq n z) as (y0 & Hy0 & _); [cbn; rewrite String.eqb_refl; reflexivity|].
      pose proof (so_formed _ _ _ S p q Hq) as Fq. unfold Heap_Inv.formed in Fq. destruct (b_orig q).
      + destruct Fq as (_ & _ & -> & _). destruct (b_attrs q); [discriminate Hy0|reflexivity].
      + destruct (b_fully q); [|reflexivity]. destruct Fq as (X & _). rewrite X in Hy0. discriminate Hy0. }
  assert (Nf : match f with PView _ _ _ => False | _ => True end) by (eapply content_not_view, Cy).
  destruct y as [a|cy].
  - unfold mbind, ret, update in E. rewrite Hr1 in E. inversion E; subst x s'. clear E. destruct (content_leaf _ _ _ Cy) as (-> & La).
    assert (Ep : prune ct a = a) by (unfold prune; unfold is_proof in La; destruct (class_of a); [discriminate|reflexivity]). cbn [s_heap].
    split; [rewrite Ep; constructor; exact La|]. intros Ef. eapply quiet_state_trans; [exact (Q1 Ef)|].
    eapply set_quiet; [exact S1|exact Hr1|exact Eo|exact Ef|exact Ea|eapply content_grow; [exact (proj1 Fo)|exact C]|eapply peek_full; eassumption|rewrite Ep; constructor; exact La|exact Nf|].
    eapply grows_set; [exact Hr1|]. constructor; cbn; auto; [|intros N; congruence]. intros n z Hz. rewrite assoc_snoc, Hz. reflexivity.
  - destruct (content_object ct made _ _ _ S1 Cy) as (oy & Hoy & Ecy). unfold mbind in E. rewrite (hprune_eq _ _ _ Hoy) in E. unfold ret, update in E. cbn [s_heap s_cache] in E.
    set (on := Obj (b_class oy) (Some cy) [] true true None None). match type of E with context [nth_error ?h r] => set (h2 := h) in E end.
    destruct (hprune_ok ct made _ _ _ _ S1 Hoy Cy) as (S2 & (G2 & _) & C2). cbn [s_heap] in G2, C2. change (sound (St h2 (s_cache s1))) in S2. change (grows (s_heap s1) h2) in G2. change (content h2 (HRef (List.length (s_heap s1))) f) in C2.
    assert (Hr2 : nth_error h2 r = Some o) by (unfold h2; rewrite nth_error_app1; [exact Hr1|eapply nth_error_lt, Hr1]). rewrite Hr2 in E. inversion E; subst x s'. clear E. cbn [s_heap].
    set (k := List.length (s_heap s1)) in *. assert (Hk : nth_error h2 k = Some on) by (unfold h2; rewrite nth_error_snoc; unfold k; rewrite Nat.eqb_refl; reflexivity).
    assert (Nk : r <> k) by (pose proof (nth_error_lt _ _ _ Hr1); unfold k; lia).
    assert (Ca2 : content h2 (HRef cy) f) by (eapply content_grow; [exact G2|exact Cy]).
    assert (Ak : abs h2 (HRef k) (prune ct f)) by (eapply fresh_abs; [exact Hk|reflexivity|reflexivity|exact Ca2|exact Ecy]).
    assert (G3 : grows h2 (set_nth r (with_attr name (HRef k) o) h2)).
    { eapply grows_set; [exact Hr2|]. constructor; cbn; auto; [|intros N; congruence]. intros n z Hz. rewrite assoc_snoc, Hz. reflexivity. }
    split.
    + eapply fresh_abs; [rewrite set_nth_other by exact Nk; exact Hk|reflexivity|reflexivity|eapply content_grow; [exact G3|exact Ca2]|exact Ecy].
    + intros Ef. eapply quiet_state_trans; [exact (Q1 Ef)|]. eapply quiet_state_trans; [apply snoc_quiet|]. fold h2.
      exact (set_quiet (St h2 (s_cache s1)) r o p (PFull c fs) name (HRef k) f S2 Hr2 Eo Ef Ea
        (content_grow _ _ _ _ G2 (content_grow _ _ _ _ (proj1 Fo) C)) (peek_full _ _ _ _ _ Hi Hf) Ak Nf G3).
Qed.

(** ** Fuel *)

(** The object at the end of the chain of originals. *)
Inductive base (h : list obj) : ref -> ref -> Prop :=
| Ba_own r o : nth_error h r = Some o -> b_orig o = None -> base h r r
| Ba_orig r o p b : nth_error h r = Some o -> b_orig o = Some p -> base h p b -> base h r b.

Lemma base_det h r b : base h r b -> forall b', base h r b' -> b = b'.
Proof. induction 1 as [r o H E|r o p b H E B IH]; intros b' B'; inversion B'; subst; try congruence. apply IH. congruence. Qed.
Lemma base_ex s r o : sound s -> nth_error (s_heap s) r = Some o -> exists b, base (s_heap s) r b /\ b <= r.
Proof.
  intros S. revert o. induction r as [r IH] using (well_founded_induction lt_wf). intros o H.
  destruct (b_orig o) as [p|] eqn:Eo; [|exists r; split; [econstructor; eassumption|lia]].
  pose proof (so_formed _ _ _ S r o H) as F. unfold Heap_Inv.formed in F. rewrite Eo in F. destruct F as (L & _ & _ & _ & q & Hq & _).
  destruct (IH p L q Hq) as (b & B & Lb). exists b. split; [eapply Ba_orig; eassumption|lia].
Qed.
Lemma base_grow h h' r b : grows h h' -> base h r b -> base h' r b.
Proof.
  intros G. induction 1 as [r o H E|r o p b H E B IH]; destruct (G _ _ H) as (o' & H' & L); [eapply Ba_own; [exact H'|]|eapply Ba_orig; [exact H'| |exact IH]]; rewrite (la_orig _ _ L); exact E.
Qed.
Lemma base_attr s r o n c b : sound s -> nth_error (s_heap s) r = Some o -> assoc n (b_attrs o) = Some (HRef c) -> base (s_heap s) r b -> exists b', base (s_heap s) c b' /\ b' < b.
Proof.
  intros S H E B. revert o c H E. induction B as [r o1 H1 E1|r o1 p b H1 E1 B IH]; intros o c H E; rewrite H in H1; inversion H1; subst o1; clear H1;
    pose proof (so_formed _ _ _ S r o H) as F; unfold Heap_Inv.formed in F; rewrite E1 in F.
  - destruct (b_fully o); [destruct F as (X & _); rewrite X in E; discriminate E|]. destruct F as (F & _).
    pose proof (assoc_in _ _ _ E) as Hi. assert (L : c < r /\ exists q, nth_error (s_heap s) c = Some q).
    { split.
      - clear -F Hi. induction F as [|a b0 attrs bs (A1 & A2 & A3) F IHF]; [contradiction|]. destruct Hi as [->|Hi]; [|auto]. exact A3.
      - destruct (content_ex ct made s r o S H) as (v & C). destruct (content_attr ct made _ _ _ _ _ _ S C H E) as (c1 & fs & i & f & _ & _ & _ & Cf).
        destruct (content_object ct made _ _ _ S Cf) as (q & Hq & _). eauto. }
    destruct L as (L & q & Hq). destruct (base_ex s c q S Hq) as (b' & B' & Lb). exists b'. split; [exact B'|lia].
  - destruct F as (_ & _ & _ & _ & q & Hq & _ & A). destruct (A n (HRef c) E) as (y & Hy & V). destruct y as [|cy]; [contradiction|]. destruct V as (oc & Hoc & Eoc).
    destruct (IH q cy Hq Hy) as (b' & B' & Lb). exists b'. split; [eapply Ba_orig; eassumption|exact Lb].
Qed.

(** ** serialize *)

Definition served (s s' : state) : Prop := sound s' /\ follows s s' /\ s_cache s' = s_cache s /\ quiet_state (s_heap s) (s_heap s').
Lemma served_refl s : sound s -> served s s.
Proof. intros S. split; [exact S|]. split; [apply follows_refl|]. split; [reflexivity|apply quiet_state_refl]. Qed.
Lemma served_trans a b c : served a b -> served b c -> served a c.
Proof. intros (A1 & A2 & A3 & A4) (B1 & B2 & B3 & B4). split; [exact B1|]. split; [eapply follows_trans; eassumption|]. split; [congruence|eapply quiet_state_trans; eassumption]. Qed.
Lemma hashing_served s s' : hashing ct made s s' -> served s s'.
Proof. intros H. pose proof (hashing_quiet _ _ H) as Q. destruct H as (H1 & H2 & H3 & _). split; [exact H1|]. split; [exact H2|]. split; [exact H3|exact Q]. Qed.

Lemma abss_quiet h h' xs vs : quiet_state h h' -> abss ct h xs vs -> exists ws, abss ct h' xs ws /\ quiets ct vs ws.
Proof.
  intros Q. induction 1 as [|x v xs vs A _ (ws & I1 & I2)]; [exists []; split; constructor|]. destruct (Q x v A) as (w & Hw & Qw). exists (w :: ws). split; constructor; assumption.
Qed.

Lemma as_leaf_abs h x a sr : abs h x a -> leafy sr -> ser_leaf sr (as_leaf x) = ser_leaf sr a.
Proof. intros A L. destruct x as [v|r]; inversion A; subst; [reflexivity|apply ser_leaf_proof; auto..]. Qed.

(** One attribute, given what writes sub-proofs. *)
Definition write_one (W : ref -> M bytes) (sr : ser) (x : hval) : M bytes :=
  match sr with
  | SerProof _ => match x with HRef c => W c | HLeaf _ => raise AttributeError end
  | SerUnion cs =>
    match x with
    | HRef c => let! o := fetch c in let! i := lift (hunion ct cs o) in let! b := W c in ret (i ++ b)
    | HLeaf _ => raise SerializerTypeError
    end
  | _ => lift (ser_leaf sr (as_leaf x))
  end.

Lemma union_index_leaf cs v : is_proof v = false -> union_index ct cs v = None.
Proof. intros L. unfold is_proof in L. induction cs as [|c cs IH]; [reflexivity|]. cbn. unfold isinst. destruct (class_of v); [discriminate|]. rewrite IH. reflexivity. Qed.

Lemma write_one_ok W sr x a s res s' : sound s -> abs (s_heap s) x a ->
  (forall c, x = HRef c -> forall res s', W c s = (res, s') -> served s s' /\ res = ser_proof ct a) ->
  write_one W sr x s = (res, s') -> served s s' /\ res = ser_val ct sr a.
Proof.
  intros S A HW E.
  assert (Lf : leafy sr -> lift (ser_leaf sr (as_leaf x)) s = (res, s') -> served s s' /\ res = ser_leaf sr a).
  { intros L E'. unfold lift in E'. inversion E'; subst. split; [apply served_refl, S|exact (as_leaf_abs _ _ _ _ A L)]. }
  destruct sr; cbn [write_one ser_val] in *; try (apply Lf; [exact Logic.I|exact E]); clear Lf.
  - destruct x as [v|c0]; [|apply (HW c0 eq_refl), E]. unfold raise in E. inversion E; subst. split; [apply served_refl, S|]. inversion A as [? L| | |]; subst. destruct a; try discriminate L; reflexivity.
  - destruct x as [v|c0].
    + unfold raise in E. inversion E; subst. split; [apply served_refl, S|]. inversion A as [? L| | |]; subst. unfold ser_union. rewrite (union_index_leaf _ _ L). reflexivity.
    + destruct (abs_class _ _ _ S A) as (o & Ho & Ec). unfold mbind, fetch, lift in E. rewrite Ho in E. unfold hunion in E. unfold ser_union.
      rewrite (union_index_class ct cs a (PHash (b_class o) [])) by exact Ec. destruct (union_index ct cs (PHash (b_class o) [])) as [i|].
      2:{ inversion E; subst. split; [apply served_refl, S|reflexivity]. }
      destruct (W c0 s) as [r1 s1] eqn:Ew. destruct (HW c0 eq_refl _ _ Ew) as (Sv & ->). destruct (ser_proof ct a) as [b|e]; unfold ret in E; inversion E; subst; (split; [exact Sv|reflexivity]).
Qed.

Lemma ser_loop_cons W r n sr attrs s : ser_loop ct W r ((n, sr) :: attrs) s =
  mbind (getattr ct r n) (fun x => mbind (write_one W sr x) (fun p => mbind (ser_loop ct W r attrs) (fun q => ret (p ++ q)))) s.
Proof. reflexivity. Qed.

(** The loop over the attributes of an object that is not a view. *)
Lemma ser_loop_full W r : 
  forall attrs bs vs s o res s', sound s -> nth_error (s_heap s) r = Some o -> b_orig o = None -> (forall n x, In (n, x) bs -> assoc n (b_attrs o) = Some x) ->
  (forall n c s a res s', In (n, HRef c) bs -> sound s -> abs (s_heap s) (HRef c) a ->
     (exists o', nth_error (s_heap s) r = Some o' /\ b_orig o' = None /\ assoc n (b_attrs o') = Some (HRef c)) -> W c s = (res, s') -> served s s' /\ res = ser_proof ct a) ->
  map fst bs = map fst attrs -> abss ct (s_heap s) (map snd bs) vs ->
  ser_loop ct W r attrs s = (res, s') -> served s s' /\ res = ser_fields ct attrs vs.
Proof.
  induction attrs as [|[n sr] attrs IH]; intros bs vs s o res s' S Ho Eo A HW En B E; destruct bs as [|[m x] bs]; try discriminate En.
  - cbn in E. unfold ret in E. inversion E; subst. inversion B; subst. split; [apply served_refl, S|reflexivity].
  - cbn in En. injection En as -> En. inversion B as [|? a ? vs' Ax B']; subst. rewrite ser_loop_cons in E. unfold mbind at 1 in E.
    rewrite (getattr_set ct s r o n x Ho (A n x (or_introl eq_refl))) in E. unfold mbind at 1 in E. destruct (write_one W sr x s) as [r1 s1] eqn:Ew.
    destruct (write_one_ok W sr x a s r1 s1 S Ax) as (Sv1 & ->); [|exact Ew|].
    { intros c -> res1 s2 Hw. eapply (HW n c s a res1 s2); [left; reflexivity|exact S|exact Ax| |exact Hw]. exists o. split; [exact Ho|]. split; [exact Eo|]. apply A; left; reflexivity. }
    cbn [ser_fields]. destruct (ser_val ct sr a) as [p|e]; cbn [bind]; [|inversion E; subst; split; [exact Sv1|reflexivity]].
    destruct Sv1 as (S1 & Fo1 & Ca1 & Q1). destruct (proj1 Fo1 _ _ Ho) as (o1 & Ho1 & L1). destruct (la_full _ _ L1 Eo) as (X1 & _).
    destruct (abss_quiet _ _ _ _ Q1 B') as (ws & Bw & Qw). unfold mbind at 1 in E. destruct (ser_loop ct W r attrs s1) as [r2 s2] eqn:El.
    destruct (IH bs ws s1 o1 r2 s2 S1 Ho1) as (Sv2 & ->); [rewrite (la_orig _ _ L1); exact Eo|intros k y Hy; rewrite X1; apply A; right; exact Hy| |exact En|exact Bw|exact El|].
    { intros k c s0 a0 res0 s0' Hi. apply HW. right. exact Hi. }
    rewrite (proj1 (proj2 (quiet_ser ct)) _ _ Qw attrs) in E. split; [eapply served_trans; [split; [exact S1|]; split; [exact Fo1|]; split; [exact Ca1|exact Q1]|]|].
    + destruct (ser_fields ct attrs vs'); unfold ret in E; inversion E; subst; exact Sv2.
    + destruct (ser_fields ct attrs vs'); unfold ret in E; inversion E; subst; reflexivity.
Qed.

Lemma slots_nth h bs attrs st : slots h bs attrs st -> forall k n sr, nth_error attrs k = Some (n, sr) ->
  (exists a x, nth_error st k = Some (Some a) /\ assoc n bs = Some x /\ abs h x a) \/ (nth_error st k = Some None /\ assoc n bs = None).
Proof.
  induction 1 as [bs|bs m sr' attrs y a st E A Hs IH|bs m sr' attrs st E Hs IH]; intros [|k] n sr H; cbn in *; try discriminate; eauto; inversion H; subst; eauto 10.
Qed.
Lemma slots_length h bs attrs st : slots h bs attrs st -> List.length st = List.length attrs.
Proof. induction 1; cbn; congruence. Qed.

Lemma quieter_refl v attrs st : List.length st = List.length attrs -> quieter ct v attrs st st.
Proof.
  revert st. induction attrs as [|[n sr] attrs IH]; intros [|[a|] st] E; try discriminate; constructor; try apply IH; try (cbn in E; congruence). constructor.
Qed.
Lemma quieter_skipn v attrs st st' : quieter ct v attrs st st' -> forall k, quieter ct v (skipn k attrs) (skipn k st) (skipn k st').
Proof. induction 1; intros [|k]; cbn; try (econstructor; eassumption); auto. Qed.
Lemma quiet_view_inv c v st b : List.length st = List.length (c_attrs (ct c)) -> forallb is_none st = false -> quiet (PView c v st) b ->
  exists st', b = PView c v st' /\ quieter ct v (c_attrs (ct c)) st st' /\ forallb is_none st' = false.
Proof.
  intros L N H. inversion H; subst; [exists st; split; [reflexivity|]; split; [apply quieter_refl, L|exact N]|].
  eexists. split; [reflexivity|]. split; [eassumption|]. eapply quieter_some; eassumption.
Qed.

Lemma skipn_nth {A} (l : list A) k x : nth_error l k = Some x -> skipn k l = x :: skipn (Datatypes.S k) l.
Proof. revert k. induction l as [|y l IH]; intros [|k] H; cbn in *; try discriminate; [congruence|]. rewrite (IH k H). reflexivity. Qed.

Lemma view_inv s r c v st : abs (s_heap s) (HRef r) (PView c v st) ->
  exists o p, nth_error (s_heap s) r = Some o /\ b_orig o = Some p /\ b_class o = c /\ content (s_heap s) (HRef p) v /\ content (s_heap s) (HRef r) v /\ slots (s_heap s) (b_attrs o) (c_attrs (ct c)) st.
Proof. intros A. inversion A as [| | |? o p ? ? F1 F2 F3 F4]; subst. exists o, p. do 4 (split; [auto|]). split; [eapply Ct_view; eassumption|exact F4]. Qed.

Lemma view_full s r c v st : sound s -> abs (s_heap s) (HRef r) (PView c v st) -> forallb is_none st = false -> exists fs, v = PFull c fs.
Proof.
  intros S A N. destruct (view_inv _ _ _ _ _ A) as (o & p & Ho & Eo & Ec & _ & C & Hs). subst c.
  destruct (b_attrs o) as [|[n x] bs] eqn:Eb; [rewrite (slots_nil _ _ _ Hs) in N; discriminate|].
  destruct (content_attr ct made s r o v n x S C Ho) as (c & fs & i & f & -> & _); [rewrite Eb; cbn; rewrite String.eqb_refl; reflexivity|].
  destruct (content_object ct made _ _ _ S C) as (o1 & Ho1 & Ec). rewrite Ho in Ho1. inversion Ho1; subst o1. inversion Ec. eauto.
Qed.

Lemma in_index (attrs : list (string * ser)) n sr : In (n, sr) attrs -> attr_index attrs n <> None.
Proof. induction attrs as [|[m s0] attrs IH]; cbn; [contradiction|]. intros [H|H]; [inversion H; subst; rewrite String.eqb_refl; discriminate|]. destruct (String.eqb m n); [discriminate|]. destruct (attr_index attrs n); [discriminate|]. exfalso. apply IH; auto. Qed.

(** The loop over the attributes of a view. *)
Lemma ser_loop_view W r b :
  (forall c b' s a res s', sound s -> base (s_heap s) r b -> base (s_heap s) c b' -> b' < b -> abs (s_heap s) (HRef c) a -> W c s = (res, s') -> served s s' /\ res = ser_proof ct a) ->
  forall l k s c v st res s', skipn k (c_attrs (ct c)) = l -> sound s -> base (s_heap s) r b -> abs (s_heap s) (HRef r) (PView c v st) -> forallb is_none st = false ->
  ser_loop ct W r l s = (res, s') -> served s s' /\ res = ser_view_fields ct v l (skipn k st).
Proof.
  intros HW. induction l as [|[n sr] l IH]; intros k s c v st res s' El S B A N E.
  - cbn in E. unfold ret in E. inversion E; subst. split; [apply served_refl, S|].
    destruct (view_inv _ _ _ _ _ A) as (o & p & Ho & Eo & Ec & _ & C & Hs). pose proof (slots_length _ _ _ _ Hs) as Ls.
    assert (Lk : List.length (skipn k st) = 0) by (rewrite skipn_length, Ls, <- skipn_length, El; reflexivity). destruct (skipn k st); [reflexivity|discriminate Lk].
  - destruct (view_inv _ _ _ _ _ A) as (o & p & Ho & Eo & Ec & _ & C & Hs). pose proof (slots_length _ _ _ _ Hs) as Ls.
    destruct (view_full _ _ _ _ _ S A N) as (fs & ->).
    assert (Hk : nth_error (c_attrs (ct c)) k = Some (n, sr)).
    { rewrite <- (firstn_skipn k (c_attrs (ct c))), El. rewrite nth_error_app2; rewrite firstn_length; [|lia].
      assert (k < List.length (c_attrs (ct c))) by (assert (X : List.length (skipn k (c_attrs (ct c))) > 0) by (rewrite El; cbn; lia); rewrite skipn_length in X; lia).
      replace (k - Nat.min k (List.length (c_attrs (ct c)))) with 0 by lia. reflexivity. }
    assert (El' : skipn (Datatypes.S k) (c_attrs (ct c)) = l) by (rewrite (skipn_nth _ _ _ Hk) in El; congruence).
    (* the attribute *)
    assert (X : exists x s1 a, getattr ct r n s = (Ok x, s1) /\ served s s1 /\ abs (s_heap s1) x a /\ (exists o1, nth_error (s_heap s1) r = Some o1 /\ assoc n (b_attrs o1) = Some x) /\
      exists s0, nth_error st k = Some s0 /\ forall l0 st0, ser_view_fields ct (PFull c fs) ((n, sr) :: l0) (s0 :: st0) = do x <- ser_val ct sr a; do r <- ser_view_fields ct (PFull c fs) l0 st0; Ok (x ++ r)).
    { destruct (slots_nth _ _ _ _ Hs _ _ _ Hk) as [(a & x & Hst & Hx & Ha)|(Hst & Hx)].
      - exists x, s, a. split; [apply (getattr_set ct s r o n x Ho Hx)|]. split; [apply served_refl, S|]. split; [exact Ha|]. split; [eauto|]. exists (Some a). split; [exact Hst|]. reflexivity.
      - destruct (getattr ct r n s) as [[x|e] s1] eqn:Eg; unfold getattr in Eg; pose proof (hget_ok ct made PT _ _ _ _ _ _ _ S C (Nat.lt_succ_diag_r r) Eg) as (S1 & Fo1 & Ca1 & _ & P).
        + destruct (hget_abs _ _ _ _ _ _ _ _ S Ho C (Nat.lt_succ_diag_r r) Eg Hx) as (f & Pf & Nf & Ax & Q).
          exists x, s1, (prune ct f). split; [reflexivity|]. split; [split; [exact S1|]; split; [exact Fo1|]; split; [exact Ca1|]|].
          { apply Q. subst c. rewrite (view_fully s r o p _ st S Ho Eo C Hs). exact N. }
          split; [exact Ax|]. split; [destruct P as (? & ? & ? & ? & _ & _ & _ & _ & P); exact P|]. exists None. split; [exact Hst|].
          intros l0 st0. cbn [ser_view_fields]. rewrite Pf. cbn [bind]. rewrite fill_bytes by exact Nf. reflexivity.
        + exfalso. destruct P as (_ & _ & P). eapply in_index; [eapply nth_error_In, Hk|exact P]. }
    destruct X as (x & s1 & a & Eg & Sv1 & Ax & (o1 & Ho1 & Hx1) & s0 & Hst & Step). rewrite ser_loop_cons in E. unfold mbind at 1 in E. rewrite Eg in E. unfold mbind at 1 in E.
    rewrite (skipn_nth _ _ _ Hst), Step. destruct (write_one W sr x s1) as [r1 s2] eqn:Ew. pose proof Sv1 as (S1 & Fo1 & _ & Q1).
    assert (B1 : base (s_heap s1) r b) by (eapply base_grow; [exact (proj1 Fo1)|exact B]).
    destruct (write_one_ok W sr x a s1 r1 s2 S1 Ax) as (Sv2 & ->); [|exact Ew|].
    { intros c0 -> res1 s3 Hw. destruct (base_attr _ _ _ _ _ _ S1 Ho1 Hx1 B1) as (b' & B' & Lb). eapply HW; eassumption. }
    pose proof (served_trans _ _ _ Sv1 Sv2) as Sv. destruct (ser_val ct sr a) as [y|e]; cbn [bind]; [|inversion E; subst; split; [exact Sv|reflexivity]].
    pose proof Sv as (S2 & Fo2 & _ & Q2). destruct (Q2 _ _ A) as (a2 & A2 & Qa). destruct (quiet_view_inv _ _ _ _ Ls N Qa) as (st2 & -> & Qs & N2).
    unfold mbind at 1 in E. destruct (ser_loop ct W r l s2) as [r3 s3] eqn:Es.
    destruct (IH (Datatypes.S k) s2 c (PFull c fs) st2 r3 s3 El' S2 (base_grow _ _ _ _ (proj1 Fo2) B) A2 N2 Es) as (Sv3 & ->).
    pose proof (proj2 (proj2 (quiet_ser ct)) _ _ _ _ (quieter_skipn _ _ _ _ Qs (Datatypes.S k))) as Eq. rewrite El' in Eq. rewrite Eq in E.
    destruct (ser_view_fields ct (PFull c fs) l (skipn (Datatypes.S k) st)); unfold ret in E; inversion E; subst; (split; [eapply served_trans; eassumption|reflexivity]).
Qed.

Lemma hser_ok fuel : forall s r b a res s', sound s -> abs (s_heap s) (HRef r) a -> base (s_heap s) r b -> b < fuel -> hser ct fuel r s = (res, s') ->
  served s s' /\ res = ser_proof ct a.
Proof.
  induction fuel as [|fuel IH]; intros s r b a res s' S A B Lf E; [lia|].
  destruct (abs_class _ _ _ S A) as (o & Ho & Ec). cbn [hser] in E. unfold mbind at 1, fetch at 1 in E. rewrite Ho in E.
  destruct (content_ex ct made s r o S Ho) as (v & C).
  assert (Fu : forall dv, b_fully o = true -> ser_proof ct a = (do dh <- data_hash ct dv; Ok (xff :: dh)) -> content (s_heap s) (HRef r) dv -> served s s' /\ res = ser_proof ct a).
  { intros dv Ef Ea Cv. rewrite Ef in E. unfold mbind, data_hash_attr in E. destruct (hhash ct (2 * r + 2) false r s) as [rd s1] eqn:Eh.
    destruct (hhash_ok ct made PT _ _ _ _ false _ _ S Cv (proj1 (Nat.add_le_mono_l 1 2 (2 * r)) (Nat.le_succ_diag_r 1)) Eh) as (Hs & Hr). cbn iota in Hr. subst rd. rewrite Ea.
    destruct (data_hash ct dv); unfold ret in E; inversion E; subst; (split; [apply hashing_served, Hs|reflexivity]). }
  destruct (abs_inv ct _ _ _ _ A Ho) as [(d & X1 & X2 & X3 & ->)|[(vs & X1 & X2 & X3 & ->)|(p & w & st & X1 & X2 & X3 & ->)]].
  - apply (Fu (PHash (b_class o) d) X2); [reflexivity|]. eapply Ct_hash; eassumption.
  - clear Fu. rewrite X2 in E. unfold mbind at 1, lift in E. unfold hvariant in E. rewrite ser_proof_full. rewrite (ser_variant_class ct (PFull (b_class o) vs) (PHash (b_class o) [])) by reflexivity.
    destruct (ser_variant ct (PHash (b_class o) [])) as [ix|e]; cbn [bind]; [|inversion E; subst; split; [apply served_refl, S|reflexivity]].
    unfold mbind at 1 in E. destruct (ser_loop ct (hser ct fuel) r (c_attrs (ct (b_class o))) s) as [r1 s1] eqn:El.
    pose proof (so_formed _ _ _ S r o Ho) as F. unfold Heap_Inv.formed in F. rewrite X1, X2 in F. destruct F as (F & _).
    pose proof (passed_names _ _ _ _ _ F) as Nm.
    destruct (ser_loop_full (hser ct fuel) r (c_attrs (ct (b_class o))) (b_attrs o) vs s o r1 s1 S Ho X1) as (Sv & ->); [| |exact Nm|exact X3|exact El|].
    + intros n x Hi. apply in_assoc; [|exact Hi]. rewrite Nm. apply (pt_names _ _ PT).
    + intros n c0 s2 a2 res2 s3 Hi S2 A2 (o2 & Ho2 & Eo2 & Hx2) Ew. assert (B2 : base (s_heap s2) r r) by (eapply Ba_own; eassumption).
      assert (Bs : b = r) by (eapply base_det; [exact B|eapply Ba_own; eassumption]). subst b.
      destruct (base_attr _ _ _ _ _ _ S2 Ho2 Hx2 B2) as (b' & B' & Lb). eapply IH; [exact S2|exact A2|exact B'|lia|exact Ew].
    + destruct (ser_fields ct (c_attrs (ct (b_class o))) vs); unfold ret in E; inversion E; subst; (split; [exact Sv|reflexivity]).
  - assert (Cr : content (s_heap s) (HRef r) w) by (eapply Ct_view; eassumption). pose proof (view_fully s r o p w st S Ho X1 Cr X3) as Vf.
    destruct (forallb is_none st) eqn:N.
    + apply (Fu w Vf); [rewrite ser_view, N; reflexivity|exact Cr].
    + rewrite Vf in E. unfold mbind at 1, lift in E. unfold hvariant in E. rewrite ser_view, N. rewrite (ser_variant_class ct (PView (b_class o) w st) (PHash (b_class o) [])) by reflexivity.
      destruct (ser_variant ct (PHash (b_class o) [])) as [ix|e]; cbn [bind]; [|inversion E; subst; split; [apply served_refl, S|reflexivity]].
      unfold mbind at 1 in E. destruct (ser_loop ct (hser ct fuel) r (c_attrs (ct (b_class o))) s) as [r1 s1] eqn:El.
      destruct (ser_loop_view (hser ct fuel) r b) with (l := c_attrs (ct (b_class o))) (k := 0) (s := s) (c := b_class o) (v := w) (st := st) (res := r1) (s' := s1) as (Sv & ->); [|reflexivity|exact S|exact B|exact A|exact N|exact El|].
      * intros c0 b' s2 a2 res2 s3 S2 B2 B' Lb A2 Ew. eapply IH; [exact S2|exact A2|exact B'|lia|exact Ew].
      * cbn [skipn] in *. destruct (ser_view_fields ct w (c_attrs (ct (b_class o))) st); unfold ret in E; inversion E; subst; (split; [exact Sv|reflexivity]).
Qed.

Lemma serialize_ok s r a res s' : sound s -> abs (s_heap s) (HRef r) a -> serialize_of ct r s = (res, s') -> served s s' /\ res = ser_proof ct a.
Proof.
  intros S A E. destruct (abs_class _ _ _ S A) as (o & Ho & _). destruct (base_ex s r o S Ho) as (b & B & L). eapply hser_ok; [exact S|exact A|exact B| |exact E]. lia.
Qed.

End Ser.
