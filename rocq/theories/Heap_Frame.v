(** Proofs about Heap_Model.v, part 6: which objects a command can change. *)
From Verif Require Import Base Sha256 Serialize_Model Tx_Model Proof_Model Proof_Spec Cache_Model Construct_Proofs
  Proof_Proofs ProofHash_Proofs ProofView_Proofs Heap_Model Heap_Spec Heap_Inv Heap_Step Heap_Make Heap_Ser Heap_Run.
From Coq Require Import ZifyBool ZifyNat ZifyN.

(** ** Colours *)

(** [P] divides the objects in two: the attributes of an object have its colour; an object that does not have
    the colour has an original that does not. *)
Definition closed (P : ref -> bool) (h : list obj) : Prop := forall r o, nth_error h r = Some o ->
  (forall n x, In (n, HRef x) (b_attrs o) -> x < List.length h /\ P x = P r) /\
  (forall p, b_orig o = Some p -> p < List.length h /\ (P r = false -> P p = false)).

(** Later: old objects keep their colour and, except for attributes and hashes, what they are. *)
Definition keeps (P P' : ref -> bool) (h h' : list obj) : Prop :=
  List.length h <= List.length h' /\ (forall r, r < List.length h -> P' r = P r).
(** The objects of the colour are the same but for hashes. *)
Definition spares (P : ref -> bool) (h h' : list obj) : Prop := forall r o, P r = true -> nth_error h r = Some o -> exists o', nth_error h' r = Some o' /\ erase o' = erase o.

Lemma spares_refl P h : spares P h h.
Proof. intros r o _ H. eauto. Qed.
Lemma spares_trans P P' h h1 h2 : spares P h h1 -> spares P' h1 h2 -> (forall r, r < List.length h -> P' r = P r) -> spares P h h2.
Proof.
  intros A B K r o Pr H. destruct (A r o Pr H) as (o1 & H1 & E1). destruct (B r o1) as (o2 & H2 & E2); [rewrite K; [exact Pr|eapply nth_error_lt, H]|exact H1|]. exists o2. split; [exact H2|congruence].
Qed.

(** A computation on behalf of objects of colour [b]. *)
Definition proper (b : bool) {A} (good : (ref -> bool) -> list obj -> A -> Prop) (P : ref -> bool) (m : M A) (s : state) : Prop :=
  forall res s', m s = (res, s') -> exists P', closed P' (s_heap s') /\ keeps P P' (s_heap s) (s_heap s') /\ (b = false -> spares P (s_heap s) (s_heap s')) /\
  match res with Ok a => good P' (s_heap s') a | Err _ => True end.

Definition tinted (b : bool) (P : ref -> bool) (h : list obj) (r : ref) : Prop := r < List.length h /\ P r = b.
Definition htinted (b : bool) (P : ref -> bool) (h : list obj) (x : hval) : Prop := match x with HLeaf _ => True | HRef r => tinted b P h r end.
Definition always {A} (P : ref -> bool) (h : list obj) (a : A) : Prop := True.

(** What holds of references stays true. *)
Definition lasting {A} (G : (ref -> bool) -> list obj -> A -> Prop) : Prop := forall P P' h h' a, keeps P P' h h' -> G P h a -> G P' h' a.
Lemma tinted_lasting b : lasting (tinted b).
Proof. intros P P' h h' r (L & K) (Lr & E). split; [lia|]. rewrite K; assumption. Qed.
Lemma htinted_lasting b : lasting (htinted b).
Proof. intros P P' h h' [v|r] K; cbn; auto. apply tinted_lasting, K. Qed.

Lemma keeps_refl P h : keeps P P h h.
Proof. split; auto. Qed.
Lemma keeps_trans P1 P2 P3 h1 h2 h3 : keeps P1 P2 h1 h2 -> keeps P2 P3 h2 h3 -> keeps P1 P3 h1 h3.
Proof. intros (A1 & A2) (B1 & B2). split; [lia|]. intros r L. rewrite B2, A2 by lia. reflexivity. Qed.

Lemma proper_ret b {A} (good : (ref -> bool) -> list obj -> A -> Prop) P a s : closed P (s_heap s) -> good P (s_heap s) a -> proper b good P (ret a) s.
Proof. intros C G res s' E. inversion E; subst. exists P. split; [exact C|]. split; [apply keeps_refl|]. split; [intros _; apply spares_refl|exact G]. Qed.
Lemma proper_raise b {A} (good : (ref -> bool) -> list obj -> A -> Prop) P e s : closed P (s_heap s) -> proper b good P (raise e) s.
Proof. intros C res s' E. inversion E; subst. exists P. split; [exact C|]. split; [apply keeps_refl|]. split; [intros _; apply spares_refl|exact Logic.I]. Qed.
Lemma proper_lift b {A} P (r : result A) s : closed P (s_heap s) -> proper b always P (lift r) s.
Proof. intros C res s' E. inversion E; subst. exists P. split; [exact C|]. split; [apply keeps_refl|]. split; [intros _; apply spares_refl|destruct res; exact Logic.I]. Qed.

Lemma proper_bind b {A B} (ga : (ref -> bool) -> list obj -> A -> Prop) (gb : (ref -> bool) -> list obj -> B -> Prop) P (m : M A) (k : A -> M B) s :
  proper b ga P m s -> (forall P' a s', closed P' (s_heap s') -> keeps P P' (s_heap s) (s_heap s') -> ga P' (s_heap s') a -> proper b gb P' (k a) s') -> proper b gb P (mbind m k) s.
Proof.
  intros Hm Hk res s' E. unfold mbind in E. destruct (m s) as [[a|e] s1] eqn:Em; destruct (Hm _ _ Em) as (P1 & C1 & K1 & Sp1 & G1).
  - destruct (Hk P1 a s1 C1 K1 G1 _ _ E) as (P2 & C2 & K2 & Sp2 & G2). exists P2. split; [exact C2|]. split; [eapply keeps_trans; eassumption|].
    split; [|exact G2]. intros Eb. eapply spares_trans; [apply Sp1, Eb|apply Sp2, Eb|exact (proj2 K1)].
  - inversion E; subst. exists P1. auto.
Qed.
Lemma proper_weaken b {A} (ga gb : (ref -> bool) -> list obj -> A -> Prop) P (m : M A) s : proper b ga P m s -> (forall P' h a, ga P' h a -> gb P' h a) -> proper b gb P m s.
Proof. intros H W res s' E. destruct (H _ _ E) as (P1 & C1 & K1 & Sp1 & G1). exists P1. split; [exact C1|]. split; [exact K1|]. split; [exact Sp1|]. destruct res; auto. Qed.

(** Looking at an object. *)
Lemma proper_fetch b P r s : closed P (s_heap s) -> proper b (fun P' h o => P' = P /\ h = s_heap s /\ nth_error h r = Some o) P (fetch r) s.
Proof.
  intros C res s' E. unfold fetch in E. destruct (nth_error (s_heap s) r) as [o|] eqn:Ho; inversion E; subst; exists P; (split; [exact C|]; split; [apply keeps_refl|]; split; [intros _; apply spares_refl|]); auto.
Qed.

(** A new object. *)
Definition fits_in (b : bool) (P : ref -> bool) (h : list obj) (o : obj) : Prop :=
  (forall n x, In (n, HRef x) (b_attrs o) -> tinted b P h x) /\ (forall p, b_orig o = Some p -> p < List.length h /\ (b = false -> P p = false)).
Lemma proper_alloc b P o s : closed P (s_heap s) -> fits_in b P (s_heap s) o -> proper b (fun P' h r => tinted b P' h r /\ nth_error h r = Some o) P (alloc o) s.
Proof.
  intros C (F1 & F2) res s' E. unfold alloc in E. inversion E; subst. clear E. cbn [s_heap]. set (n := List.length (s_heap s)). exists (fun r => if r =? n then b else P r).
  assert (K : keeps P (fun r => if r =? n then b else P r) (s_heap s) (s_heap s ++ [o])).
  { split; [rewrite app_length; lia|]. intros r L. destruct (Nat.eqb_spec r n); [unfold n in *; lia|reflexivity]. }
  split; [|split; [exact K|split]].
  - intros r x. rewrite nth_error_snoc, app_length. cbn [List.length]. fold n. destruct (Nat.eqb_spec r n) as [->|N]; intros H.
    + inversion H; subst x. split.
      * intros m y Hy. destruct (F1 m y Hy) as (L & Ey). split; [lia|]. destruct (Nat.eqb_spec y n); [lia|exact Ey].
      * intros p Hp. destruct (F2 p Hp) as (L & Ep). split; [lia|]. destruct (Nat.eqb_spec p n); [lia|exact Ep].
    + destruct (C r x H) as (C1 & C2). split.
      * intros m y Hy. destruct (C1 m y Hy) as (L & Ey). split; [lia|]. destruct (Nat.eqb_spec y n); [lia|exact Ey].
      * intros p Hp. destruct (C2 p Hp) as (L & Ep). split; [lia|]. destruct (Nat.eqb_spec p n); [lia|exact Ep].
  - intros _ r x _ H. exists x. split; [|reflexivity]. rewrite nth_error_app1; [exact H|eapply nth_error_lt, H].
  - split; [split; [rewrite app_length; cbn; lia|rewrite Nat.eqb_refl; reflexivity]|]. rewrite nth_error_snoc. fold n. rewrite Nat.eqb_refl. reflexivity.
Qed.

(** Changing an object. *)
Lemma proper_update b P r f s : closed P (s_heap s) -> (b = false -> P r = false \/ forall o, erase (f o) = erase o) ->
  (forall o, nth_error (s_heap s) r = Some o -> b_orig (f o) = b_orig o /\ forall n x, In (n, HRef x) (b_attrs (f o)) -> In (n, HRef x) (b_attrs o) \/ tinted (P r) P (s_heap s) x) ->
  proper b always P (update r f) s.
Proof.
  intros C Hb Hf res s' E. unfold update in E. inversion E; subst. clear E. exists P.
  destruct (nth_error (s_heap s) r) as [o|] eqn:Ho; [|split; [exact C|]; split; [apply keeps_refl|]; split; [intros _; apply spares_refl|exact Logic.I]]. cbn [s_heap].
  destruct (Hf o eq_refl) as (Eo & Ea). destruct (C r o Ho) as (C1 & C2).
  split; [|split; [split; [rewrite set_nth_length; lia|reflexivity]|split; [|exact Logic.I]]].
  - intros q x Hq. rewrite set_nth_length. destruct (Nat.eq_dec r q) as [<-|N].
    + rewrite set_nth_same in Hq by (eapply nth_error_lt, Ho). inversion Hq; subst x. split.
      * intros n y Hy. destruct (Ea n y Hy) as [Hy'|(L & Ey)]; [exact (C1 n y Hy')|split; assumption].
      * rewrite Eo. exact C2.
    + rewrite set_nth_other in Hq by exact N. exact (C q x Hq).
  - intros Eb q x Pq Hq. destruct (Nat.eq_dec r q) as [<-|N].
    + destruct (Hb Eb) as [X|X]; [congruence|]. rewrite Ho in Hq. inversion Hq; subst x. exists (f o). split; [apply set_nth_same; eapply nth_error_lt, Ho|apply X].
    + exists x. split; [rewrite set_nth_other by exact N; exact Hq|reflexivity].
Qed.

Section Frame.
Context (ct : ctable).

Lemma hprune_proper b P r s : closed P (s_heap s) -> r < List.length (s_heap s) -> (b = false -> P r = false) -> proper b (tinted b) P (hprune r) s.
Proof.
  intros C L Hb. unfold hprune. eapply proper_bind; [apply proper_fetch, C|]. intros P' o s' C' K' (-> & Eh & Ho).
  eapply proper_weaken; [apply proper_alloc; [exact C'|]|intros P2 h a X; apply X]. split; cbn; [contradiction|]. intros p Ep. inversion Ep; subst. split; [rewrite Eh; exact L|exact Hb].
Qed.

Lemma hget_proper fuel : forall b P r name s, closed P (s_heap s) -> tinted b P (s_heap s) r -> proper b (htinted b) P (hget ct fuel r name) s.
Proof.
  induction fuel as [|fuel IH]; intros b P r name s C T; cbn [hget]; [apply proper_raise, C|].
  eapply proper_bind; [apply proper_fetch, C|]. intros P' o s' C' K' (-> & Eh & Ho).
  destruct (assoc name (b_attrs o)) as [x|] eqn:Ea.
  { apply proper_ret; [exact C'|]. destruct x as [v|x]; [exact Logic.I|]. destruct (C' r o Ho) as (C1 & _). destruct (C1 name x (assoc_in _ _ _ Ea)) as (L & Ex). split; [exact L|]. rewrite Ex. apply T. }
  destruct (b_orig o) as [p|] eqn:Eo.
  2:{ intros res s2 E. destruct (cached _ _); inversion E; subst; exists P; (split; [exact C'|]; split; [apply keeps_refl|]; split; [intros _; apply spares_refl|exact Logic.I]). }
  destruct (C' r o Ho) as (_ & C2). destruct (C2 p Eo) as (Lp & Ep). destruct T as (Lr & Tr). rewrite Tr in Ep.
  eapply proper_bind with (ga := htinted (P p)).
  { intros res s2 E. destruct (IH (P p) P p name s' C' (conj Lp eq_refl) res s2 E) as (P1 & X1 & X2 & X3 & X4). exists P1. split; [exact X1|]. split; [exact X2|]. split; [|exact X4]. intros Eb. apply X3, Ep, Eb. }
  intros P1 y s1 C1 K1 T1.
  eapply proper_bind with (ga := htinted b).
  { destruct y as [v|c]; [apply proper_ret; [exact C1|exact Logic.I]|]. eapply proper_bind.
    - apply (hprune_proper b); [exact C1|apply T1|]. intros Eb. destruct T1 as (_ & ->). apply Ep, Eb.
    - intros P2 k s2 C2' K2 T2. apply proper_ret; [exact C2'|exact T2]. }
  intros P2 x s2 C2' K2 T2.
  assert (Tr2 : tinted b P2 (s_heap s2) r). { eapply tinted_lasting; [exact K2|]. eapply tinted_lasting; [exact K1|]. rewrite Eh in *. split; assumption. }
  eapply proper_bind.
  - apply (proper_update b); [exact C2'|intros Eb; left; rewrite <- Eb; apply Tr2|]. intros o2 Ho2. split; [reflexivity|]. cbn. intros n z Hz. apply in_app_or in Hz. destruct Hz as [Hz|[Hz|[]]]; [auto|]. right. inversion Hz; subst.
    rewrite (proj2 Tr2). exact T2.
  - intros P3 u s3 C3 K3 _. apply proper_ret; [exact C3|]. eapply htinted_lasting; eassumption.
Qed.
Lemma getattr_proper b P r name s : closed P (s_heap s) -> tinted b P (s_heap s) r -> proper b (htinted b) P (getattr ct r name) s.
Proof. apply hget_proper. Qed.

Lemma with_hash_erase full d o : erase (with_hash full d o) = erase o.
Proof. destruct full; reflexivity. Qed.
Lemma with_hash_attrs full d o : b_attrs (with_hash full d o) = b_attrs o.
Proof. destruct full; reflexivity. Qed.
Lemma with_hash_orig full d o : b_orig (with_hash full d o) = b_orig o.
Proof. destruct full; reflexivity. Qed.

Lemma dh_loop_proper b (H : ref -> M bytes) r :
  (forall P c s, closed P (s_heap s) -> tinted b P (s_heap s) c -> proper b always P (H c) s) ->
  forall attrs P s, closed P (s_heap s) -> tinted b P (s_heap s) r -> proper b always P (dh_loop ct H r attrs) s.
Proof.
  intros HH. induction attrs as [|[n sr] attrs IH]; intros P s C T; cbn [dh_loop]; [apply proper_ret; [exact C|exact Logic.I]|].
  eapply proper_bind; [apply getattr_proper; [exact C|exact T]|]. intros P1 x s1 C1 K1 T1.
  eapply proper_bind with (ga := always).
  - destruct sr; try (apply proper_lift; exact C1); (destruct x as [v|c0]; [apply proper_raise, C1|apply HH; [exact C1|exact T1]]).
  - intros P2 p s2 C2 K2 _. eapply proper_bind; [apply IH; [exact C2|]|intros P3 q s3 C3 _ _; apply proper_ret; [exact C3|exact Logic.I]].
    eapply tinted_lasting; [exact K2|]. eapply tinted_lasting; [exact K1|exact T].
Qed.

Lemma hhash_proper fuel : forall b P full r s, closed P (s_heap s) -> tinted b P (s_heap s) r -> proper b always P (hhash ct fuel full r) s.
Proof.
  induction fuel as [|fuel IH]; intros b P full r s C T; cbn [hhash]; [apply proper_raise, C|].
  eapply proper_bind; [apply proper_fetch, C|]. intros P' o s' C' K' (-> & Eh & Ho). rewrite <- Eh in T.
  destruct (if full then b_hash o else b_dhash o); [apply proper_ret; [exact C'|exact Logic.I]|].
  eapply proper_bind with (ga := always).
  - destruct (b_orig o) as [p|] eqn:Eo.
    + destruct (C' r o Ho) as (_ & C2). destruct (C2 p Eo) as (Lp & Ep). destruct T as (Lr & Tr). rewrite Tr in Ep.
      intros res s2 E. destruct (IH (P p) P full p s' C' (conj Lp eq_refl) res s2 E) as (P1 & X1 & X2 & X3 & X4). exists P1. split; [exact X1|]. split; [exact X2|]. split; [|exact X4]. intros Eb. apply X3, Ep, Eb.
    + destruct full.
      * destruct (c_hash (ct (b_class o))) as [t|].
        -- eapply proper_bind; [apply IH; eassumption|]. intros P1 d s1 C1 K1 _. destruct t; [apply proper_ret; [exact C1|exact Logic.I]|apply proper_raise, C1].
        -- destruct (b_pruned o).
           ++ eapply proper_bind; [apply IH; eassumption|]. intros P1 d s1 C1 K1 _. apply proper_raise, C1.
           ++ eapply proper_bind; [apply getattr_proper; eassumption|]. intros P1 x s1 C1 K1 _. destruct x as [[]|]; try (apply proper_raise, C1).
              eapply proper_bind; [apply proper_lift, C1|]. intros P2 d s2 C2 K2 _. apply proper_ret; [exact C2|exact Logic.I].
      * eapply proper_bind; [apply dh_loop_proper; [intros; apply IH; assumption|eassumption..]|]. intros P1 d s1 C1 K1 _. apply proper_ret; [exact C1|exact Logic.I].
  - intros P1 d s1 C1 K1 _. eapply proper_bind.
    + apply (proper_update b); [exact C1|intros _; right; intros; apply with_hash_erase|]. intros o1 Ho1. rewrite with_hash_orig, with_hash_attrs. auto.
    + intros P2 u s2 C2 _ _. apply proper_ret; [exact C2|exact Logic.I].
Qed.

Lemma ser_loop_proper b (W : ref -> M bytes) r :
  (forall P c s, closed P (s_heap s) -> tinted b P (s_heap s) c -> proper b always P (W c) s) ->
  forall attrs P s, closed P (s_heap s) -> tinted b P (s_heap s) r -> proper b always P (ser_loop ct W r attrs) s.
Proof.
  intros HW. induction attrs as [|[n sr] attrs IH]; intros P s C T; cbn [ser_loop]; [apply proper_ret; [exact C|exact Logic.I]|].
  eapply proper_bind; [apply getattr_proper; [exact C|exact T]|]. intros P1 x s1 C1 K1 T1.
  eapply proper_bind with (ga := always).
  - destruct sr; try (apply proper_lift; exact C1); (destruct x as [v|c0]; [apply proper_raise, C1|]); [apply HW; [exact C1|exact T1]|].
    eapply proper_bind; [apply proper_fetch, C1|]. intros P2 o s2 C2 K2 (-> & Eh2 & _). eapply proper_bind; [apply proper_lift, C2|]. intros P3 i s3 C3 K3 _.
    eapply proper_bind; [apply HW; [exact C3|eapply tinted_lasting; [exact K3|]; rewrite Eh2; exact T1]|]. intros P4 y s4 C4 _ _. apply proper_ret; [exact C4|exact Logic.I].
  - intros P2 p s2 C2 K2 _. eapply proper_bind; [apply IH; [exact C2|]|intros P3 q s3 C3 _ _; apply proper_ret; [exact C3|exact Logic.I]].
    eapply tinted_lasting; [exact K2|]. eapply tinted_lasting; [exact K1|exact T].
Qed.

Lemma hser_proper fuel : forall b P r s, closed P (s_heap s) -> tinted b P (s_heap s) r -> proper b always P (hser ct fuel r) s.
Proof.
  induction fuel as [|fuel IH]; intros b P r s C T; cbn [hser]; [apply proper_raise, C|].
  eapply proper_bind; [apply proper_fetch, C|]. intros P' o s' C' K' (-> & Eh & Ho). rewrite <- Eh in T. destruct (b_fully o).
  - eapply proper_bind; [apply hhash_proper; eassumption|]. intros P1 d s1 C1 K1 _. apply proper_ret; [exact C1|exact Logic.I].
  - eapply proper_bind; [apply proper_lift, C'|]. intros P1 d s1 C1 K1 _. eapply proper_bind; [apply ser_loop_proper; [intros; apply IH; assumption|exact C1|eapply tinted_lasting; eassumption]|].
    intros P2 y s2 C2 _ _. apply proper_ret; [exact C2|exact Logic.I].
Qed.

(** *** New objects *)

Definition kwtinted (b : bool) (P : ref -> bool) (h : list obj) (kw : list (string * hval)) : Prop := forall n x, In (n, x) kw -> htinted b P h x.
Lemma kwtinted_lasting b : lasting (kwtinted b).
Proof. intros P P' h h' kw K H n x Hi. eapply htinted_lasting; [exact K|]. apply (H n x Hi). Qed.

Lemma new_loop_proper b kw : forall attrs P s, closed P (s_heap s) -> kwtinted b P (s_heap s) kw -> proper b (fun P' h q => kwtinted b P' h (fst q)) P (new_loop ct attrs kw) s.
Proof.
  induction attrs as [|[n sr] attrs IH]; intros P s C T; cbn [new_loop]; [apply proper_ret; [exact C|intros m x []]|].
  eapply proper_bind with (ga := htinted b).
  { destruct (assoc n kw) as [x|] eqn:E; [apply proper_ret; [exact C|apply (T n x), assoc_in, E]|apply proper_raise, C]. }
  intros P1 x s1 C1 K1 T1. eapply proper_bind with (ga := always).
  { intros res s2 E. inversion E; subst. exists P1. split; [exact C1|]. split; [apply keeps_refl|]. split; [intros _; apply spares_refl|]. destruct (check _ _ _); exact Logic.I. }
  intros P2 u s2 C2 K2 _. eapply proper_bind with (ga := always).
  { destruct sr; try (apply proper_ret; [exact C2|exact Logic.I]). destruct x as [v|c0]; [apply proper_raise, C2|]. eapply proper_bind; [apply proper_fetch, C2|]. intros P3 o s3 C3 K3 _. apply proper_ret; [exact C3|exact Logic.I]. }
  intros P3 p s3 C3 K3 _. eapply proper_bind; [apply IH; [exact C3|]|].
  - eapply kwtinted_lasting; [exact K3|]. eapply kwtinted_lasting; [exact K2|]. eapply kwtinted_lasting; [exact K1|exact T].
  - intros P4 q s4 C4 K4 T4. apply proper_ret; [exact C4|]. cbn [fst]. intros m y [E|Hi]; [|apply (T4 m y Hi)]. inversion E; subst.
    eapply htinted_lasting; [exact K4|]. eapply htinted_lasting; [exact K3|]. eapply htinted_lasting; [exact K2|exact T1].
Qed.

Lemma hnew_proper b c kw P s : closed P (s_heap s) -> kwtinted b P (s_heap s) kw -> proper b (tinted b) P (hnew ct c kw) s.
Proof.
  intros C T. unfold hnew. eapply proper_bind with (ga := always).
  { intros res s2 E. destruct (attrs_for ct (s_cache s) c). inversion E; subst. exists P. split; [exact C|]. split; [apply keeps_refl|]. split; [intros _; apply spares_refl|exact Logic.I]. }
  intros P1 attrs s1 C1 K1 _. eapply proper_bind; [apply (new_loop_proper b); [exact C1|eapply kwtinted_lasting; eassumption]|].
  intros P2 q s2 C2 K2 T2. eapply proper_weaken; [apply proper_alloc; [exact C2|]|intros P3 h a X; apply X]. split; cbn; [intros n x Hi; apply (T2 n (HRef x) Hi)|discriminate].
Qed.

Lemma de_loop_proper b (D : cid -> bytes -> M (ref * bytes)) :
  (forall P c buf s, closed P (s_heap s) -> proper b (fun P' h q => tinted b P' h (fst q)) P (D c buf) s) ->
  forall attrs buf P s, closed P (s_heap s) -> proper b (fun P' h q => kwtinted b P' h (fst q)) P (de_loop D attrs buf) s.
Proof.
  intros HD. induction attrs as [|[n sr] attrs IH]; intros buf P s C; cbn [de_loop]; [apply proper_ret; [exact C|intros m x []]|].
  eapply proper_bind with (ga := fun P' h q => htinted b P' h (fst q)).
  { assert (X : forall P c buf s, closed P (s_heap s) -> proper b (fun P' h q => htinted b P' h (fst q)) P (let! q := D c buf in ret (HRef (fst q), snd q)) s).
    { intros P0 c buf0 s0 C0. eapply proper_bind; [apply HD, C0|]. intros P1 q s1 C1 _ T1. apply proper_ret; [exact C1|exact T1]. }
    destruct sr; try (eapply proper_bind; [apply proper_lift, C|]; intros P1 q s1 C1 _ _; apply proper_ret; [exact C1|exact Logic.I]); [apply X, C|].
    eapply proper_bind; [apply proper_lift, C|]. intros P1 i s1 C1 _ _. destruct (if (fst i <? _)%N then _ else _); [apply X, C1|apply proper_raise, C1]. }
  intros P1 p s1 C1 K1 T1. eapply proper_bind; [apply IH, C1|]. intros P2 q s2 C2 K2 T2. apply proper_ret; [exact C2|]. cbn [fst]. intros m y [E|Hi]; [|apply (T2 m y Hi)].
  inversion E; subst. eapply htinted_lasting; eassumption.
Qed.

Lemma hde_proper fuel : forall b P c buf s, closed P (s_heap s) -> proper b (fun P' h q => tinted b P' h (fst q)) P (hde ct fuel c buf) s.
Proof.
  induction fuel as [|fuel IH]; intros b P c buf s C; cbn [hde]; [apply proper_raise, C|].
  eapply proper_bind; [apply proper_lift, C|]. intros P1 f s1 C1 _ _. destruct (fst f : bool).
  - eapply proper_bind; [apply proper_lift, C1|]. intros P2 d s2 C2 _ _. eapply proper_bind; [apply (proper_alloc b); [exact C2|split; cbn; [contradiction|discriminate]]|].
    intros P3 r s3 C3 _ T3. apply proper_ret; [exact C3|apply T3].
  - eapply proper_bind with (ga := always).
    { destruct (c_kind (ct c)); [apply proper_ret; [exact C1|exact Logic.I]|]. eapply proper_bind; [apply proper_lift, C1|]. intros P2 i s2 C2 _ _.
      destruct (if (fst i <? _)%N then _ else _); [apply proper_ret; [exact C2|exact Logic.I]|apply proper_raise, C2]. }
    intros P2 u s2 C2 _ _. eapply proper_bind; [apply de_loop_proper; [intros; apply IH; assumption|exact C2]|]. intros P3 kw s3 C3 _ T3.
    eapply proper_bind; [apply (hnew_proper b); [exact C3|exact T3]|]. intros P4 r s4 C4 _ T4. apply proper_ret; [exact C4|exact T4].
Qed.

(** *** Commands *)

Definition owns (b : bool) (P : ref -> bool) (h : list obj) (e : env) : Prop := forall i r, nth_error e i = Some (Some r) -> tinted b P h r.
Lemma owns_lasting b : lasting (owns b).
Proof. intros P P' h h' e K H i r Hi. eapply tinted_lasting; [exact K|]. apply (H i r Hi). Qed.
Lemma owns_handle b P h e i r : owns b P h e -> handle e i = Ok r -> tinted b P h r.
Proof. intros H. unfold handle. destruct (nth_error e i) as [[q|]|] eqn:E; try discriminate. intros X. inversion X; subst. exact (H i r E). Qed.
Lemma owns_args b P h e kw a : owns b P h e -> arguments e kw = Ok a -> kwtinted b P h a.
Proof.
  intros H. revert a. induction kw as [|[n x] kw IH]; intros a E; cbn [arguments] in E; [inversion E; subst; intros m y []|].
  destruct (argument e x) as [y|] eqn:Ex; [|discriminate]. cbn [bind] in E. destruct (arguments e kw) as [r|] eqn:Er; [|discriminate]. inversion E; subst.
  intros m z [Hz|Hz]; [|exact (IH r eq_refl m z Hz)]. inversion Hz; subst. destruct x as [v|i]; cbn in Ex; [destruct (is_proof v); inversion Ex; exact Logic.I|].
  destruct (handle e i) as [q|] eqn:Eq; [|discriminate]. inversion Ex; subst. exact (owns_handle _ _ _ _ _ _ H Eq).
Qed.

Definition gtinted (b : bool) (P : ref -> bool) (h : list obj) (q : out * option ref) : Prop := match snd q with Some r => tinted b P h r | None => True end.
Lemma give_proper b P x s : closed P (s_heap s) -> htinted b P (s_heap s) x -> proper b (gtinted b) P (give x) s.
Proof.
  intros C T. destruct x as [v|r]; cbn [give]; [apply proper_ret; [exact C|exact Logic.I]|]. eapply proper_bind; [apply proper_fetch, C|]. intros P' o s' C' K' (-> & Eh & _). apply proper_ret; [exact C'|]. cbn. rewrite Eh. exact T.
Qed.
Lemma give_bytes_proper b P m s : proper b always P m s -> proper b (gtinted b) P (give_bytes m) s.
Proof. intros H. unfold give_bytes. eapply proper_bind; [exact H|]. intros P1 d s1 C1 _ _. apply proper_ret; [exact C1|exact Logic.I]. Qed.
Lemma give_ref_proper b P m s : proper b (tinted b) P m s -> proper b (gtinted b) P (give_ref m) s.
Proof. intros H. unfold give_ref. eapply proper_bind; [exact H|]. intros P1 d s1 C1 _ T. apply give_proper; [exact C1|exact T]. Qed.

Lemma with_handle b {B} (g : (ref -> bool) -> list obj -> B -> Prop) P e i (k : ref -> M B) s : closed P (s_heap s) -> owns b P (s_heap s) e -> (forall r, tinted b P (s_heap s) r -> proper b g P (k r) s) ->
  proper b g P (let! r := lift (handle e i) in k r) s.
Proof.
  intros C O H. destruct (handle e i) as [r|x] eqn:E; [|apply (proper_raise b g P x s C)]. intros res s' X. exact (H r (owns_handle _ _ _ _ _ _ O E) res s' X).
Qed.

Lemma command_proper b P e c s : closed P (s_heap s) -> owns b P (s_heap s) e -> proper b (gtinted b) P (command ct e c) s.
Proof.
  intros C O. destruct c as [i name|i|i|i|i|i|i j|i|k kw|k buf]; cbn [command]; try (apply (with_handle b); [exact C|exact O|intros r T]).
  - eapply proper_bind; [apply getattr_proper; [exact C|exact T]|]. intros P1 x s1 C1 _ T1. apply give_proper; assumption.
  - apply give_ref_proper. apply hprune_proper; [exact C|apply T|]. intros ->. apply T.
  - apply give_bytes_proper, hhash_proper; assumption.
  - apply give_bytes_proper, hhash_proper; assumption.
  - eapply proper_bind; [apply proper_fetch, C|]. intros P1 o s1 C1 _ _. apply proper_ret; [exact C1|exact Logic.I].
  - eapply proper_bind; [apply proper_fetch, C|]. intros P1 o s1 C1 _ _. apply proper_ret; [exact C1|exact Logic.I].
  - apply (with_handle b); [exact C|exact O|]. intros r2 T2. eapply proper_bind; [apply hhash_proper; eassumption|]. intros P1 x s1 C1 K1 _.
    eapply proper_bind; [apply hhash_proper; [exact C1|eapply tinted_lasting; eassumption]|]. intros P2 y s2 C2 K2 _. apply proper_ret; [exact C2|exact Logic.I].
  - apply give_bytes_proper, hser_proper; assumption.
  - destruct (arguments e kw) as [a|x] eqn:E; [|apply (proper_raise b (gtinted b) P x s C)]. intros res s' X.
    assert (Y : proper b (gtinted b) P (give_ref (hnew ct k a)) s) by (apply give_ref_proper, hnew_proper; [exact C|eapply owns_args; eassumption]). exact (Y res s' X).
  - apply give_ref_proper. unfold load. eapply proper_bind; [apply (hde_proper _ b), C|]. intros P1 q s1 C1 _ T1. apply proper_ret; [exact C1|exact T1].
Qed.

Lemma exec_proper b P s e c u s' e' : closed P (s_heap s) -> owns b P (s_heap s) e -> exec ct s e c = (u, s', e') ->
  exists P', closed P' (s_heap s') /\ keeps P P' (s_heap s) (s_heap s') /\ (b = false -> spares P (s_heap s) (s_heap s')) /\ owns b P' (s_heap s') e'.
Proof.
  intros C O E. unfold exec in E. destruct (command ct e c s) as [res s1] eqn:Ec. destruct (command_proper b P e c s C O res s1 Ec) as (P' & X1 & X2 & X3 & X4).
  assert (Q : forall h, match h with Some r => tinted b P' (s_heap s1) r | None => True end -> owns b P' (s_heap s1) (e ++ [h])).
  { intros h Hh i r Hi. rewrite nth_error_snoc in Hi. destruct (i =? List.length e); [inversion Hi; subst; exact Hh|]. eapply tinted_lasting; [exact X2|exact (O i r Hi)]. }
  destruct res as [[w h]|x]; inversion E; subst; exists P'; (split; [exact X1|]; split; [exact X2|]; split; [exact X3|]); apply Q; [exact X4|exact Logic.I].
Qed.

End Frame.
