(** Proofs about Heap_Model.v, part 7: what commands leave as it was. *)
From Verif Require Import Base Sha256 Serialize_Model Tx_Model Proof_Model Proof_Spec Cache_Model Construct_Proofs
  Proof_Proofs ProofHash_Proofs ProofView_Proofs Heap_Model Heap_Spec Heap_Inv Heap_Step Heap_Make Heap_Ser Heap_Run Heap_Frame.
From Coq Require Import ZifyBool ZifyNat ZifyN.

Lemma same_out_sym c u w : same_out c u w -> same_out c w u.
Proof. intros [->|H]; [left; reflexivity|]. right. destruct c, u, w; try contradiction; tauto. Qed.
Lemma same_out_trans c u v w : same_out c u v -> same_out c v w -> same_out c u w.
Proof. intros [->|H] [->|H']; [left; reflexivity|right; assumption..|]. right. destruct c, u, v, w; try contradiction; tauto. Qed.
Lemma same_outs_sym p : forall us ws, same_outs p us ws -> same_outs p ws us.
Proof. induction p as [|c p IH]; intros [|u us] [|w ws]; cbn; auto. intros (A & B). split; [intros P; apply same_out_sym; auto|auto]. Qed.
Lemma same_outs_trans p : forall us vs ws, same_outs p us vs -> same_outs p vs ws -> same_outs p us ws.
Proof. induction p as [|c p IH]; intros [|u us] [|v vs] [|w ws]; cbn; auto; try contradiction. intros (A & B) (A' & B'). split; [intros P; eapply same_out_trans; eauto|eauto]. Qed.

Section Main.
Context (ct : ctable) (made : cid -> Prop) (PT : program_table ct made).
Notation sound := (Heap_Inv.sound ct made).

Lemma reach_sound s e : reach ct made s e -> sound s /\ exists ve, hands (s_heap s) e ve.
Proof.
  intros (p & us & I & E). destruct (run_ok ct made PT p start [] [] us s e (start_sound ct made)) as ((S & _) & _ & H & _); [constructor|exact I|exact E|]. split; [exact S|eauto].
Qed.

(** References are in range. *)
Lemma sound_refs s r o : sound s -> nth_error (s_heap s) r = Some o ->
  (forall n x, In (n, HRef x) (b_attrs o) -> x < List.length (s_heap s)) /\ (forall p, b_orig o = Some p -> p < r).
Proof.
  intros S H. pose proof (so_formed _ _ _ S r o H) as F. unfold formed in F. destruct (b_orig o) as [p|] eqn:Eo.
  - destruct F as (L & _ & _ & D & q & Hq & _ & A). split; [|intros p' X; inversion X; subst; exact L]. intros n x Hx. destruct (A n (HRef x) (in_assoc _ _ _ D Hx)) as (y & _ & V).
    destruct y as [|c]; [contradiction|]. destruct V as (k & Hk & _). eapply nth_error_lt, Hk.
  - split; [|discriminate]. intros n x Hx. destruct (b_fully o); [destruct F as (F & _); rewrite F in Hx; contradiction|]. destruct F as (F & _). pose proof (nth_error_lt _ _ _ H) as L.
    clear -F Hx L. induction F as [|a b la lb (_ & _ & X) F IH]; [contradiction|]. destruct Hx as [->|Hx]; [cbn in X; lia|auto].
Qed.

(** ** Commands other than reading an attribute *)

Lemma closed_old s : sound s -> closed (fun r => r <? List.length (s_heap s)) (s_heap s).
Proof.
  intros S r o H. destruct (sound_refs s r o S H) as (A & B). pose proof (nth_error_lt _ _ _ H) as L. split.
  - intros n x Hx. pose proof (A n x Hx). split; [assumption|]. lia.
  - intros p Hp. pose proof (B p Hp). split; lia.
Qed.

Lemma exec_quiet s e ve c u s' e' : sound s -> hands (s_heap s) e ve -> instantiates ct made c -> match c with CGet _ _ => False | _ => True end ->
  exec ct s e c = (u, s', e') -> quiet_state ct (s_heap s) (s_heap s').
Proof.
  intros S H Ic Nc E. pose proof (exec_ok ct made PT _ _ _ _ _ _ _ S H Ic E) as ((_ & F) & _).
  enough (Q : forall res t, command ct e c s = (res, t) -> quiet_state ct (s_heap s) (s_heap t)).
  { unfold exec in E. destruct (command ct e c s) as [[[w h]|x] t] eqn:Ec; inversion E; subst; eapply Q; reflexivity. }
  clear u e' E F s'. intros res t E.
  assert (HH : forall r v (full : bool) s1 d s2, sound s1 -> content (s_heap s1) (HRef r) v -> hhash ct (2 * r + 2) full r s1 = (d, s2) -> sound s2 /\ follows s1 s2 /\ quiet_state ct (s_heap s1) (s_heap s2)).
  { intros r v full s1 d s2 S1 C Eh. assert (L : 2 * r + (if full then 2 else 1) <= 2 * r + 2) by (destruct full; lia).
    destruct (hhash_ok ct made PT _ _ _ _ full _ _ S1 C L Eh) as (X & _). pose proof (hashing_quiet ct made _ _ X). destruct X as (X1 & X2 & _). auto. }
  destruct c as [i name|i|i|i|i|i|i j|i|k kw|k buf]; cbn [command] in *; [contradiction|..|]; rewrite ?mbind_lift in E;
    try (pose proof (hands_handle _ _ _ i H) as Hv; destruct (handle e i) as [r|x]; [destruct Hv as (v & _ & C)|inversion E; subst; apply quiet_state_refl]).
  - unfold give_ref in E. rewrite mbind_eq in E. destruct (content_object ct made _ _ _ S C) as (o & Ho & _). rewrite (hprune_eq _ _ _ Ho) in E. cbn [give] in E. unfold mbind, fetch, ret in E. cbn [s_heap] in E.
    rewrite nth_error_snoc, Nat.eqb_refl in E. inversion E; subst. apply snoc_quiet.
  - unfold give_bytes in E. rewrite mbind_eq in E. unfold hash_attr in E. destruct (hhash ct (2 * r + 2) true r s) as [d s1] eqn:Eh. destruct (HH _ _ _ _ _ _ S C Eh) as (_ & _ & Q). destruct d; inversion E; subst; exact Q.
  - unfold give_bytes in E. rewrite mbind_eq in E. unfold data_hash_attr in E. destruct (hhash ct (2 * r + 2) false r s) as [d s1] eqn:Eh. destruct (HH _ _ _ _ _ _ S C Eh) as (_ & _ & Q). destruct d; inversion E; subst; exact Q.
  - destruct (content_object ct made _ _ _ S C) as (o & Ho & _). unfold mbind, fetch in E. rewrite Ho in E. inversion E; subst. apply quiet_state_refl.
  - destruct (content_object ct made _ _ _ S C) as (o & Ho & _). unfold mbind, fetch in E. rewrite Ho in E. inversion E; subst. apply quiet_state_refl.
  - rewrite mbind_lift in E. pose proof (hands_handle _ _ _ j H) as Hv. destruct (handle e j) as [r2|x]; [destruct Hv as (v2 & _ & C2)|inversion E; subst; apply quiet_state_refl].
    rewrite mbind_eq in E. unfold hash_attr at 1 in E. destruct (hhash ct (2 * r + 2) true r s) as [d s1] eqn:Eh. destruct (HH _ _ _ _ _ _ S C Eh) as (S1 & F1 & Q). destruct d; [|inversion E; subst; exact Q].
    rewrite mbind_eq in E. unfold hash_attr in E. destruct (hhash ct (2 * r2 + 2) true r2 s1) as [d s2] eqn:Eh2. destruct (HH _ _ _ _ _ _ S1 (content_grow _ _ _ _ (proj1 F1) C2) Eh2) as (_ & _ & Q2).
    destruct d; inversion E; subst; eapply quiet_state_trans; eassumption.
  - unfold give_bytes in E. rewrite mbind_eq in E. destruct (abs_ex ct made s S v _ C) as (a & A). destruct (serialize_of ct r s) as [d s1] eqn:Es. destruct (serialize_ok ct made PT s r a d s1 S A Es) as ((_ & _ & _ & Q) & _). destruct d; inversion E; subst; exact Q.
  - pose proof (hands_args _ _ _ H kw) as Ha. destruct (arguments e kw) as [a|x]; [|inversion E; subst; apply quiet_state_refl]. destruct Ha as (va & _ & K).
    unfold give_ref in E. rewrite mbind_eq in E. destruct (hnew ct k a s) as [rn s1] eqn:En. destruct (hnew_ok ct made PT s k a va rn s1 S Ic K En) as (S1 & F1 & P).
    destruct (construct ct k va) as [v|x].
    + destruct P as (-> & C & o & Eh & _). destruct (give_ok ct made _ _ _ S1 C) as (h & Eg & _). rewrite Eg in E. inversion E; subst. rewrite Eh. apply snoc_quiet.
    + destruct P as (-> & Eh). inversion E; subst. rewrite Eh. apply quiet_state_refl.
  - assert (X : command ct [] (CLoad k buf) s = (res, t)) by exact E.
    destruct (command_proper ct false _ [] (CLoad k buf) s (closed_old s S)) with (2 := X) as (P' & _ & _ & Sp & _); [intros i r Hi; destruct i; discriminate Hi|].
    assert (F : follows s t).
    { destruct (command_ok ct made PT s e ve (CLoad k buf) res t S H Ic E) as ((_ & F) & _). exact F. }
    apply quiet_state_keep; [exact (proj1 F)|]. intros r o Ho. destruct (Sp eq_refl r o) as (o' & Ho' & Er); [pose proof (nth_error_lt _ _ _ Ho); lia|exact Ho|]. exists o'. split; [exact Ho'|]. inversion Er. reflexivity.
Qed.

Lemma run_quiet p : forall s e ve us s' e', sound s -> hands (s_heap s) e ve -> Forall (instantiates ct made) p -> Forall (fun c => match c with CGet _ _ => False | _ => True end) p ->
  run_all ct s e p = (us, s', e') -> quiet_state ct (s_heap s) (s_heap s').
Proof.
  induction p as [|c p IH]; intros s e ve us s' e' S H I N E; cbn [run_all] in E; [inversion E; subst; apply quiet_state_refl|].
  destruct (exec ct s e c) as [[u s1] e1] eqn:Ec. destruct (run_all ct s1 e1 p) as [[us2 s2] e2] eqn:Er. inversion E; subst. inversion I as [|? ? Ic Ip]; subst. inversion N as [|? ? Nc Np]; subst.
  destruct (exec_ok ct made PT _ _ _ _ _ _ _ S H Ic Ec) as ((S1 & F1) & _ & H1 & _). eapply quiet_state_trans; [eapply exec_quiet; eassumption|]. eapply IH; eassumption.
Qed.

(** ** What is_pruned, is_fully_pruned and serialize give *)

Definition shown (s : state) (r : ref) (c : bool * bool * result bytes) : Prop := exists o a, nth_error (s_heap s) r = Some o /\ abs ct (s_heap s) (HRef r) a /\ c = (b_pruned o, b_fully o, ser_proof ct a).

Definition of_bytes (b : result bytes) : out := match b with Ok b => UBytes b | Err x => UErr x end.

Lemma outcome_shown s e i r : sound s -> handle e i = Ok r -> (exists v, content (s_heap s) (HRef r) v) ->
  exists p f b, shown s r (p, f, b) /\ outcome ct s e (CIsPruned i) = UBool p /\ outcome ct s e (CIsFully i) = UBool f /\ outcome ct s e (CSer i) = of_bytes b.
Proof.
  intros S Hr (v & C). destruct (content_object ct made _ _ _ S C) as (o & Ho & _). destruct (abs_ex ct made s S v _ C) as (a & A).
  exists (b_pruned o), (b_fully o), (ser_proof ct a). split; [exists o, a; auto|]. unfold outcome, exec. cbn [command]. rewrite !mbind_lift, Hr. rewrite !mbind_eq. unfold fetch. rewrite Ho. cbn [ret fst].
  split; [reflexivity|]. split; [reflexivity|]. unfold give_bytes. rewrite mbind_eq. destruct (serialize_of ct r s) as [d s1] eqn:Es. destruct (serialize_ok ct made PT s r a d s1 S A Es) as (_ & ->).
  destruct (ser_proof ct a); reflexivity.
Qed.

Lemma shown_fun s r a b : shown s r a -> shown s r b -> a = b.
Proof. intros (o & x & Ho & A & ->) (o2 & y & Ho2 & B & ->). rewrite Ho in Ho2. inversion Ho2; subst. rewrite (abs_fun _ _ _ _ _ A B). reflexivity. Qed.

Lemma quiet_shown s s' r x : sound s -> sound s' -> follows s s' -> quiet_state ct (s_heap s) (s_heap s') -> shown s r x -> shown s' r x.
Proof.
  intros S S' F Q (o & a & Ho & A & ->). destruct (Q _ _ A) as (b & B & Qb). destruct (proj1 F _ _ Ho) as (o' & Ho' & L). exists o', b. split; [exact Ho'|]. split; [exact B|].
  rewrite (la_pruned _ _ L), (proj1 (quiet_ser ct) _ _ Qb). f_equal. f_equal.
  destruct (abs_inv _ _ _ _ _ A Ho) as [(d & Eo & _)|[(vs & Eo & _)|(p & v & st & Eo & Cp & Hs & ->)]]; try (destruct (la_full _ _ L Eo); congruence).
  destruct (abs_inv _ _ _ _ _ B Ho') as [(d & Eo' & _)|[(vs & Eo' & _)|(p' & v' & st' & Eo' & Cp' & Hs' & ->)]]; try (rewrite (la_orig _ _ L) in Eo'; congruence).
  rewrite (view_fully ct made s r o p v st S Ho Eo) by (try exact Hs; eapply Ct_view; eassumption).
  rewrite (view_fully ct made s' r o' p' v' st' S' Ho' Eo') by (try exact Hs'; eapply Ct_view; eassumption).
  inversion Qb as [| |? ? ? ? N Qr]; subst; [reflexivity|]. rewrite N, (quieter_some _ _ _ _ _ Qr N). reflexivity.
Qed.

Lemma shown_same s s' e e' i r x : sound s -> sound s' -> handle e i = Ok r -> handle e' i = Ok r -> (exists v, content (s_heap s) (HRef r) v) -> (exists v, content (s_heap s') (HRef r) v) ->
  shown s r x -> shown s' r x -> forall c, c = CIsPruned i \/ c = CIsFully i \/ c = CSer i -> outcome ct s' e' c = outcome ct s e c.
Proof.
  intros S S' H H' V V' X X' c Hc. destruct (outcome_shown s e i r S H V) as (p & f & b & Y & E1 & E2 & E3). destruct (outcome_shown s' e' i r S' H' V') as (p' & f' & b' & Y' & E1' & E2' & E3').
  pose proof (shown_fun _ _ _ _ X Y). subst x. pose proof (shown_fun _ _ _ _ X' Y') as Z. inversion Z; subst. destruct Hc as [->|[->| ->]]; congruence.
Qed.

(** Only reading attributes changes them. *)
Lemma only_reads s e us s' e' p d j : reach ct made s e -> Forall (instantiates ct made) p -> Forall (fun c => match c with CGet _ _ => False | _ => True end) p ->
  run_all ct s e p = (us, s', e') -> j < List.length e -> d = CIsPruned j \/ d = CIsFully j \/ d = CSer j -> outcome ct s' e' d = outcome ct s e d.
Proof.
  intros R I N E L Hd. destruct (reach_sound s e R) as (S & ve & H). destruct (run_ok ct made PT p _ _ _ _ _ _ S H I E) as ((S' & F) & (x & -> & _) & H' & _).
  pose proof (run_quiet p _ _ _ _ _ _ S H I N E) as Q. pose proof (hands_handle _ _ _ j H) as Hv. destruct (handle e j) as [r|y] eqn:Hr.
  - destruct Hv as (v & _ & C). destruct (content_object ct made _ _ _ S C) as (o & Ho & _). destruct (abs_ex ct made s S v _ C) as (a & A).
    assert (X : shown s r (b_pruned o, b_fully o, ser_proof ct a)) by (exists o, a; auto).
    apply (shown_same s s' e (e ++ x) j r (b_pruned o, b_fully o, ser_proof ct a) S S'); [exact Hr|rewrite handle_app; assumption|eauto| |exact X|exact (quiet_shown s s' r _ S S' F Q X)|exact Hd].
    exists v. eapply content_grow; [exact (proj1 F)|exact C].
  - assert (Hr' : handle (e ++ x) j = Err y) by (rewrite handle_app; assumption). unfold outcome, exec. destruct Hd as [->|[->| ->]]; cbn [command]; rewrite !mbind_lift, Hr, Hr'; reflexivity.
Qed.

(** ** Objects that are not pruned *)

Lemma flags_nth h attrs bs k a b : flags h attrs bs = false -> nth_error attrs k = Some a -> nth_error bs k = Some b -> flag h a b = false.
Proof.
  revert bs k. induction attrs as [|a0 attrs IH]; intros [|b0 bs] [|k] F Ha Hb; cbn in *; try discriminate.
  - inversion Ha; inversion Hb; subst. destruct (flag h a b); [discriminate|reflexivity].
  - destruct (flag h a0 b0); [discriminate|]. eapply IH; eassumption.
Qed.

(** Leaves, and objects with the same bytes. *)
Definition alike (a b : val) : Prop := class_of b = class_of a /\ ser_proof ct b = ser_proof ct a /\ (is_proof a = false -> b = a).
Lemma alike_val sr a b : alike a b -> ser_val ct sr b = ser_val ct sr a.
Proof.
  intros (C & E & L). apply ser_val_same; [exact C|exact E|]. intros Lf. destruct (is_proof a) eqn:P; [|rewrite L; reflexivity].
  apply ser_leaf_proof; [exact Lf|unfold is_proof in *; rewrite C; exact P|exact P].
Qed.

(** The values of attributes at two times. *)
Lemma solid_same s s' : no_unions ct -> sound s -> sound s' -> follows s s' -> forall n r o a b, r < n -> nth_error (s_heap s) r = Some o -> b_pruned o = false ->
  abs ct (s_heap s) (HRef r) a -> abs ct (s_heap s') (HRef r) b -> alike a b.
Proof.
  intros NU S S' F. induction n as [|n IH]; intros r o a b L Ho Pr A B; [lia|]. destruct (proj1 F r o Ho) as (o' & Ho' & La). pose proof (so_formed _ _ _ S r o Ho) as Fm. unfold formed in Fm.
  destruct (b_orig o) as [p|] eqn:Eo; [destruct Fm as (_ & X & _); congruence|]. destruct (b_fully o) eqn:Ef; [destruct Fm as (_ & X & _); congruence|].
  destruct Fm as (Fp & Fl & _ & _). destruct (la_full _ _ La Eo) as (Ea & Ef').
  destruct (abs_inv _ _ _ _ _ A Ho) as [(d & _ & X & _)|[(vs & _ & _ & As & ->)|(p & v & st & X & _)]]; try congruence.
  destruct (abs_inv _ _ _ _ _ B Ho') as [(d & _ & X & _)|[(ws & _ & _ & Bs & ->)|(p & v & st & X & _)]]; try (rewrite ?(la_orig _ _ La) in *; congruence). rewrite (la_class _ _ La) in *. rewrite Ea in Bs.
  split; [reflexivity|]. split; [|discriminate]. rewrite !ser_proof_full. rewrite (ser_variant_class ct (PFull (b_class o) ws) (PFull (b_class o) vs)) by reflexivity.
  enough (X : ser_fields ct (c_attrs (ct (b_class o))) ws = ser_fields ct (c_attrs (ct (b_class o))) vs) by (rewrite X; reflexivity).
  rewrite Pr in Fl. symmetry in Fl. assert (NU' : forall nm cs, ~ In (nm, SerUnion cs) (c_attrs (ct (b_class o)))) by (intros; apply NU).
  clear A B Ho Ho' La Ea Ef' Ef Eo Pr. revert vs ws As Bs Fl NU'; revert Fp. generalize (b_attrs o) as bs. generalize (c_attrs (ct (b_class o))) as attrs. clear o o'.
  intros attrs bs Fp. induction Fp as [|[nm sr] [m x] attrs bs P Fp IHF]; intros vs ws As Bs Fl NU'; inversion As; subst; inversion Bs; subst; [reflexivity|].
  cbn [flags] in Fl. apply orb_false_elim in Fl. destruct Fl as (Fx & Fl). cbn [ser_fields]. rewrite (IHF _ _ ltac:(eassumption) ltac:(eassumption) Fl) by (intros nm' cs X; exact (NU' nm' cs (or_intror X))).
  rename H1 into A1; rename H2 into A2.
  enough (X : ser_val ct sr v0 = ser_val ct sr v) by (rewrite X; reflexivity).
  destruct P as (_ & _ & P). cbn [snd] in P. destruct x as [lv|c].
  - inversion A1; subst. inversion A2; subst. reflexivity.
  - destruct sr; try (apply ser_leaf_proof; [exact Logic.I|destruct (abs_class ct made _ _ _ S' A2) as (q & _ & X); unfold is_proof; rewrite X; reflexivity|destruct (abs_class ct made _ _ _ S A1) as (q & _ & X); unfold is_proof; rewrite X; reflexivity]).
    + destruct (abs_class ct made _ _ _ S A1) as (q & Hq & _). cbn in Fx. rewrite Hq in Fx. apply alike_val. eapply (IH c q); [lia|exact Hq|exact Fx|exact A1|exact A2].
    + exfalso. exact (NU' nm cs (or_introl eq_refl)).
Qed.

Lemma unpruned_kept s e us s' e' p i : no_unions ct -> reach ct made s e -> outcome ct s e (CIsPruned i) = UBool false -> Forall (instantiates ct made) p -> run_all ct s e p = (us, s', e') ->
  outcome ct s' e' (CSer i) = outcome ct s e (CSer i).
Proof.
  intros NU R P I E. destruct (reach_sound s e R) as (S & ve & H). destruct (run_ok ct made PT p _ _ _ _ _ _ S H I E) as ((S' & F) & (x & -> & _) & H' & _).
  pose proof (hands_handle _ _ _ i H) as Hv. destruct (handle e i) as [r|y] eqn:Hr; [|unfold outcome, exec in P; cbn [command] in P; rewrite mbind_lift, Hr in P; discriminate P].
  destruct Hv as (v & _ & C). destruct (outcome_shown s e i r S Hr (ex_intro _ v C)) as (p0 & f & b & (o & a & Ho & A & Ex) & E1 & _ & E3). rewrite P in E1. inversion E1; subst p0. inversion Ex; subst. rename H1 into Pr.
  assert (L : i < List.length e) by (unfold handle in Hr; destruct (nth_error e i) eqn:X; [eapply nth_error_lt, X|discriminate]).
  pose proof (content_grow _ _ _ _ (proj1 F) C) as C'. destruct (outcome_shown s' (e ++ x) i r S') as (p' & f' & b' & (o' & a' & Ho' & A' & Ex') & _ & _ & E3'); [rewrite handle_app; assumption|eauto|]. inversion Ex'; subst.
  rewrite E3, E3'. f_equal. eapply (solid_same s s' NU S S' F (Datatypes.S r) r o); eauto.
Qed.

(** ** Views used by others *)

Lemma spared_abs P h h' : closed P h -> grows h h' -> spares P h h' ->
  (forall x a, abs ct h x a -> match x with HRef r => P r = true | _ => True end -> abs ct h' x a) /\
  (forall xs vs, abss ct h xs vs -> (forall r, In (HRef r) xs -> P r = true) -> abss ct h' xs vs) /\
  (forall bs attrs st, slots ct h bs attrs st -> (forall n r, In (n, HRef r) bs -> P r = true) -> slots ct h' bs attrs st).
Proof.
  intros Cl G Sp. apply abs_both.
  - intros v L _. constructor. exact L.
  - intros r o d E1 E2 E3 E4 Pr. destruct (G r o E1) as (o' & E' & L). rewrite <- (la_class _ _ L).
    eapply Ab_hash; [exact E'|rewrite (la_orig _ _ L); exact E2|destruct (la_full _ _ L E2); congruence|apply (la_dhash _ _ L), E4].
  - intros r o fs E1 E2 E3 _ IH Pr. destruct (G r o E1) as (o' & E' & L). rewrite <- (la_class _ _ L). destruct (la_full _ _ L E2) as (X & Y).
    eapply Ab_full; [exact E'|rewrite (la_orig _ _ L); exact E2|congruence|rewrite X; apply IH]. intros q Hq. apply in_map_iff in Hq. destruct Hq as ([n y] & Ey & Hy). cbn in Ey. subst y. destruct (proj1 (Cl r o E1) n q Hy) as (_ & ->). exact Pr.
  - intros r o p v st E1 E2 C A IH Pr. destruct (G r o E1) as (o' & E' & L). destruct (Sp r o Pr E1) as (o2 & E2' & Er). rewrite E' in E2'. inversion E2'; subst o2. pose proof (f_equal b_class Er) as H1. pose proof (f_equal b_attrs Er) as H3. pose proof (f_equal b_orig Er) as H2. cbn in H1, H2, H3. rewrite <- H1.
    eapply Ab_view; [exact E'|rewrite H2; exact E2|eapply content_grow; eassumption|]. rewrite H3, H1. apply IH. intros n q Hq. destruct (proj1 (Cl r o E1) n q Hq) as (_ & ->). exact Pr.
  - constructor.
  - intros x v xs vs A IA As IAs Px. constructor; [apply IA; destruct x; [exact Logic.I|apply Px; left; reflexivity]|apply IAs; intros r Hr; apply Px; right; exact Hr].
  - constructor.
  - intros bs n sr attrs x a st E A IA Sl IS Px. econstructor; [exact E|apply IA|apply IS, Px]. destruct x as [|r]; [exact Logic.I|]. eapply Px, assoc_in, E.
  - intros bs n sr attrs st E Sl IS Px. constructor; [exact E|apply IS, Px].
Qed.

Lemma spared_shown P s s' r x : closed P (s_heap s) -> follows s s' -> spares P (s_heap s) (s_heap s') -> P r = true -> shown s r x -> shown s' r x.
Proof.
  intros Cl F Sp Pr (o & a & Ho & A & ->). destruct (Sp r o Pr Ho) as (o' & Ho' & E). exists o', a. split; [exact Ho'|]. split; [exact (proj1 (spared_abs P _ _ Cl (proj1 F) Sp) _ _ A Pr)|]. inversion E. reflexivity.
Qed.

(** Two users. *)
Record apart (s : state) (ea eb : env) : Prop := {
  ap_sound : sound s;
  ap_a : exists ve, hands (s_heap s) ea ve;
  ap_b : exists ve, hands (s_heap s) eb ve;
  ap_colour : exists P, closed P (s_heap s) /\ owns true P (s_heap s) ea /\ owns false P (s_heap s) eb }.

Lemma apart_a s ea eb c u s' ea' : apart s ea eb -> instantiates ct made c -> exec ct s ea c = (u, s', ea') -> apart s' ea' eb.
Proof.
  intros [S (va & Ha) (vb & Hb) (P & C & Oa & Ob)] Ic E. destruct (exec_ok ct made PT _ _ _ _ _ _ _ S Ha Ic E) as ((S' & F) & _ & Ha' & _).
  destruct (exec_proper ct true P s ea c u s' ea' C Oa E) as (P' & C' & K & _ & Oa'). constructor; [exact S'|eauto|exists vb; eapply hands_grow; [exact (proj1 F)|exact Hb]|].
  exists P'. split; [exact C'|]. split; [exact Oa'|]. eapply owns_lasting; eassumption.
Qed.
Lemma apart_b s ea eb c u s' eb' : apart s ea eb -> instantiates ct made c -> exec ct s eb c = (u, s', eb') -> apart s' ea eb'.
Proof.
  intros [S (va & Ha) (vb & Hb) (P & C & Oa & Ob)] Ic E. destruct (exec_ok ct made PT _ _ _ _ _ _ _ S Hb Ic E) as ((S' & F) & _ & Hb' & _).
  destruct (exec_proper ct false P s eb c u s' eb' C Ob E) as (P' & C' & K & _ & Ob'). constructor; [exact S'|exists va; eapply hands_grow; [exact (proj1 F)|exact Ha]|eauto|].
  exists P'. split; [exact C'|]. split; [|exact Ob']. eapply owns_lasting; eassumption.
Qed.

Lemma apart_turns p : forall s ea eb s' ea' eb', apart s ea eb -> Forall (instantiates ct made) (map snd p) -> turns ct s ea eb p = (s', ea', eb') -> apart s' ea' eb'.
Proof.
  induction p as [|[w c] p IH]; intros s ea eb s' ea' eb' A I E; cbn [turns] in E; [inversion E; subst; exact A|]. cbn in I. inversion I as [|? ? Ic Ip]; subst. destruct w.
  - destruct (exec ct s ea c) as [[u s1] e1] eqn:Ec. eapply IH; [eapply apart_a; eassumption|exact Ip|exact E].
  - destruct (exec ct s eb c) as [[u s1] e1] eqn:Ec. eapply IH; [eapply apart_b; eassumption|exact Ip|exact E].
Qed.

(** A fresh view belongs to nobody else. *)
Lemma apart_view s e i c s1 k : reach ct made s e -> exec ct s e (CPrune i) = (UProof c, s1, e ++ [Some k]) -> apart s1 [Some k] e.
Proof.
  intros R E. destruct (reach_sound s e R) as (S & ve & H). destruct (exec_ok ct made PT s e ve (CPrune i) _ _ _ S H Logic.I E) as ((S1 & F) & _ & H1 & _).
  assert (N : nth_error (e ++ [Some k]) (List.length e) = Some (Some k)) by (rewrite nth_error_snoc, Nat.eqb_refl; reflexivity).
  destruct (hands_nth _ _ _ _ _ H1 N) as (v & _ & C). pose proof (hands_grow _ _ _ _ (proj1 F) H) as He.
  assert (X : k = List.length (s_heap s) /\ exists o, s_heap s1 = s_heap s ++ [o] /\ b_attrs o = [] /\ exists p, b_orig o = Some p /\ p < List.length (s_heap s)).
  { unfold exec in E. cbn [command] in E. rewrite mbind_lift in E. pose proof (hands_handle _ _ _ i H) as Hv. destruct (handle e i) as [r|x]; [|discriminate E]. destruct Hv as (v' & _ & C').
    destruct (content_object ct made _ _ _ S C') as (o & Ho & _). unfold give_ref in E. rewrite mbind_eq, (hprune_eq _ _ _ Ho) in E. cbn [give] in E. unfold mbind, fetch, ret in E. cbn [s_heap] in E.
    rewrite nth_error_snoc, Nat.eqb_refl in E. inversion E as [[E1 E2 E3]]. apply app_inj_tail in E3. destruct E3 as (_ & E3). inversion E3. split; [reflexivity|]. eexists. cbn. split; [reflexivity|]. split; [reflexivity|]. exists r. split; [reflexivity|]. eapply nth_error_lt, Ho. }
  destruct X as (Ek & o & Eh & Ea & p & Ep & Lp). constructor; [exact S1|exists [Some v]; constructor; [exact C|constructor]|eauto|].
  exists (fun r => r =? k). assert (Lk : List.length (s_heap s1) = Datatypes.S k) by (rewrite Eh, app_length, Ek; cbn; lia). split; [|split].
  - intros r q Hq. rewrite Lk. rewrite Eh, nth_error_snoc, <- Ek in Hq. destruct (Nat.eqb_spec r k) as [->|Nr].
    + inversion Hq; subst q. rewrite Ea, Ep. split; [contradiction|]. intros p' Ep'. inversion Ep'; subst. split; [lia|discriminate].
    + pose proof (nth_error_lt _ _ _ Hq) as Lr. destruct (sound_refs s r q S Hq) as (A & B). split; [intros n x Hx; pose proof (A n x Hx); split; lia|]. intros p' Ep'. pose proof (B p' Ep'). split; [lia|]. intros _. lia.
  - intros [|[|j]] r Hr; inversion Hr; subst. split; [lia|]. apply Nat.eqb_refl.
  - intros j r Hr. destruct (hands_nth _ _ _ _ _ H Hr) as (w & _ & Cw). destruct (content_object ct made _ _ _ S Cw) as (q & Hq & _). pose proof (nth_error_lt _ _ _ Hq). split; lia.
Qed.

Lemma apart_run p : forall s ea eb us s' eb', apart s ea eb -> Forall (instantiates ct made) p -> run_all ct s eb p = (us, s', eb') ->
  apart s' ea eb' /\ follows s s' /\ forall i r x, nth_error ea i = Some (Some r) -> shown s r x -> shown s' r x.
Proof.
  induction p as [|c p IH]; intros s ea eb us s' eb' A I E; cbn [run_all] in E; [inversion E; subst; split; [exact A|]; split; [apply follows_refl|auto]|].
  destruct (exec ct s eb c) as [[u s1] e1] eqn:Ec. destruct (run_all ct s1 e1 p) as [[us2 s2] e2] eqn:Er. inversion E; subst. inversion I as [|? ? Ic Ip]; subst.
  pose proof (apart_b _ _ _ _ _ _ _ A Ic Ec) as A1. destruct (IH _ _ _ _ _ _ A1 Ip Er) as (A2 & F2 & X2). destruct A as [S (va & Ha) (vb & Hb) (P & C & Oa & Ob)].
  destruct (exec_ok ct made PT _ _ _ _ _ _ _ S Hb Ic Ec) as ((S1 & F1) & _). destruct (exec_proper ct false P s eb c u s1 e1 C Ob Ec) as (P' & C' & K & Sp & _).
  split; [exact A2|]. split; [eapply follows_trans; eassumption|]. intros i r x Hr X. apply (X2 i r x Hr). eapply spared_shown; [exact C|exact F1|apply Sp; reflexivity|apply (Oa i r Hr)|exact X].
Qed.

Lemma isolated s e i c s1 k sched s2 ea eb p us s3 eb' d :
  reach ct made s e -> exec ct s e (CPrune i) = (UProof c, s1, e ++ [Some k]) ->
  Forall (instantiates ct made) (map snd sched) -> turns ct s1 [Some k] e sched = (s2, ea, eb) ->
  Forall (instantiates ct made) p -> run_all ct s2 eb p = (us, s3, eb') -> instantiates ct made d ->
  (pure d -> same_out d (outcome ct s3 ea d) (outcome ct s2 ea d)) /\ (~ pure d -> outcome ct s3 ea d = outcome ct s2 ea d).
Proof.
  intros R E I1 T I2 Er Id. pose proof (apart_turns _ _ _ _ _ _ _ (apart_view _ _ _ _ _ _ R E) I1 T) as A. destruct (apart_run p _ _ _ _ _ _ A I2 Er) as (A3 & F & X).
  destruct A as [S (va & Ha) _ _]. destruct A3 as [S3 _ _ _]. pose proof (hands_grow _ _ _ _ (proj1 F) Ha) as Ha3. split.
  - intros Pd. unfold outcome. destruct (exec ct s2 ea d) as [[u t] f] eqn:E2. destruct (exec ct s3 ea d) as [[u' t'] f'] eqn:E3. cbn [fst].
    destruct (exec_ok ct made PT _ _ _ _ _ _ _ S Ha Id E2) as (_ & _ & _ & O). destruct (exec_ok ct made PT _ _ _ _ _ _ _ S3 Ha3 Id E3) as (_ & _ & _ & O'). specialize (O Pd). specialize (O' Pd).
    exact (same_out_trans _ _ _ _ O' (same_out_sym _ _ _ O)).
  - intros Nd. assert (J : exists j, d = CIsPruned j \/ d = CIsFully j \/ d = CSer j) by (destruct d; cbn in Nd; try tauto; eauto). destruct J as (j & J).
    pose proof (hands_handle _ _ _ j Ha) as Hv. destruct (handle ea j) as [r|y] eqn:Hr; [|unfold outcome, exec; destruct J as [->|[->| ->]]; cbn [command]; rewrite !mbind_lift, Hr; reflexivity].
    destruct Hv as (v & _ & C). destruct (outcome_shown s2 ea j r S Hr (ex_intro _ v C)) as (p0 & f & b & Y & _). pose proof (content_grow _ _ _ _ (proj1 F) C) as C3.
    apply (shown_same s2 s3 ea ea j r (p0, f, b) S S3 Hr Hr); eauto. apply (X j r _); [|exact Y]. unfold handle in Hr. destruct (nth_error ea j) as [[q|]|]; try discriminate. inversion Hr; reflexivity.
Qed.

End Main.
