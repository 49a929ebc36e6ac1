(** Proofs about Heap_Model.v, part 9: what users of proofs can rely on. *)
From Verif Require Import Base Serialize_Model Proof_Model Proof_Spec Cache_Model Construct_Proofs Proof_Proofs ProofView_Proofs
  Heap_Model Heap_Spec Heap_Inv Heap_Step Heap_Make Heap_Ser Heap_Run Heap_Frame Heap_Main.
From Coq Require Import ZifyBool ZifyNat ZifyN.

(** ** Proofs without views in them *)

Inductive rigid (h : list obj) : hval -> Prop :=
| Ri_leaf v : rigid h (HLeaf v)
| Ri_ref r o : nth_error h r = Some o -> b_orig o = None -> (forall n x, In (n, x) (b_attrs o) -> rigid h x) -> rigid h (HRef r).

Lemma rigid_grow h h' x : grows h h' -> rigid h x -> rigid h' x.
Proof.
  intros G. induction 1 as [v|r o Ho Eo A IH]; [constructor|]. destruct (G r o Ho) as (o' & Ho' & L). econstructor; [exact Ho'|rewrite (la_orig _ _ L); exact Eo|].
  destruct (la_full _ _ L Eo) as (-> & _). exact IH.
Qed.

Lemma rigid_abs ct h h' x : grows h h' -> rigid h x -> forall a, abs ct h x a -> abs ct h' x a.
Proof.
  intros G. induction 1 as [v|r o Ho Eo A IH]; intros a Ha; [inversion Ha; subst; constructor; assumption|].
  destruct (G r o Ho) as (o' & Ho' & L). destruct (la_full _ _ L Eo) as (Ea & Ef). pose proof (la_orig _ _ L) as Eo'. rewrite Eo in Eo'.
  destruct (abs_inv _ _ _ _ _ Ha Ho) as [(d & _ & Fu & Ed & ->)|[(vs & _ & Fu & As & ->)|(p & v & st & X & _)]]; [| |congruence]; rewrite <- (la_class _ _ L).
  - apply Ab_hash; [exact Ho'|exact Eo'|congruence|exact (la_dhash _ _ L d Ed)].
  - apply Ab_full; [exact Ho'|exact Eo'|congruence|]. rewrite Ea. assert (IH' : forall x, In x (map snd (b_attrs o)) -> forall a, abs ct h x a -> abs ct h' x a).
    { intros x Hx. apply in_map_iff in Hx. destruct Hx as ([n y] & <- & Hy). exact (IH n y Hy). }
    clear -As IH'. induction As as [|x v xs vs Hx Hs IHs]; constructor; [apply IH'; [left; reflexivity|exact Hx]|apply IHs; intros y Hy; apply IH'; right; exact Hy].
Qed.

Section Use.
Context (ct : ctable) (made : cid -> Prop) (PT : program_table ct made).
Notation sound := (Heap_Inv.sound ct made).

Lemma flag_same sr x s r s' : flag_of sr x s = (r, s') -> s' = s.
Proof.
  unfold flag_of. destruct sr; try (intros E; inversion E; reflexivity). destruct x; [intros E; inversion E; reflexivity|]. unfold mbind, fetch. destruct (nth_error (s_heap s) r0); intros E; inversion E; reflexivity.
Qed.
Lemma new_loop_same kw attrs : forall s r s', new_loop ct attrs kw s = (r, s') -> s' = s /\ forall bs p, r = Ok (bs, p) -> forall n x, In (n, x) bs -> assoc n kw = Some x.
Proof.
  induction attrs as [|[name sr] attrs IH]; intros s r s' E; [cbn in E; inversion E; subst; split; [reflexivity|]; intros bs p X; inversion X; subst; contradiction|].
  rewrite new_loop_step in E. destruct (assoc name kw) as [y|] eqn:Ey; [|inversion E; split; [reflexivity|discriminate]]. destruct (check ct sr (shadow (s_heap s) y)); [|inversion E; split; [reflexivity|discriminate]].
  destruct (flag_of sr y s) as [[b|e] s1] eqn:Ef; pose proof (flag_same _ _ _ _ _ Ef); subst s1; [|inversion E; split; [reflexivity|discriminate]].
  destruct (new_loop ct attrs kw s) as [[[bs' p']|e] s2] eqn:El; destruct (IH _ _ _ El) as (-> & X); inversion E; subst; (split; [reflexivity|]); [|discriminate].
  intros bs p Y n x Hx. inversion Y; subst. destruct Hx as [Z|Hx]; [inversion Z; subst; exact Ey|exact (X _ _ eq_refl n x Hx)].
Qed.

Lemma hnew_rigid c kw s res s' : hnew ct c kw s = (res, s') -> (forall n x, assoc n kw = Some x -> rigid (s_heap s) x) -> grows (s_heap s) (s_heap s') /\ forall r, res = Ok r -> rigid (s_heap s') (HRef r).
Proof.
  intros E K. unfold hnew in E. rewrite mbind_eq in E. destruct (attrs_for ct (s_cache s) c) as [a ca]. rewrite mbind_eq in E. destruct (new_loop ct a kw (St (s_heap s) ca)) as [[[bs p]|e] s1] eqn:El; destruct (new_loop_same _ _ _ _ _ El) as (-> & X).
  - unfold alloc in E. inversion E; subst. cbn [s_heap fst snd]. split; [apply grows_snoc|]. intros r Y. inversion Y; subst.
    econstructor; [rewrite nth_error_snoc, Nat.eqb_refl; reflexivity|reflexivity|]. cbn [b_attrs]. intros n x Hx. eapply rigid_grow; [apply grows_snoc|]. apply (K n). exact (X _ _ eq_refl n x Hx).
  - inversion E; subst. cbn [s_heap]. split; [apply grows_refl|discriminate].
Qed.

Lemma de_loop_rigid D : (forall c buf s res s', D c buf s = (res, s') -> grows (s_heap s) (s_heap s') /\ forall r rest, res = Ok (r, rest) -> rigid (s_heap s') (HRef r)) ->
  forall attrs buf s res s', de_loop D attrs buf s = (res, s') -> grows (s_heap s) (s_heap s') /\ forall kw rest, res = Ok (kw, rest) -> forall n x, assoc n kw = Some x -> rigid (s_heap s') x.
Proof.
  intros HD. induction attrs as [|[name sr] attrs IH]; intros buf s res s' E; cbn [de_loop] in E; [inversion E; subst; split; [apply grows_refl|]; intros kw rest X; inversion X; subst; discriminate|].
  rewrite mbind_eq in E. match type of E with (match ?m with _ => _ end) = _ => destruct m as [r1 s1] eqn:E1 end.
  assert (X : grows (s_heap s) (s_heap s1) /\ forall y rest, r1 = Ok (y, rest) -> rigid (s_heap s1) y).
  { assert (Leaf : forall sr, mbind (lift (de_leaf sr buf)) (fun q => ret (HLeaf (fst q), snd q)) s = (r1, s1) -> grows (s_heap s) (s_heap s1) /\ forall y rest, r1 = Ok (y, rest) -> rigid (s_heap s1) y).
    { intros sr0 El. rewrite mbind_lift in El. destruct (de_leaf sr0 buf); inversion El; subst; (split; [apply grows_refl|]); intros y rest Y; inversion Y; constructor. }
    assert (Sub : forall c b, mbind (D c b) (fun q => ret (HRef (fst q), snd q)) s = (r1, s1) -> grows (s_heap s) (s_heap s1) /\ forall y rest, r1 = Ok (y, rest) -> rigid (s_heap s1) y).
    { intros c b Es. rewrite mbind_eq in Es. destruct (D c b s) as [[[r rest]|e] s2] eqn:Ed; destruct (HD _ _ _ _ _ Ed) as (G & R); inversion Es; subst; (split; [exact G|]); intros y rest0 Y; inversion Y; subst. exact (R _ _ eq_refl). }
    destruct sr; try (eapply Leaf; exact E1); [eapply Sub; exact E1|]. rewrite mbind_lift in E1. destruct (read_varuint buf) as [i|e]; [|inversion E1; subst; split; [apply grows_refl|discriminate]].
    match type of E1 with (match ?m with _ => _ end) _ = _ => destruct m end; [eapply Sub; exact E1|inversion E1; subst; split; [apply grows_refl|discriminate]]. }
  destruct X as (G1 & R1). destruct r1 as [[y rest]|e]; [|inversion E; subst; split; [exact G1|discriminate]]. rewrite mbind_eq in E. cbn [fst snd] in E.
  destruct (de_loop D attrs rest s1) as [[[kw2 rest2]|e] s2] eqn:E2; destruct (IH _ _ _ _ E2) as (G2 & R2); inversion E; subst; (split; [eapply grows_trans; eassumption|]); [|discriminate].
  intros kw rest0 Y n x. inversion Y; subst. cbn [assoc fst]. destruct (String.eqb name n); [intros Z; inversion Z; subst; eapply rigid_grow; [exact G2|exact (R1 _ _ eq_refl)]|exact (R2 _ _ eq_refl n x)].
Qed.

Lemma hde_rigid fuel : forall c buf s res s', hde ct fuel c buf s = (res, s') -> grows (s_heap s) (s_heap s') /\ forall r rest, res = Ok (r, rest) -> rigid (s_heap s') (HRef r).
Proof.
  induction fuel as [|fuel IH]; intros c buf s res s' E; [inversion E; subst; split; [apply grows_refl|discriminate]|]. cbn [hde] in E. rewrite mbind_lift in E.
  destruct (read_bool buf) as [[b rest]|e]; [|inversion E; subst; split; [apply grows_refl|discriminate]]. cbn [fst snd] in E. destruct b.
  - rewrite mbind_lift in E. destruct (fd_read 32 rest) as [[d rest']|e]; [|inversion E; subst; split; [apply grows_refl|discriminate]]. unfold mbind, alloc in E. inversion E; subst. cbn [s_heap]. split; [apply grows_snoc|].
    intros r rest0 Y. inversion Y; subst. econstructor; [rewrite nth_error_snoc, Nat.eqb_refl; reflexivity|reflexivity|contradiction].
  - rewrite mbind_eq in E. match type of E with (match ?m with _ => _ end) = _ => destruct m as [r1 s1] eqn:E1 end.
    assert (s1 = s). { destruct (c_kind (ct c)); [inversion E1; reflexivity|]. rewrite mbind_lift in E1. destruct (read_varuint rest); [|inversion E1; reflexivity]. match type of E1 with (match ?m with _ => _ end) _ = _ => destruct m end; inversion E1; reflexivity. }
    subst s1. destruct r1 as [[u b]|e]; [|inversion E; subst; split; [apply grows_refl|discriminate]]. cbn [fst snd] in E. rewrite mbind_eq in E. destruct (de_loop (hde ct fuel) (c_attrs (ct u)) b s) as [[[kw rest2]|e] s2] eqn:E2;
      destruct (de_loop_rigid _ IH _ _ _ _ _ E2) as (G2 & R2); [|inversion E; subst; split; [exact G2|discriminate]]. cbn [fst snd] in E. rewrite mbind_eq in E.
    destruct (hnew ct u kw s2) as [[r|e] s3] eqn:E3; destruct (hnew_rigid _ _ _ _ _ E3 (R2 _ _ eq_refl)) as (G3 & R3); inversion E; subst; (split; [eapply grows_trans; eassumption|]); [|discriminate].
    intros r0 rest0 Y. inversion Y; subst. exact (R3 _ eq_refl).
Qed.

(** Reading an attribute of such a proof gives what it has. *)
Lemma rigid_get s r name x s' : rigid (s_heap s) (HRef r) -> getattr ct r name s = (Ok x, s') -> s' = s /\ rigid (s_heap s) x.
Proof.
  intros R E. inversion R as [|? o Ho Eo A]; subst. unfold getattr in E. cbn [hget] in E. rewrite mbind_eq in E. unfold fetch in E. rewrite Ho in E.
  destruct (assoc name (b_attrs o)) as [y|] eqn:Ey; [inversion E; subst; split; [reflexivity|exact (A _ _ (assoc_in _ _ _ Ey))]|]. rewrite Eo in E. destruct (cached (s_cache s) (c_supers (ct (b_class o)))); inversion E.
Qed.

Lemma arguments_rigid h e kw a : (forall name j r, In (name, AUse j) kw -> nth_error e j = Some (Some r) -> rigid h (HRef r)) -> arguments e kw = Ok a -> forall n x, assoc n a = Some x -> rigid h x.
Proof.
  revert a. induction kw as [|[m y] kw IH]; intros a K E n x Hx; cbn [arguments] in E; [inversion E; subst; discriminate|].
  destruct (argument e y) as [z|] eqn:Ez; [|discriminate]. cbn [bind] in E. destruct (arguments e kw) as [b|] eqn:Eb; [|discriminate]. inversion E; subst. cbn [assoc fst] in Hx. destruct (String.eqb m n).
  - inversion Hx; subst. destruct y as [v|j]; cbn [argument] in Ez; [destruct (is_proof v); inversion Ez; constructor|]. unfold handle in Ez. destruct (nth_error e j) as [[r|]|] eqn:Ej; try discriminate. inversion Ez; subst. eapply K; [left; reflexivity|exact Ej].
  - eapply IH; [intros name j r Hj; apply (K name j r); right; exact Hj|reflexivity|exact Hx].
Qed.

Definition whole (p : list cmd) (s : state) (e : env) : Prop := forall i r, made_whole p i -> nth_error e i = Some (Some r) -> rigid (s_heap s) (HRef r).

Lemma nth_error_here {A} (l : list A) x m : nth_error (l ++ x :: m) (List.length l) = Some x.
Proof. induction l; cbn; auto. Qed.

Lemma whole_run q : forall pre s e ve us s' e', sound s -> hands (s_heap s) e ve -> Forall (instantiates ct made) q -> List.length e = List.length pre -> whole (pre ++ q) s e -> run_all ct s e q = (us, s', e') -> whole (pre ++ q) s' e'.
Proof.
  induction q as [|c q IH]; intros pre s e ve us s' e' S H I Le Wh E; cbn [run_all] in E; [inversion E; subst; exact Wh|].
  destruct (exec ct s e c) as [[u s1] e1] eqn:Ec. destruct (run_all ct s1 e1 q) as [[us2 s2] e2] eqn:Er. inversion E; subst. inversion I as [|? ? Ic Ip]; subst.
  destruct (exec_ok ct made PT _ _ _ _ _ _ _ S H Ic Ec) as ((S1 & F1) & (x & ->) & H1 & _).
  replace (pre ++ c :: q) with ((pre ++ [c]) ++ q) in * by (rewrite <- app_assoc; reflexivity). eapply (IH (pre ++ [c])); [exact S1|exact H1|exact Ip|rewrite !app_length, Le; reflexivity| |exact Er].
  intros i r M Hi. destruct (Nat.lt_ge_cases i (List.length e)) as [L|L]; [rewrite nth_error_app1 in Hi by exact L; eapply rigid_grow; [exact (proj1 F1)|exact (Wh i r M Hi)]|].
  assert (i = List.length e). { pose proof (nth_error_lt _ _ _ Hi) as X. rewrite app_length in X. cbn in X. lia. } subst i. rewrite nth_error_snoc, Nat.eqb_refl in Hi. inversion Hi; subst x. clear Hi.
  assert (Hc : nth_error ((pre ++ [c]) ++ q) (List.length e) = Some c) by (rewrite <- app_assoc, Le; apply nth_error_here).
  unfold exec in Ec. destruct (command ct e c s) as [[[w h]|y] t] eqn:Ecm; inversion Ec as [[X1 X2 X3]]; apply app_inv_head in X3; inversion X3; subst; clear Ec X3.
  inversion M as [? c0 buf X|? c0 kw X K|? j name X K]; subst; rewrite Hc in X; inversion X; subst; cbn [command] in Ecm.
  - unfold give_ref, load in Ecm. rewrite mbind_eq, mbind_eq in Ecm. destruct (hde ct (Datatypes.S (List.length buf)) c0 buf s) as [[[r0 rest]|y] s3] eqn:Eh; [|discriminate]. destruct (hde_rigid _ _ _ _ _ _ Eh) as (_ & R). cbn [ret fst] in Ecm.
    cbn [give] in Ecm. unfold mbind, fetch in Ecm. destruct (nth_error (s_heap s3) r0); inversion Ecm; subst. exact (R _ _ eq_refl).
  - rewrite mbind_lift in Ecm. destruct (arguments e kw) as [a|] eqn:Ea; [|discriminate]. unfold give_ref in Ecm. rewrite mbind_eq in Ecm. destruct (hnew ct c0 a s) as [[r0|y] s3] eqn:En; [|discriminate].
    destruct (hnew_rigid _ _ _ _ _ En) as (_ & R). { eapply arguments_rigid; [|exact Ea]. intros name j r1 Hj Hr. exact (Wh j r1 (K name j Hj) Hr). }
    cbn [give] in Ecm. unfold mbind, fetch in Ecm. destruct (nth_error (s_heap s3) r0); inversion Ecm; subst. exact (R _ eq_refl).
  - rewrite mbind_lift in Ecm. unfold handle in Ecm. destruct (nth_error e j) as [[rj|]|] eqn:Ej; try discriminate. rewrite mbind_eq in Ecm. destruct (getattr ct rj name s) as [[x|y] s3] eqn:Eg; [|discriminate].
    destruct (rigid_get _ _ _ _ _ (Wh j rj K Ej) Eg) as (-> & R). destruct x as [v|r0]; cbn [give] in Ecm; [inversion Ecm|]. unfold mbind, fetch in Ecm. destruct (nth_error (s_heap s) r0); inversion Ecm; subst. exact R.
Qed.

Lemma whole_kept p us s e i q us' s' e' d : Forall (instantiates ct made) p -> run_all ct start [] p = (us, s, e) -> made_whole p i -> Forall (instantiates ct made) q -> run_all ct s e q = (us', s', e') ->
  d = CIsPruned i \/ d = CIsFully i \/ d = CSer i -> outcome ct s' e' d = outcome ct s e d.
Proof.
  intros Ip Ep M Iq Eq Hd. destruct (run_ok ct made PT p start [] [] us s e (start_sound ct made) (Forall2_nil _) Ip Ep) as ((S & _) & (x0 & E0 & L0) & H & _).
  destruct (run_ok ct made PT q _ _ _ _ _ _ S H Iq Eq) as ((S' & F) & (x & -> & _) & H' & _).
  assert (Wh : whole p s e) by (eapply (whole_run p [] start [] []); [apply start_sound|constructor|exact Ip|reflexivity| |exact Ep]; intros j r _ Hj; destruct j; discriminate Hj).
  pose proof (hands_handle _ _ _ i H) as Hv. destruct (handle e i) as [r|y] eqn:Hr.
  - destruct Hv as (v & _ & C). assert (Hn : nth_error e i = Some (Some r)) by (unfold handle in Hr; destruct (nth_error e i) as [[r'|]|]; inversion Hr; reflexivity).
    pose proof (Wh i r M Hn) as R. destruct (content_object ct made _ _ _ S C) as (o & Ho & _). destruct (abs_ex ct made s S v _ C) as (a & A). destruct (proj1 F _ _ Ho) as (o' & Ho' & L).
    assert (Eo : b_orig o = None) by (inversion R as [|? o2 Ho2 Eo2 _]; subst; congruence). destruct (la_full _ _ L Eo) as (_ & Ef).
    apply (shown_same ct made PT s s' e (e ++ x) i r (b_pruned o, b_fully o, ser_proof ct a) S S'); [exact Hr|rewrite handle_app; [exact Hr|eapply nth_error_lt, Hn]|eauto| | | |exact Hd].
    + exists v. eapply content_grow; [exact (proj1 F)|exact C].
    + exists o, a. auto.
    + exists o', a. split; [exact Ho'|]. split; [eapply rigid_abs; [exact (proj1 F)|exact R|exact A]|]. rewrite (la_pruned _ _ L), Ef. reflexivity.
  - assert (Li : i < List.length e). { subst e. cbn [app]. rewrite L0. inversion M; subst; eapply nth_error_lt; eassumption. }
    assert (Hr' : handle (e ++ x) i = Err y) by (rewrite handle_app; assumption). unfold outcome, exec. destruct Hd as [->|[->| ->]]; cbn [command]; rewrite !mbind_lift, Hr, Hr'; reflexivity.
Qed.

(** ** Looking again, and looking at a copy *)

Lemma looks_again s e c u s1 e1 p us s2 e2 u' s3 e3 : reach ct made s e -> looks c -> known (List.length e) c -> exec ct s e c = (u, s1, e1) ->
  (match c with CGet _ _ => u <> UErr TypeError | _ => True end) ->
  Forall (instantiates ct made) p -> run_all ct s1 e1 p = (us, s2, e2) -> exec ct s2 e2 c = (u', s3, e3) ->
  u' = u /\ nth_error e3 (List.length e2) = nth_error e1 (List.length e).
Proof.
  intros R Lk Kn E NT I Er E2. destruct (reach_sound ct made PT s e R) as (S & ve & H). assert (Ic : instantiates ct made c) by (destruct c; try contradiction; exact Logic.I).
  destruct (exec_ok ct made PT _ _ _ _ _ _ _ S H Ic E) as ((S1 & F1) & (x & ->) & H1 & _). destruct (run_ok ct made PT p _ _ _ _ _ _ S1 H1 I Er) as ((S2 & F2) & (y & -> & _) & _ & _).
  rewrite <- app_assoc in *. rewrite (app_length e).
  assert (Rg : forall i r, nth_error e i = Some (Some r) -> r < List.length (s_heap s)).
  { intros i r Hi. destruct (hands_nth _ _ _ _ _ H Hi) as (v & _ & C). destruct (content_object ct made _ _ _ S C) as (o & Ho & _). eapply nth_error_lt, Ho. }
  eapply (again ct made PT s e c u s1 _ S Rg Lk Kn E); [|exact S2|exact F2|exact E2]. intros Eu. destruct c; auto.
Qed.

Lemma hands_instead h e ve i r v k : hands h e ve -> nth_error e i = Some (Some r) -> content h (HRef r) v -> content h (HRef k) v -> hands h (instead e i (Some k)) ve.
Proof.
  intros H. revert i. induction H as [|x w e ve X H IH]; intros [|i] Hi C Ck; cbn in *; try discriminate.
  - inversion Hi; subst. constructor; [|exact H]. destruct w as [w|]; [|contradiction]. cbn in *. rewrite (content_fun _ _ _ _ X C). exact Ck.
  - constructor; [exact X|]. apply (IH i Hi C Ck).
Qed.

Lemma copy_same s e i c s1 k p us s2 e2 us' s3 e3 : reach ct made s e -> exec ct s e (CPrune i) = (UProof c, s1, e ++ [Some k]) -> Forall (instantiates ct made) p ->
  run_all ct s1 e p = (us, s2, e2) -> run_all ct s1 (instead e i (Some k)) p = (us', s3, e3) -> same_outs p us' us.
Proof.
  intros R E I E2 E3. destruct (reach_sound ct made PT s e R) as (S & ve & H). destruct (exec_ok ct made PT _ _ _ (CPrune i) _ _ _ S H Logic.I E) as ((S1 & F1) & _ & H1 & _).
  pose proof (hands_handle _ _ _ i H) as Hv. destruct (handle e i) as [r|y] eqn:Hr; [|unfold exec in E; cbn [command] in E; rewrite mbind_lift, Hr in E; discriminate E]. destruct Hv as (v & Ev & C).
  assert (Hn : nth_error e i = Some (Some r)) by (unfold handle in Hr; destruct (nth_error e i) as [[r'|]|]; inversion Hr; reflexivity).
  destruct (hands_nth _ _ _ (List.length e) k H1) as (w & Hw & Ck); [rewrite nth_error_snoc, Nat.eqb_refl; reflexivity|].
  assert (w = v) as ->.
  { unfold vexec in Hw. cbn [vcommand] in Hw. rewrite Ev in Hw. cbn [bind] in Hw. unfold vgive in Hw. destruct (content_object ct made _ _ _ S C) as (o & _ & Ec). rewrite Ec in Hw. cbn [snd] in Hw.
    assert (Lv : List.length e = List.length ve) by (clear -H; induction H; cbn; congruence). rewrite Lv, nth_error_snoc, Nat.eqb_refl in Hw. inversion Hw. reflexivity. }
  pose proof (hands_grow _ _ _ _ (proj1 F1) H) as Hg. pose proof (content_grow _ _ _ _ (proj1 F1) C) as Cg.
  destruct (run_ok ct made PT p _ _ _ _ _ _ S1 Hg I E2) as (_ & _ & _ & O2). destruct (run_ok ct made PT p _ _ _ _ _ _ S1 (hands_instead _ _ _ _ _ _ _ Hg Hn Cg Ck) I E3) as (_ & _ & _ & O3).
  eapply same_outs_trans; [exact O3|apply same_outs_sym, O2].
Qed.

(** ** Attributes that were pruned away *)

Lemma class_seen s e ve i c : sound s -> hands (s_heap s) e ve -> outcome ct s e (CPrune i) = UProof c -> exists r o v, handle e i = Ok r /\ content (s_heap s) (HRef r) v /\ nth_error (s_heap s) r = Some o /\ b_class o = c.
Proof.
  intros S H E. pose proof (hands_handle _ _ _ i H) as Hv. unfold outcome, exec in E. cbn [command] in E. rewrite mbind_lift in E. destruct (handle e i) as [r|y]; [|discriminate E]. destruct Hv as (v & _ & C).
  destruct (content_object ct made _ _ _ S C) as (o & Ho & _). exists r, o, v. do 3 (split; [auto|]). unfold give_ref in E. rewrite mbind_eq, (hprune_eq _ _ _ Ho) in E. cbn [give] in E. unfold mbind, fetch, ret in E. cbn [s_heap] in E.
  rewrite nth_error_snoc, Nat.eqb_refl in E. inversion E. reflexivity.
Qed.

(** A proof that is not fully pruned has been constructed. *)
Lemma instance_made s v : sound s -> forall x, content (s_heap s) x v -> match v with PFull c _ => made c /\ cached (s_cache s) (c_supers (ct c)) <> None | _ => True end.
Proof.
  intros S x C. induction C as [w L|r o p v Ho Eo C IH|r o d Ho Eo Ef Ed|r o fs Ho Eo Ef Cs]; try exact IH; try exact Logic.I.
  - destruct w; try exact Logic.I. discriminate L.
  - pose proof (so_formed _ _ _ S r o Ho) as F. unfold Heap_Inv.formed in F. rewrite Eo, Ef in F. tauto.
Qed.

Lemma pruned_error s e i j c name x : reach ct made s e -> outcome ct s e (CPrune i) = UProof c -> outcome ct s e (CPrune j) = UProof c -> outcome ct s e (CIsFully j) = UBool false ->
  outcome ct s e (CGet i name) = UErr x -> (In name (map fst (c_attrs (ct c))) -> x = PrunedError) /\ (~ In name (map fst (c_attrs (ct c))) -> x = AttributeError).
Proof.
  intros R Ei Ej Ef Eg. destruct (reach_sound ct made PT s e R) as (S & ve & H). destruct (class_seen _ _ _ _ _ S H Ei) as (r & o & v & Hr & C & Ho & Ec). destruct (class_seen _ _ _ _ _ S H Ej) as (r2 & o2 & v2 & Hr2 & C2 & Ho2 & Ec2).
  assert (M : made c /\ cached (s_cache s) (c_supers (ct c)) <> None).
  { unfold outcome, exec in Ef. cbn [command] in Ef. rewrite mbind_lift, Hr2, mbind_eq in Ef. unfold fetch in Ef. rewrite Ho2 in Ef. inversion Ef as [Efu]. pose proof (instance_made s v2 S _ C2) as X. destruct (content_object ct made _ _ _ S C2) as (o3 & Ho3 & Ec3). rewrite Ho2 in Ho3. inversion Ho3; subst o3.
    destruct v2 as [| | | |c2 fs|c2 d|]; try discriminate Ec3; [inversion Ec3; subst; rewrite <- Ec2; exact X| |exfalso; exact (content_not_view _ _ _ C2)]. exfalso.
    pose proof (so_formed _ _ _ S r2 o2 Ho2) as F. unfold Heap_Inv.formed in F. destruct (b_orig o2) as [p|] eqn:Eo.
    - destruct F as (_ & _ & Fu & _). rewrite Efu in Fu. destruct (b_attrs o2) as [|[n y] bs] eqn:Eb; [discriminate|]. destruct (content_attr ct made s r2 o2 _ n y S C2 Ho2) as (? & ? & ? & ? & Y & _); [rewrite Eb; cbn; rewrite String.eqb_refl; reflexivity|discriminate Y].
    - inversion C2 as [|? o1 p1 ? F1 F2 F3|? o1 d1 F1 F2 F3 F4|]; subst; congruence. }
  destruct M as (Mc & Cc). destruct (content_object ct made _ _ _ S C) as (o3 & Ho3 & Ec3). rewrite Ho in Ho3. inversion Ho3; subst o3. rewrite Ec in Ec3.
  unfold outcome, exec in Eg. cbn [command] in Eg. rewrite mbind_lift, Hr, mbind_eq in Eg. destruct (getattr ct r name s) as [[y|y] s1] eqn:Ea; unfold getattr in Ea; pose proof (hget_ok ct made PT _ _ _ _ _ _ _ S C (Nat.lt_succ_diag_r r) Ea) as (S1 & F1 & _ & _ & P).
  - exfalso. destruct P as (c' & fs & ix & f & -> & Hi & Hf & Cx & _). destruct (give_ok ct made s1 y f S1 Cx) as (h & Eh & _ & _). rewrite Eh in Eg. cbn in Eg. unfold vgive in Eg. destruct (class_of f); discriminate Eg.
  - cbn in Eg. inversion Eg; subst y. destruct P as (_ & -> & P). clear Eg Ea.
    assert (HI : In name (map fst (c_attrs (ct c))) <-> attr_index (c_attrs (ct c)) name <> None).
    { clear. generalize (c_attrs (ct c)) as l. induction l as [|[n sr] l IH]; cbn; [tauto|]. destruct (String.eqb_spec n name) as [->|N]; [split; auto; discriminate|]. rewrite IH. destruct (attr_index l name); cbn; intuition congruence. }
    destruct v; try discriminate Ec3; cbn [class_of] in Ec3; inversion Ec3; subst; cbn [missing].
    + rewrite HI, P. intuition congruence.
    + destruct (cached (s_cache s) (c_supers (ct (b_class o)))) as [a|] eqn:Eca; [|congruence]. pose proof (cached_own ct made PT _ _ _ S Mc Eca) as ->. rewrite attr_index_existsb, HI. destruct (attr_index (c_attrs (ct (b_class o))) name); intuition congruence.
    + exfalso. exact (content_not_view _ _ _ C).
Qed.
End Use.
