(** Proofs about Heap_Model.v, part 5: commands and programs. *)
From Verif Require Import Base Sha256 Serialize_Model Tx_Model Proof_Model Proof_Spec Cache_Model Construct_Proofs
  Proof_Proofs ProofHash_Proofs ProofView_Proofs Heap_Model Heap_Spec Heap_Inv Heap_Step Heap_Make Heap_Ser.
From Coq Require Import ZifyBool ZifyNat ZifyN.

Section Run.
Context (ct : ctable) (made : cid -> Prop) (PT : program_table ct made).
Notation sound := (Heap_Inv.sound ct made).

(** The values of the handles. *)
Definition hand (h : list obj) (x : option ref) (v : option val) : Prop :=
  match x, v with Some r, Some w => content h (HRef r) w | None, None => True | _, _ => False end.
Definition hands (h : list obj) (e : env) (ve : list (option val)) : Prop := Forall2 (hand h) e ve.

Lemma hands_grow h h' e ve : grows h h' -> hands h e ve -> hands h' e ve.
Proof. intros G H. eapply forall2_weaken; [|exact H]. intros [r|] [v|]; cbn; auto. intros C. eapply content_grow; eassumption. Qed.
Lemma hands_nth h e ve i r : hands h e ve -> nth_error e i = Some (Some r) -> exists v, nth_error ve i = Some (Some v) /\ content h (HRef r) v.
Proof. intros H. revert i. induction H as [|x v e ve X H IH]; intros [|i] E; cbn in *; try discriminate; [|eauto]. inversion E; subst. destruct v as [v|]; [|contradiction]. eauto. Qed.
Lemma hands_handle h e ve i : hands h e ve -> match handle e i with Ok r => exists v, vhandle ve i = Ok v /\ content h (HRef r) v | Err x => vhandle ve i = Err x /\ x = NameError end.
Proof.
  intros H. unfold handle, vhandle. revert i. induction H as [|x v e ve X H IH]; intros [|i]; cbn; try (split; reflexivity); [|exact (IH i)].
  destruct x as [r|], v as [v|]; cbn in X; try contradiction; eauto.
Qed.
Lemma hands_args h e ve : hands h e ve -> forall kw, match arguments e kw with Ok a => exists va, varguments ve kw = Ok va /\ stands h a va | Err x => varguments ve kw = Err x end.
Proof.
  intros H. induction kw as [|[n a] kw IH]; cbn [arguments varguments]; [exists []; split; [reflexivity|constructor]|].
  destruct a as [v|i]; cbn [argument vargument].
  - destruct (is_proof v) eqn:L; cbn [bind]; [reflexivity|]. destruct (arguments e kw) as [a|x]; cbn [bind]; [|rewrite IH; reflexivity].
    destruct IH as (va & -> & K). eexists. split; [reflexivity|]. constructor; [|exact K]. split; [reflexivity|]. constructor. exact L.
  - pose proof (hands_handle _ _ _ i H) as Hh. destruct (handle e i) as [r|x]; cbn [bind]; [|rewrite (proj1 Hh); reflexivity]. destruct Hh as (v & -> & C). cbn [bind].
    destruct (arguments e kw) as [a|x]; cbn [bind]; [|rewrite IH; reflexivity].
    destruct IH as (va & -> & K). eexists. split; [reflexivity|]. constructor; [|exact K]. split; [reflexivity|exact C].
Qed.

Lemma hands_ex s e : sound s -> (forall i r, nth_error e i = Some (Some r) -> r < List.length (s_heap s)) -> exists ve, hands (s_heap s) e ve.
Proof.
  intros S. induction e as [|x e IH]; intros L; [exists []; constructor|]. destruct IH as (ve & H); [intros i r Hi; apply (L (Datatypes.S i) r Hi)|].
  destruct x as [r|]; [|exists (None :: ve); constructor; [exact Logic.I|exact H]].
  destruct (nth_error (s_heap s) r) as [o|] eqn:Ho; [|apply nth_error_None in Ho; specialize (L 0 r eq_refl); lia].
  destruct (content_ex ct made s r o S Ho) as (v & C). exists (Some v :: ve). constructor; [exact C|exact H].
Qed.

(** What one command leaves behind. *)
Definition stepped (s s' : state) : Prop := sound s' /\ follows s s'.

Lemma give_ok s x f : sound s -> content (s_heap s) x f -> exists h, give x s = (Ok (fst (vgive f), h), s) /\ hand (s_heap s) h (snd (vgive f)) /\ match x with HRef r => h = Some r | HLeaf _ => h = None end.
Proof.
  intros S C. destruct x as [v|r].
  - destruct (content_leaf _ _ _ C) as (-> & L). unfold vgive. unfold is_proof in L. destruct (class_of v); [discriminate|]. exists None. split; [reflexivity|]. split; [exact Logic.I|reflexivity].
  - destruct (content_object ct made _ _ _ S C) as (o & Ho & Ec). unfold vgive. rewrite Ec. exists (Some r). unfold give, mbind, fetch. rewrite Ho. split; [reflexivity|]. split; [exact C|reflexivity].
Qed.

Lemma missing_unreadable ca v n : unreadable (missing ct ca v n).
Proof. unfold unreadable, missing. destruct v; auto. destruct (cached ca _); auto. destruct (existsb _ _); auto. Qed.
Lemma peek_none v n : match v with PFull c _ => attr_index (c_attrs (ct c)) n = None | PHash _ _ => True | _ => False end -> exists e, peek ct v n = Err e /\ unreadable e.
Proof.
  unfold unreadable, peek. intros H. destruct v; try contradiction; cbn [get]; [rewrite H; cbn [bind]; eauto|]. destruct (attr_index _ _); cbn [bind]; eauto.
Qed.

(** One command, on objects and on values. *)
Lemma command_ok s e ve c res s' : sound s -> hands (s_heap s) e ve -> instantiates ct made c -> command ct e c s = (res, s') ->
  stepped s s' /\
  (pure c -> match res with
  | Ok (u, h) => exists vh, vcommand ct ve c = Ok (u, vh) /\ hand (s_heap s') h vh
  | Err x => exists y, vcommand ct ve c = Err y /\ same_out c (UErr x) (UErr y)
  end) /\
  (~ pure c -> match res with Ok (_, h) => h = None | Err _ => True end).
Proof.
  intros S H Ic E.
  assert (St0 : stepped s s) by (split; [exact S|apply follows_refl]).
  assert (NE : forall i x, handle e i = Err x -> vhandle ve i = Err x) by (intros i x Hx; pose proof (hands_handle _ _ _ i H) as Hh; rewrite Hx in Hh; apply Hh).
  destruct c as [i name|i|i|i|i|i|i j|i|k kw|k buf]; cbn [command vcommand instantiates] in *; try (unfold mbind at 1, lift at 1 in E).
  - destruct (handle e i) as [r|x] eqn:Hh; [|inversion E; subst; rewrite (NE _ _ Hh); split; [exact St0|]; split; [intros _; eexists; split; [reflexivity|left; reflexivity]|tauto]].
    pose proof (hands_handle _ _ _ i H) as Hv. rewrite Hh in Hv. destruct Hv as (v & -> & C). cbn [bind].
    unfold mbind in E. destruct (getattr ct r name s) as [[x|x] s1] eqn:Eg; unfold getattr in Eg; pose proof (hget_ok ct made PT _ _ _ _ _ _ _ S C (Nat.lt_succ_diag_r r) Eg) as (S1 & F1 & Ca & _ & P).
    + destruct P as (c & fs & ix & f & -> & Hi & Hf & Cx & _). destruct (give_ok s1 x f S1 Cx) as (h & Eh & Hd & _). rewrite Eh in E. inversion E; subst.
      split; [split; assumption|]. split; [|cbn; tauto]. intros _. rewrite (peek_full ct c fs name ix f Hi Hf). cbn [bind]. eexists. split; [|exact Hd]. destruct (vgive f); reflexivity.
    + inversion E; subst. destruct P as (-> & -> & P). split; [exact St0|]. split; [|cbn; tauto]. intros _.
      destruct (peek_none v name) as (y & Ey & Uy).
      { destruct (content_object ct made _ _ _ S C) as (o & _ & Ec). pose proof (content_not_view _ _ _ C). destruct v; try discriminate Ec; auto. }
      rewrite Ey. cbn [bind]. eexists. split; [reflexivity|]. right. split; [apply missing_unreadable|exact Uy].
  - destruct (handle e i) as [r|x] eqn:Hh; [|inversion E; subst; rewrite (NE _ _ Hh); split; [exact St0|]; split; [intros _; eexists; split; [reflexivity|left; reflexivity]|tauto]].
    pose proof (hands_handle _ _ _ i H) as Hv. rewrite Hh in Hv. destruct Hv as (v & -> & C). cbn [bind].
    destruct (content_object ct made _ _ _ S C) as (o & Ho & Ec). unfold give_ref, mbind at 1 in E. rewrite (hprune_eq _ _ _ Ho) in E.
    destruct (hprune_ok ct made _ _ _ _ S Ho C) as (S1 & F1 & C1). destruct (give_ok _ _ _ S1 C1) as (h & Eh & Hd & _). rewrite Eh in E. inversion E; subst.
    split; [split; assumption|]. split; [|cbn; tauto]. intros _. eexists. split; [|exact Hd]. destruct (vgive v); reflexivity.
  - destruct (handle e i) as [r|x] eqn:Hh; [|inversion E; subst; rewrite (NE _ _ Hh); split; [exact St0|]; split; [intros _; eexists; split; [reflexivity|left; reflexivity]|tauto]].
    pose proof (hands_handle _ _ _ i H) as Hv. rewrite Hh in Hv. destruct Hv as (v & -> & C). cbn [bind].
    unfold give_bytes, mbind, hash_attr in E. destruct (hhash ct (2 * r + 2) true r s) as [rd s1] eqn:Eh.
    destruct (hhash_ok ct made PT _ _ _ _ true _ _ S C (Nat.le_refl _) Eh) as ((S1 & F1 & _) & Hr). cbn iota in Hr. subst rd.
    destruct (phash ct v); unfold ret in E; inversion E; subst; (split; [split; assumption|]; split; [intros _|cbn; tauto]); cbn [bind]; eexists; (split; [reflexivity|]); [exact Logic.I|left; reflexivity].
  - destruct (handle e i) as [r|x] eqn:Hh; [|inversion E; subst; rewrite (NE _ _ Hh); split; [exact St0|]; split; [intros _; eexists; split; [reflexivity|left; reflexivity]|tauto]].
    pose proof (hands_handle _ _ _ i H) as Hv. rewrite Hh in Hv. destruct Hv as (v & -> & C). cbn [bind].
    unfold give_bytes, mbind, data_hash_attr in E. destruct (hhash ct (2 * r + 2) false r s) as [rd s1] eqn:Eh.
    destruct (hhash_ok ct made PT _ _ _ _ false _ _ S C (proj1 (Nat.add_le_mono_l 1 2 (2 * r)) (Nat.le_succ_diag_r 1)) Eh) as ((S1 & F1 & _) & Hr). cbn iota in Hr. subst rd.
    destruct (data_hash ct v); unfold ret in E; inversion E; subst; (split; [split; assumption|]; split; [intros _|cbn; tauto]); cbn [bind]; eexists; (split; [reflexivity|]); [exact Logic.I|left; reflexivity].
  - split; [|split; [intros []|intros _]]; (destruct (handle e i) as [r|x] eqn:Hh; [|inversion E; subst; auto]);
      pose proof (hands_handle _ _ _ i H) as Hv; rewrite Hh in Hv; destruct Hv as (v & _ & C); destruct (content_object ct made _ _ _ S C) as (o & Ho & _); unfold mbind, fetch in E; rewrite Ho in E; inversion E; subst; auto.
  - split; [|split; [intros []|intros _]]; (destruct (handle e i) as [r|x] eqn:Hh; [|inversion E; subst; auto]);
      pose proof (hands_handle _ _ _ i H) as Hv; rewrite Hh in Hv; destruct Hv as (v & _ & C); destruct (content_object ct made _ _ _ S C) as (o & Ho & _); unfold mbind, fetch in E; rewrite Ho in E; inversion E; subst; auto.
  - destruct (handle e i) as [r|x] eqn:Hh; [|inversion E; subst; rewrite (NE _ _ Hh); split; [exact St0|]; split; [intros _; eexists; split; [reflexivity|left; reflexivity]|tauto]].
    pose proof (hands_handle _ _ _ i H) as Hv. rewrite Hh in Hv. destruct Hv as (v & -> & C). cbn [bind]. unfold mbind at 1, lift at 1 in E.
    destruct (handle e j) as [r2|x] eqn:Hh2; [|inversion E; subst; rewrite (NE _ _ Hh2); split; [exact St0|]; split; [intros _; eexists; split; [reflexivity|left; reflexivity]|tauto]].
    pose proof (hands_handle _ _ _ j H) as Hv. rewrite Hh2 in Hv. destruct Hv as (w & -> & C2). cbn [bind].
    unfold mbind at 1, hash_attr at 1 in E. destruct (hhash ct (2 * r + 2) true r s) as [rd s1] eqn:Eh.
    destruct (hhash_ok ct made PT _ _ _ _ true _ _ S C (Nat.le_refl _) Eh) as ((S1 & F1 & _) & Hr). cbn iota in Hr. subst rd.
    destruct (phash ct v) as [d|x]; cbn [bind]; [|inversion E; subst; split; [split; assumption|]; split; [intros _; eexists; split; [reflexivity|left; reflexivity]|cbn; tauto]].
    unfold mbind, hash_attr in E. destruct (hhash ct (2 * r2 + 2) true r2 s1) as [rd s2] eqn:Eh2.
    destruct (hhash_ok ct made PT _ _ _ _ true _ _ S1 (content_grow _ _ _ _ (proj1 F1) C2) (Nat.le_refl _) Eh2) as ((S2 & F2 & _) & Hr). cbn iota in Hr. subst rd.
    pose proof (follows_trans _ _ _ F1 F2) as F12.
    destruct (phash ct w) as [d2|x]; cbn [bind]; unfold ret in E; inversion E; subst; (split; [split; assumption|]; split; [intros _; eexists; split; [reflexivity|]|cbn; tauto]); [exact Logic.I|left; reflexivity].
  - destruct (handle e i) as [r|x] eqn:Hh; [|inversion E; subst; split; [exact St0|]; split; [intros []|auto]].
    pose proof (hands_handle _ _ _ i H) as Hv. rewrite Hh in Hv. destruct Hv as (v & _ & C). destruct (abs_ex ct made s S v _ C) as (a & A).
    unfold give_bytes, mbind in E. destruct (serialize_of ct r s) as [rd s1] eqn:Es. destruct (serialize_ok ct made PT s r a rd s1 S A Es) as ((S1 & F1 & _) & _).
    destruct rd; unfold ret in E; inversion E; subst; (split; [split; assumption|]; split; [intros []|auto]).
  - pose proof (hands_args _ _ _ H kw) as Ha. destruct (arguments e kw) as [a|x]; [|inversion E; subst; rewrite Ha; split; [exact St0|]; split; [intros _; eexists; split; [reflexivity|left; reflexivity]|tauto]].
    destruct Ha as (va & -> & K). cbn [bind]. unfold give_ref, mbind in E. destruct (hnew ct k a s) as [rn s1] eqn:En. destruct (hnew_ok ct made PT s k a va rn s1 S Ic K En) as (S1 & F1 & P).
    destruct (construct ct k va) as [v|x]; cbn [bind].
    + destruct P as (-> & C & _). destruct (give_ok _ _ _ S1 C) as (h & Eh & Hd & _). rewrite Eh in E. inversion E; subst.
      split; [split; assumption|]. split; [|cbn; tauto]. intros _. eexists. split; [|exact Hd]. destruct (vgive v); reflexivity.
    + destruct P as (-> & _). inversion E; subst. split; [split; assumption|]. split; [intros _; eexists; split; [reflexivity|left; reflexivity]|tauto].
  - unfold give_ref, mbind in E. destruct (load ct k buf s) as [rn s1] eqn:En. destruct (load_ok ct made PT k buf s rn s1 Ic S En) as (S1 & F1 & P).
    destruct (deserialize ct k buf) as [v|x]; cbn [bind].
    + destruct P as (r & -> & C). destruct (give_ok _ _ _ S1 C) as (h & Eh & Hd & _). rewrite Eh in E. inversion E; subst.
      split; [split; assumption|]. split; [|cbn; tauto]. intros _. eexists. split; [|exact Hd]. destruct (vgive v); reflexivity.
    + subst rn. inversion E; subst. split; [split; assumption|]. split; [intros _; eexists; split; [reflexivity|left; reflexivity]|tauto].
Qed.

Lemma hands_snoc h e ve x v : hands h e ve -> hand h x v -> hands h (e ++ [x]) (ve ++ [v]).
Proof. intros H X. apply Forall2_app; [exact H|]. constructor; [exact X|constructor]. Qed.

Lemma exec_ok s e ve c u s' e' : sound s -> hands (s_heap s) e ve -> instantiates ct made c -> exec ct s e c = (u, s', e') ->
  stepped s s' /\ (exists x, e' = e ++ [x]) /\ hands (s_heap s') e' (snd (vexec ct ve c)) /\ (pure c -> same_out c u (fst (vexec ct ve c))).
Proof.
  intros S H Ic E. unfold exec in E. destruct (command ct e c s) as [[[w h]|x] s1] eqn:Ec; inversion E; subst; clear E;
    destruct (command_ok _ _ _ _ _ _ S H Ic Ec) as ((S1 & F1) & P & N); (split; [split; assumption|]; split; [eauto|]); pose proof (hands_grow _ _ _ _ (proj1 F1) H) as H1; unfold vexec.
  - assert (D : pure c \/ ~ pure c) by (destruct c; cbn; auto). destruct D as [D|D].
    + destruct (P D) as (vh & -> & Hd). cbn [fst snd]. split; [apply hands_snoc; assumption|]. intros _. left. reflexivity.
    + rewrite (N D). destruct c; cbn in D; try tauto; cbn [vcommand fst snd]; (split; [apply hands_snoc; [assumption|exact Logic.I]|intros []]).
  - assert (D : pure c \/ ~ pure c) by (destruct c; cbn; auto). destruct D as [D|D].
    + destruct (P D) as (y & -> & Sy). cbn [fst snd]. split; [apply hands_snoc; [assumption|exact Logic.I]|auto].
    + destruct c; cbn in D; try tauto; cbn [vcommand fst snd]; (split; [apply hands_snoc; [assumption|exact Logic.I]|intros []]).
Qed.

Lemma run_ok p : forall s e ve us s' e', sound s -> hands (s_heap s) e ve -> Forall (instantiates ct made) p -> run_all ct s e p = (us, s', e') ->
  stepped s s' /\ (exists x, e' = e ++ x /\ List.length x = List.length p) /\ hands (s_heap s') e' (venv ct ve p) /\ same_outs p us (vrun ct ve p).
Proof.
  induction p as [|c p IH]; intros s e ve us s' e' S H I E; cbn [run_all venv vrun] in *.
  - inversion E; subst. split; [split; [exact S|apply follows_refl]|]. split; [exists []; rewrite app_nil_r; auto|]. split; [exact H|exact Logic.I].
  - destruct (exec ct s e c) as [[u s1] e1] eqn:Ec. destruct (run_all ct s1 e1 p) as [[us2 s2] e2] eqn:Er. inversion E; subst. inversion I as [|? ? Ic Ip]; subst.
    destruct (exec_ok _ _ _ _ _ _ _ S H Ic Ec) as ((S1 & F1) & (x & ->) & H1 & O1). destruct (IH _ _ _ _ _ _ S1 H1 Ip Er) as ((S2 & F2) & (y & -> & Ly) & H2 & O2).
    split; [split; [exact S2|eapply follows_trans; eassumption]|]. split; [exists (x :: y); rewrite <- app_assoc; cbn; auto|]. split; [exact H2|].
    destruct (vexec ct ve c) as [w ve1]. cbn [snd fst] in *. split; assumption.
Qed.

Lemma start_sound : sound start.
Proof. constructor; intros r o H; try (destruct r; discriminate H). Qed.

(** *** The same command later *)

Lemma missing_stable s s' v name : sound s -> sound s' -> follows s s' -> missing ct (s_cache s) v name <> TypeError -> missing ct (s_cache s') v name = missing ct (s_cache s) v name.
Proof.
  intros S S' (_ & Fi) N. unfold missing in *. destruct v; auto. destruct (cached (s_cache s) (c_supers (ct c))) as [a|] eqn:E; [|congruence].
  destruct (cached (s_cache s') (c_supers (ct c))) as [a'|] eqn:E'; [|exfalso; apply (Fi (c_supers (ct c))); congruence].
  destruct (cached_some _ _ _ E) as (d & Id & Hd). destruct (so_cache _ _ _ S d a Hd) as (-> & Md). destruct (cached_some _ _ _ E') as (d' & Id' & Hd'). destruct (so_cache _ _ _ S' d' a' Hd') as (-> & Md').
  rewrite (pt_apart _ _ PT c d d') by assumption. reflexivity.
Qed.

Lemma handle_app e x i : i < List.length e -> handle (e ++ x) i = handle e i.
Proof. intros L. unfold handle. rewrite nth_error_app1 by exact L. reflexivity. Qed.

Lemma mbind_lift {A B} (r : result A) (k : A -> M B) s : mbind (lift r) k s = match r with Ok a => k a s | Err e => (Err e, s) end.
Proof. destruct r; reflexivity. Qed.
Lemma mbind_eq {A B} (m : M A) (k : A -> M B) s : mbind m k s = match m s with (Ok a, s') => k a s' | (Err e, s') => (Err e, s') end.
Proof. reflexivity. Qed.

Lemma again s e c u s1 e1 : sound s -> (forall i r, nth_error e i = Some (Some r) -> r < List.length (s_heap s)) -> looks c -> known (List.length e) c ->
  exec ct s e c = (u, s1, e1) -> (u = UErr TypeError -> match c with CGet _ _ => False | _ => True end) ->
  forall s2 x u2 s3 e3, sound s2 -> follows s1 s2 -> exec ct s2 (e ++ x) c = (u2, s3, e3) -> u2 = u /\ nth_error e3 (List.length e + List.length x) = nth_error e1 (List.length e).
Proof.
  intros S R Rc B E NT s2 x u2 s3 e3 S2 F2 E2. destruct (hands_ex s e S R) as (ve & H).
  assert (Ic : instantiates ct made c) by (destruct c; try contradiction; exact Logic.I).
  destruct (exec_ok _ _ _ _ _ _ _ S H Ic E) as ((S1 & F1) & _ & _ & _). pose proof (follows_trans _ _ _ F1 F2) as F.
  enough (X : exists res, match command ct e c s with (r, _) => r = res end /\ match command ct (e ++ x) c s2 with (r, _) => r = res end).
  { destruct X as (res & X1 & X2). unfold exec in E, E2. destruct (command ct e c s) as [r1 t1]. destruct (command ct (e ++ x) c s2) as [r2 t2]. subst r1 r2.
    destruct res as [[w h]|y]; inversion E; inversion E2; subst; (split; [reflexivity|]); rewrite <- app_length; rewrite !nth_error_snoc, !Nat.eqb_refl; reflexivity. }
  assert (HN : forall i, i < List.length e -> handle (e ++ x) i = handle e i) by (intros; apply handle_app; assumption).
  assert (HV : forall i r, handle e i = Ok r -> exists v, content (s_heap s) (HRef r) v /\ content (s_heap s2) (HRef r) v).
  { intros i r Hr. pose proof (hands_handle _ _ _ i H) as Hv. rewrite Hr in Hv. destruct Hv as (v & _ & C). exists v. split; [exact C|]. eapply content_grow; [exact (proj1 F)|exact C]. }
  assert (HH : forall i r full, handle e i = Ok r -> exists d, (exists t, hhash ct (2 * r + 2) full r s = (d, t) /\ sound t /\ follows s t) /\ (exists t, hhash ct (2 * r + 2) full r s2 = (d, t) /\ sound t /\ follows s2 t)).
  { intros i r full Hr. destruct (HV i r Hr) as (v & C & C2). destruct (hhash ct (2 * r + 2) full r s) as [d t] eqn:E1'. destruct (hhash ct (2 * r + 2) full r s2) as [d2 t2] eqn:E2'.
    assert (L : 2 * r + (if full then 2 else 1) <= 2 * r + 2) by (destruct full; lia).
    destruct (hhash_ok ct made PT _ _ _ _ full _ _ S C L E1') as ((X1 & X2 & _) & ->). destruct (hhash_ok ct made PT _ _ _ _ full _ _ S2 C2 L E2') as ((Y1 & Y2 & _) & ->).
    eexists. split; eexists; (split; [reflexivity|]; split; assumption). }
  destruct c as [i name|i|i|i|i|i|i j|i|k kw|k buf]; try contradiction; cbn [command] in *; rewrite !mbind_lift.
  - rewrite (HN i B). destruct (handle e i) as [r|y] eqn:Hr; [|eexists; split; reflexivity]. destruct (HV i r Hr) as (v & C & C2). unfold exec in E. cbn [command] in E. unfold mbind at 1, lift at 1 in E. rewrite Hr in E.
    unfold mbind in E |- *. destruct (getattr ct r name s) as [r1 t1] eqn:E1'. destruct (getattr ct r name s2) as [r2 t2] eqn:E2'. unfold getattr in E1', E2'.
    destruct (hget_ok ct made PT _ _ _ _ _ _ _ S C (Nat.lt_succ_diag_r r) E1') as (T1 & G1 & Ca1 & _ & P1). destruct (hget_ok ct made PT _ _ _ _ _ _ _ S2 C2 (Nat.lt_succ_diag_r r) E2') as (T2 & G2 & Ca2 & _ & P2).
    destruct r1 as [y1|e1'].
    + destruct P1 as (c1 & fs & ix & f & -> & Hi & Hf & Cx & o1 & Ho1 & Hx1). destruct (give_ok t1 y1 f T1 Cx) as (h & Eh & _ & Hm). rewrite Eh in E. inversion E; subst. clear E.
      destruct (proj1 F2 _ _ Ho1) as (o2 & Ho2 & L2). pose proof (la_attrs _ _ L2 _ _ Hx1) as Hx2. pose proof (getattr_set ct s2 r o2 name y1 Ho2 Hx2) as Eg. unfold getattr in Eg. rewrite Eg in E2'. inversion E2'; subst r2 t2.
      destruct (give_ok s2 y1 f S2 (content_grow _ _ _ _ (proj1 F2) Cx)) as (h2 & Eh2 & _ & Hm2). exists (Ok (fst (vgive f), h)). rewrite Eh, Eh2. split; [reflexivity|]. destruct y1; subst; reflexivity.
    + inversion E; subst. destruct P1 as (-> & -> & P1). specialize (missing_stable s s2 v name S S2 F) as Ms. exists (Err (missing ct (s_cache s) v name)). split; [reflexivity|].
      destruct r2 as [y2|e2'].
      * destruct P2 as (c1 & fs & ix & f & -> & Hi & _). congruence.
      * destruct P2 as (_ & -> & _). rewrite Ms; [reflexivity|]. intros X. rewrite X in NT. apply NT. reflexivity.
  - rewrite (HN i B). destruct (handle e i) as [r|y] eqn:Hr; [|eexists; split; reflexivity]. destruct (HH i r true Hr) as (d & (t & E1' & _) & (t2 & E2' & _)). unfold give_bytes, mbind, hash_attr. rewrite E1', E2'. destruct d; eexists; split; reflexivity.
  - rewrite (HN i B). destruct (handle e i) as [r|y] eqn:Hr; [|eexists; split; reflexivity]. destruct (HH i r false Hr) as (d & (t & E1' & _) & (t2 & E2' & _)). unfold give_bytes, mbind, data_hash_attr. rewrite E1', E2'. destruct d; eexists; split; reflexivity.
  - rewrite (HN i B). destruct (handle e i) as [r|y] eqn:Hr; [|eexists; split; reflexivity]. destruct (HV i r Hr) as (v & C & C2). destruct (content_object ct made _ _ _ S C) as (o & Ho & _). destruct (proj1 F _ _ Ho) as (o2 & Ho2 & L).
    unfold mbind, fetch. rewrite Ho, Ho2. rewrite (la_pruned _ _ L). eexists; split; reflexivity.
  - destruct B as (Bi & Bj). rewrite (HN i Bi). destruct (handle e i) as [r|y] eqn:Hr; [|eexists; split; reflexivity]. rewrite !mbind_lift. rewrite (HN j Bj). destruct (handle e j) as [r2|y] eqn:Hr2; [|eexists; split; reflexivity].
    destruct (HH i r true Hr) as (d & (t & E1' & T1 & G1) & (t2 & E2' & T2 & G2)). rewrite (mbind_eq (hash_attr ct r) _ s), (mbind_eq (hash_attr ct r) _ s2). unfold hash_attr at 1 3. rewrite E1', E2'. destruct d as [d|]; [|eexists; split; reflexivity].
    destruct (HV j r2 Hr2) as (w & C & C2). unfold mbind, hash_attr. destruct (hhash ct (2 * r2 + 2) true r2 t) as [d1 t1] eqn:E1''. destruct (hhash ct (2 * r2 + 2) true r2 t2) as [d2 t3] eqn:E2''.
    destruct (hhash_ok ct made PT _ _ _ _ true _ _ T1 (content_grow _ _ _ _ (proj1 G1) C) (Nat.le_refl _) E1'') as (_ & ->).
    destruct (hhash_ok ct made PT _ _ _ _ true _ _ T2 (content_grow _ _ _ _ (proj1 G2) C2) (Nat.le_refl _) E2'') as (_ & ->). cbn iota. destruct (phash ct w); eexists; split; reflexivity.
Qed.

End Run.
