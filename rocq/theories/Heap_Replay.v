(** Proofs about Heap_Model.v, part 8: the receiver of a serialized view can do what the sender did. *)
From Verif Require Import Base Sha256 Serialize_Model Serialize_Spec Tx_Model Proof_Model Proof_Spec Cache_Model Construct_Proofs
  Proof_Proofs ProofHash_Proofs ProofView_Proofs ProofReplay_Proofs Heap_Model Heap_Spec Heap_Inv Heap_Step Heap_Make Heap_Ser Heap_Run Heap_Frame Heap_Main.
From Coq Require Import ZifyBool ZifyNat ZifyN.

(** ** Values with parts cut away *)

(** [w] is [v] with some sub-proofs reduced to their data hashes. *)
Record cut (ct : ctable) (v w : val) : Prop := {
  cu_class : class_of w = class_of v;
  cu_hashes : hashes ct w = hashes ct v;
  cu_leaf : is_proof v = false -> w = v;
  cu_hash : match v with PHash _ _ => w = v | _ => True end;
  cu_view : match w with PView _ _ _ => False | _ => True end }.

Lemma cut_refl ct v : match v with PView _ _ _ => False | _ => True end -> cut ct v v.
Proof. intros N. constructor; auto. destruct v; exact Logic.I || reflexivity. Qed.

Lemma cut_proof ct v w : cut ct v w -> is_proof w = is_proof v.
Proof. intros C. unfold is_proof. rewrite (cu_class _ _ _ C). reflexivity. Qed.

Lemma cut_ser_leaf ct sr v w : leafy sr -> cut ct v w -> ser_leaf sr w = ser_leaf sr v.
Proof.
  intros L C. destruct (is_proof v) eqn:P; [|rewrite (cu_leaf _ _ _ C P); reflexivity]. apply ser_leaf_proof; [exact L|rewrite (cut_proof _ _ _ C); exact P|exact P].
Qed.

Lemma cut_fields ct fs ws : Forall2 (cut ct) fs ws -> forall attrs, hash_fields ct attrs ws = hash_fields ct attrs fs.
Proof.
  induction 1 as [|f w fs ws C F IH]; intros [|[n sr] attrs]; cbn [hash_fields]; try reflexivity. rewrite IH. unfold phash. rewrite (cu_hashes _ _ _ C).
  destruct sr; try reflexivity; rewrite (cut_ser_leaf ct _ f w); auto; exact Logic.I.
Qed.

Lemma cut_full ct c fs ws : Forall2 (cut ct) fs ws -> cut ct (PFull c fs) (PFull c ws).
Proof.
  intros F. constructor; try reflexivity; try exact Logic.I; [|discriminate]. rewrite !hashes_full, (cut_fields ct fs ws F). cbv zeta. f_equal. destruct (c_hash (ct c)); [reflexivity|].
  destruct F as [|f w fs ws C F]; [reflexivity|]. destruct (is_proof f) eqn:P.
  - assert (Pw : is_proof w = true) by (rewrite (cut_proof _ _ _ C); exact P). destruct f; try discriminate P; destruct w; try discriminate Pw; reflexivity.
  - rewrite (cu_leaf _ _ _ C P). destruct F; [reflexivity|]. destruct f; reflexivity.
Qed.

Lemma cut_sealed ct Q sr v h : wf_table ct -> fits ct Q sr v -> (is_proof v = true -> phash ct v = Ok h) -> pruned_only (tagged_class ct) (sealed ct v) -> cut ct v (sealed ct v).
Proof.
  intros W F P T. destruct (is_proof v) eqn:L.
  - specialize (P eq_refl). destruct (phash_data ct Q sr v h W F P) as (d & D & _). pose proof (dhash_ok _ _ _ D) as Dh. unfold sealed in *.
    destruct v; try discriminate L; cbn [class_of] in *; rewrite Dh in *.
    + inversion T as [? X| |? ? (t & Ht)]; subst; [discriminate X|]. constructor; try reflexivity; try exact Logic.I; [|discriminate].
      unfold data_hash in D. clear P T. revert D. generalize (dhash ct (PFull c fs)) as d0. intros d0 D. rewrite hashes_full in *. cbv zeta in *. cbn [fst] in D. rewrite D, Ht. cbn [hashes]. reflexivity.
    + unfold data_hash in D. cbn in D. inversion D; subst. apply cut_refl. exact Logic.I.
    + exfalso. exact (fits_not_view _ _ _ _ F).
  - assert (sealed ct v = v) as -> by (destruct v; try discriminate L; reflexivity). apply cut_refl. destruct v; try discriminate L; exact Logic.I.
Qed.

Lemma cut_frozen ct Q : wf_table ct -> forall o sr v h, fits ct Q sr o -> shows ct o v -> (is_proof o = true -> phash ct o = Ok h) ->
  pruned_only (tagged_class ct) (frozen ct v) -> cut ct o (frozen ct v).
Proof.
  intros W. induction o as [pv|bl|t0|o0|c fs IH|c dh|c0 o0 st0 IHo0 IHst0] using val_ind'; intros sr v h H S P T;
    inversion S as [? L|? ? ? HF HL|]; subst; try discriminate L; try (apply cut_refl; exact Logic.I).
  - specialize (P eq_refl). rewrite frozen_view in *. destruct (forallb is_none st) eqn:EN.
    + exact (cut_sealed ct Q sr (PFull c fs) h W H (fun _ => P) T).
    + inversion T as [? Hx|? ? TF|]; subst; [discriminate Hx|]. apply cut_full.
      pose proof (fits_full_all _ _ _ _ _ H) as FA. pose proof (phash_sub ct Q sr c fs h W H P) as AH. clear S H P EN T. revert FA HL HF IH TF AH. generalize (c_attrs (ct c)) as attrs.
      intros attrs FA HL HF IH TF AH. revert st HF HL TF. induction FA as [|name s attrs f fs Hf Hfs IHa]; intros st HF HL TF.
      * inversion HF; subst. constructor.
      * inversion HF as [|? s0 ? st' R HF']; subst. inversion IH as [|? ? IHf IHfs]; subst. cbn in HL. cbn [freeze_fields] in *. inversion TF as [|? ? TF1 TF2]; subst.
        assert (HH : exists hf, is_proof f = true -> phash ct f = Ok hf).
        { destruct (is_proof f) eqn:L; [|exists []; discriminate]. destruct (AH 0 _ _ eq_refl eq_refl L) as (hf & Hhf). eauto. }
        destruct HH as (hf & Hhf). constructor; [|apply IHa; auto; eapply all_hashed_tl, AH].
        destruct R as [->|(x & -> & Hx)]; [eapply cut_sealed; eassumption|eapply IHf; eassumption].
  - cbn [frozen] in *. rewrite forallb_none_repeat in *. cbn. apply cut_refl. exact Logic.I.
Qed.

(** Construction does not see the difference. *)
Lemma cut_check ct sr v w : cut ct v w -> check ct sr w = check ct sr v.
Proof.
  intros C. destruct (is_proof v) eqn:P; [|rewrite (cu_leaf _ _ _ C P); reflexivity].
  assert (Pw : is_proof w = true) by (rewrite (cut_proof _ _ _ C); exact P). pose proof (cu_class _ _ _ C) as E.
  assert (Py : to_py w = to_py v) by (destruct v; try discriminate P; destruct w; try discriminate Pw; reflexivity).
  destruct sr; cbn [check]; rewrite ?Py, ?(existsb_isinst ct w v _ E); try reflexivity; try (destruct v; try discriminate P; destruct w; try discriminate Pw; reflexivity).
  destruct (c_kind (ct c)); [reflexivity|]. rewrite (existsb_isinst ct w v _ E). reflexivity.
Qed.

Definition cuts (ct : ctable) (kw kw' : list (string * val)) : Prop := Forall2 (fun b w => fst b = fst w /\ cut ct (snd b) (snd w)) kw kw'.
Lemma cuts_assoc ct kw kw' n : cuts ct kw kw' -> match assoc n kw with Some v => exists w, assoc n kw' = Some w /\ cut ct v w | None => assoc n kw' = None end.
Proof. induction 1 as [|[m v] [m' w] kw kw' (E & C) F IH]; cbn in *; [reflexivity|]. subst m'. destruct (String.eqb m n); [eauto|exact IH]. Qed.

Lemma cut_construct_loop ct kw kw' attrs : cuts ct kw kw' -> match construct_loop ct attrs kw with
  | Ok fs => exists ws, construct_loop ct attrs kw' = Ok ws /\ Forall2 (cut ct) fs ws
  | Err e => construct_loop ct attrs kw' = Err e
  end.
Proof.
  intros K. induction attrs as [|[name sr] attrs IH]; cbn [construct_loop]; [exists []; split; [reflexivity|constructor]|].
  pose proof (cuts_assoc ct kw kw' name K) as A. destruct (assoc name kw) as [v|]; [|rewrite A; reflexivity]. destruct A as (w & -> & C). cbn [bind].
  rewrite (cut_check ct sr v w C). destruct (check ct sr v) as [[]|e]; [|reflexivity]. cbn [bind]. rewrite (cut_proof _ _ _ C).
  destruct (match sr with SerProof _ => if is_proof v then Ok tt else Err AttributeError | _ => Ok tt end) as [[]|e]; [|reflexivity]. cbn [bind].
  destruct (construct_loop ct attrs kw) as [fs|e]; cbn [bind]; [|rewrite IH; reflexivity]. destruct IH as (ws & -> & F). exists (w :: ws). split; [reflexivity|constructor; assumption].
Qed.

Lemma construct_loop_nth ct kw attrs fs : construct_loop ct attrs kw = Ok fs -> forall i name sr, nth_error attrs i = Some (name, sr) -> exists v, assoc name kw = Some v /\ nth_error fs i = Some v.
Proof.
  revert fs. induction attrs as [|[n s] attrs IH]; intros fs E i name sr Hi; [destruct i; discriminate|]. cbn [construct_loop] in E.
  destruct (assoc n kw) as [v|] eqn:Ev; [|discriminate]. cbn [bind] in E. destruct (check ct s v) as [[]|]; [|discriminate]. cbn [bind] in E.
  destruct (match s with SerProof _ => if is_proof v then Ok tt else Err AttributeError | _ => Ok tt end) as [[]|]; [|discriminate]. cbn [bind] in E.
  destruct (construct_loop ct attrs kw) as [r|] eqn:Er; [|discriminate]. inversion E; subst. destruct i as [|i]; cbn in *; [inversion Hi; subst; eauto|eapply IH; eauto].
Qed.

Section Replay.
Context (ct : ctable) (made : cid -> Prop) (PT : program_table ct made).
Notation sound := (Heap_Inv.sound ct made).

(** [seen h x w]: [w] has whatever the objects reachable from [x] have. *)
Inductive seen (h : list obj) : hval -> val -> Prop :=
| Se_leaf v : is_proof v = false -> seen h (HLeaf v) v
| Se_ref r o v w : nth_error h r = Some o -> content h (HRef r) v -> cut ct v w ->
    (forall n x, assoc n (b_attrs o) = Some x -> exists c ws i f, w = PFull c ws /\ attr_index (c_attrs (ct c)) n = Some i /\ nth_error ws i = Some f /\ seen h x f) -> seen h (HRef r) w.

Lemma seen_ref h r w : seen h (HRef r) w -> exists o v, nth_error h r = Some o /\ content h (HRef r) v /\ cut ct v w /\
  (forall n x, assoc n (b_attrs o) = Some x -> exists c ws i f, w = PFull c ws /\ attr_index (c_attrs (ct c)) n = Some i /\ nth_error ws i = Some f /\ seen h x f).
Proof. intros H. inversion H as [|? o v ? A B C D]; subst. eauto 8. Qed.

Lemma content_seen s v : sound s -> forall x, content (s_heap s) x v -> seen (s_heap s) x v.
Proof.
  intros S. induction v as [pv|bl|t0|o0|c0 fs IH|c0 dh|c0 o0 st0 IHo IHst] using val_ind'; intros x C;
    try (destruct x as [w|r]; [destruct (content_leaf _ _ _ C) as (<- & L); constructor; exact L|destruct (content_object ct made _ _ _ S C) as (o & Ho & Ec); discriminate Ec]).
  - destruct x as [w|r]; [destruct (content_leaf _ _ _ C) as (<- & L); discriminate L|]. destruct (content_object ct made _ _ _ S C) as (o & Ho & Ec). rewrite Forall_forall in IH.
    econstructor; [exact Ho|exact C|apply cut_refl; exact Logic.I|]. intros n x Hx. destruct (content_attr ct made _ _ _ _ _ _ S C Ho Hx) as (c & fs' & i & f & E & Hi & Hf & Cf). inversion E; subst.
    exists c, fs', i, f. do 3 (split; [auto|]). apply IH; [eapply nth_error_In, Hf|exact Cf].
  - destruct x as [w|r]; [destruct (content_leaf _ _ _ C) as (<- & L); discriminate L|]. destruct (content_object ct made _ _ _ S C) as (o & Ho & Ec).
    econstructor; [exact Ho|exact C|apply cut_refl; exact Logic.I|]. intros n x Hx. destruct (content_attr ct made _ _ _ _ _ _ S C Ho Hx) as (c & fs' & i & f & E & _). discriminate E.
  - exfalso. exact (content_not_view _ _ _ C).
Qed.

Lemma seen_view s w : sound s -> forall r k o, nth_error (s_heap s) k = Some o -> b_orig o = Some r -> seen (s_heap s) (HRef r) w -> seen (s_heap s) (HRef k) w.
Proof.
  intros S. induction w as [pv|bl|t0|o0|c0 fs IH|c0 dh|c0 o0 st0 IHo IHst] using val_ind'; intros r k o Hk Eo H; destruct (seen_ref _ _ _ H) as (q & v & Hq & Cq & Cut & A);
    (econstructor; [exact Hk|eapply Ct_view; eassumption|exact Cut|]); intros n x Hx; pose proof (so_formed _ _ _ S k o Hk) as F; unfold Heap_Inv.formed in F; rewrite Eo in F;
    destruct F as (_ & _ & _ & _ & q' & Hq' & _ & B); rewrite Hq in Hq'; inversion Hq'; subst q'; destruct (B n x Hx) as (y & Hy & V); destruct (A n y Hy) as (c & ws & i & f & E & Hi & Hf & Sf); try discriminate E.
  inversion E; subst. exists c, ws, i, f. do 3 (split; [auto|]). destruct y as [a|c1], x as [b|k1]; cbn in V; try contradiction; [subst b; exact Sf|].
  destruct V as (ok & Hok & Eok). rewrite Forall_forall in IH. eapply (IH f); [eapply nth_error_In, Hf|exact Hok|exact Eok|exact Sf].
Qed.

(** ** The view itself *)

Definition viewish (h : list obj) (x : hval) : Prop := match x with HRef r => exists o p, nth_error h r = Some o /\ b_orig o = Some p | HLeaf _ => True end.

Lemma forall2_nths {A B} (R : A -> B -> Prop) l m : List.length l = List.length m -> (forall i a b, nth_error l i = Some a -> nth_error m i = Some b -> R a b) -> Forall2 R l m.
Proof.
  revert m. induction l as [|a l IH]; intros [|b m] L H; try discriminate L; constructor; [apply (H 0); reflexivity|]. apply IH; [inversion L; reflexivity|]. intros i x y Hx Hy. apply (H (Datatypes.S i)); assumption.
Qed.

Lemma view_attr s r o p n x : sound s -> nth_error (s_heap s) r = Some o -> b_orig o = Some p -> assoc n (b_attrs o) = Some x -> viewish (s_heap s) x.
Proof.
  intros S Ho Eo Hx. pose proof (so_formed _ _ _ S r o Ho) as F. unfold Heap_Inv.formed in F. rewrite Eo in F. destruct F as (_ & _ & _ & _ & q & _ & _ & B). destruct (B n x Hx) as (y & _ & V).
  destruct y as [a|c1], x as [b|k1]; cbn in V; try contradiction; [exact Logic.I|]. destruct V as (ok & Hok & Eok). exists ok, c1. auto.
Qed.

(** What is set in a view, as part of its value. *)
Lemma slots_at s r o p c fs st n x : sound s -> nth_error (s_heap s) r = Some o -> b_orig o = Some p -> content (s_heap s) (HRef r) (PFull c fs) -> slots ct (s_heap s) (b_attrs o) (c_attrs (ct c)) st ->
  assoc n (b_attrs o) = Some x -> exists i f a, attr_index (c_attrs (ct c)) n = Some i /\ nth_error fs i = Some f /\ nth_error st i = Some (Some a) /\ content (s_heap s) x f /\ abs ct (s_heap s) x a.
Proof.
  intros S Ho Eo C Sl Hx. destruct (content_attr ct made _ _ _ _ _ _ S C Ho Hx) as (c' & fs' & i & f & E & Hi & Hf & Cf). inversion E; subst c' fs'.
  destruct (attr_index_nth _ _ _ Hi) as (sr & Ea). destruct (slots_nth ct _ _ _ _ Sl i n sr Ea) as [(a & x' & X1 & X2 & X3)|(_ & X2)]; [|congruence]. assert (x' = x) by congruence; subst x'. exists i, f, a. auto.
Qed.

Lemma abs_shows s Q : sound s -> forall o sr x a, fits ct Q sr o -> content (s_heap s) x o -> abs ct (s_heap s) x a -> viewish (s_heap s) x -> shows ct o a.
Proof.
  intros S. induction o as [pv|bl|t0|o0|c fs IH|c dh|c0 o0 st0 IHo0 IHst0] using val_ind'; intros sr x a H C A V;
    try (destruct x as [w|r]; [destruct (content_leaf _ _ _ C) as (<- & L); inversion A; subst; constructor; exact L|destruct (content_object ct made _ _ _ S C) as (ob & Ho & Ec); discriminate Ec]).
  - destruct x as [w|r]; [destruct (content_leaf _ _ _ C) as (<- & L); discriminate L|]. destruct V as (ob & p & Ho & Eo). destruct (content_object ct made _ _ _ S C) as (ob' & Ho' & Ec). rewrite Ho in Ho'. inversion Ho'; subst ob'. inversion Ec; subst c.
    destruct (abs_inv _ _ _ _ _ A Ho) as [(d & X & _)|[(vs & X & _)|(p' & v & st & Xp & Cp & Sl & ->)]]; try congruence. assert (p' = p) by congruence; subst p'.
    assert (v = PFull (b_class ob) fs) as -> by (eapply content_fun; [eapply Ct_view; eassumption|exact C]).
    pose proof (fits_full_length _ _ _ _ _ H) as Lf. pose proof (slots_length _ _ _ _ _ Sl) as Ls. apply Sh_full; [|exact Ls]. apply forall2_nths; [congruence|]. intros i f s0 Hf Hs.
    destruct (nth_error (c_attrs (ct (b_class ob))) i) as [[n sr']|] eqn:Ea; [|apply nth_error_None in Ea; apply nth_error_lt in Hf; lia].
    destruct (slots_nth ct _ _ _ _ Sl i n sr' Ea) as [(a' & y & Ea' & Hy & Aa')|(X & _)]; [|left; congruence]. rewrite Hs in Ea'. inversion Ea'; subst s0. right. exists a'. split; [reflexivity|].
    destruct (slots_at s r ob p _ fs st n y S Ho Eo C Sl Hy) as (i' & f' & a2 & Hi' & Hf' & Ha2 & Cf' & _). rewrite (attr_index_complete _ _ _ _ (pt_names _ _ PT _) Ea) in Hi'. inversion Hi'; subst i'. rewrite Hf in Hf'. inversion Hf'; subst f'.
    destruct (fits_all_nth _ _ _ _ _ _ _ (fits_full_all _ _ _ _ _ H) Ea) as (f2 & Hf2 & Ff). rewrite Hf in Hf2. inversion Hf2; subst f2.
    rewrite Forall_forall in IH. eapply (IH f); [eapply nth_error_In, Hf|exact Ff|exact Cf'|exact Aa'|eapply view_attr; eassumption].
  - destruct x as [w|r]; [destruct (content_leaf _ _ _ C) as (<- & L); discriminate L|]. destruct V as (ob & p & Ho & Eo). destruct (content_object ct made _ _ _ S C) as (ob' & Ho' & Ec). rewrite Ho in Ho'. inversion Ho'; subst ob'. inversion Ec; subst c.
    destruct (abs_inv _ _ _ _ _ A Ho) as [(d & X & _)|[(vs & X & _)|(p' & v & st & Xp & Cp & Sl & ->)]]; try congruence. assert (p' = p) by congruence; subst p'.
    assert (v = PHash (b_class ob) dh) as -> by (eapply content_fun; [eapply Ct_view; eassumption|exact C]).
    assert (Eb : b_attrs ob = []).
    { destruct (b_attrs ob) as [|[n y] bs] eqn:Eb; [reflexivity|]. destruct (content_attr ct made s r ob _ n y S C Ho) as (? & ? & ? & ? & X & _); [rewrite Eb; cbn; rewrite String.eqb_refl; reflexivity|discriminate X]. }
    rewrite Eb in Sl. assert (st = repeat None (List.length (c_attrs (ct (b_class ob))))) as ->; [|apply Sh_hash].
    clear -Sl. remember [] as bs eqn:E. induction Sl; cbn; subst; try discriminate; f_equal; auto.
  - exfalso. exact (content_not_view _ _ _ C).
Qed.

Lemma root_seen s Q : wf_table ct -> sound s -> forall o sr x a h, fits ct Q sr o -> content (s_heap s) x o -> abs ct (s_heap s) x a -> viewish (s_heap s) x ->
  (is_proof o = true -> phash ct o = Ok h) -> pruned_only (tagged_class ct) (frozen ct a) -> seen (s_heap s) x (frozen ct a).
Proof.
  intros W S. induction o as [pv|bl|t0|o0|c fs IH|c dh|c0 o0 st0 IHo0 IHst0] using val_ind'; intros sr x a h H C A V P T;
    try (destruct x as [w|r]; [destruct (content_leaf _ _ _ C) as (<- & L); inversion A; subst; constructor; exact L|destruct (content_object ct made _ _ _ S C) as (ob & Ho & Ec); discriminate Ec]);
    pose proof (abs_shows s Q S _ sr x a H C A V) as Sh; pose proof (cut_frozen ct Q W _ sr a h H Sh P T) as Cut.
  - destruct x as [w|r]; [destruct (content_leaf _ _ _ C) as (<- & L); discriminate L|]. destruct V as (ob & p & Ho & Eo). destruct (content_object ct made _ _ _ S C) as (ob' & Ho' & Ec). rewrite Ho in Ho'. inversion Ho'; subst ob'. inversion Ec; subst c.
    econstructor; [exact Ho|exact C|exact Cut|]. intros n y Hy. specialize (P eq_refl).
    destruct (abs_inv _ _ _ _ _ A Ho) as [(d & X & _)|[(vs & X & _)|(p' & v & st & Xp & Cp & Sl & ->)]]; try congruence. assert (p' = p) by congruence; subst p'.
    assert (v = PFull (b_class ob) fs) as -> by (eapply content_fun; [eapply Ct_view; eassumption|exact C]).
    destruct (slots_at s r ob p _ fs st n y S Ho Eo C Sl Hy) as (i & f & a' & Hi & Hf & Ha & Cf & Aa). rewrite frozen_view, (forallb_none_nth _ _ _ Ha) in *.
    exists (b_class ob), (freeze_fields ct fs st), i, (frozen ct a'). pose proof (freeze_nth ct fs st i a' f Hf Ha) as Fz. do 3 (split; [auto|]).
    destruct (attr_index_nth _ _ _ Hi) as (sr' & Ea). destruct (fits_all_nth _ _ _ _ _ _ _ (fits_full_all _ _ _ _ _ H) Ea) as (f2 & Hf2 & Ff). rewrite Hf in Hf2. inversion Hf2; subst f2.
    assert (HH : exists hf, is_proof f = true -> phash ct f = Ok hf).
    { destruct (is_proof f) eqn:L; [|exists []; discriminate]. destruct (phash_sub ct Q sr _ fs h W H P i _ f Ea Hf L) as (hf & Hhf). eauto. }
    destruct HH as (hf & Hhf). rewrite Forall_forall in IH. eapply (IH f); [eapply nth_error_In, Hf|exact Ff|exact Cf|exact Aa|eapply view_attr; eassumption|exact Hhf|eapply pruned_only_nth; eassumption].
  - destruct x as [w|r]; [destruct (content_leaf _ _ _ C) as (<- & L); discriminate L|]. destruct V as (ob & p & Ho & Eo).
    econstructor; [exact Ho|exact C|exact Cut|]. intros n y Hy. destruct (content_attr ct made _ _ _ _ _ _ S C Ho Hy) as (? & ? & ? & ? & X & _). discriminate X.
  - exfalso. exact (content_not_view _ _ _ C).
Qed.

(** ** Commands *)

Definition sees (h : list obj) (x : option ref) (w : option val) : Prop := match x, w with Some r, Some w => seen h (HRef r) w | None, None => True | _, _ => False end.

Lemma sees_handle h e we i : Forall2 (sees h) e we -> match handle e i with Ok r => exists w, vhandle we i = Ok w /\ seen h (HRef r) w | Err x => vhandle we i = Err x end.
Proof.
  intros H. unfold handle, vhandle. revert i. induction H as [|x v e we X H IH]; intros [|i]; cbn; try reflexivity; [|exact (IH i)]. destruct x as [r|], v as [v|]; cbn in X; try contradiction; eauto.
Qed.

Lemma seen_cut s h x v w : sound s -> grows (s_heap s) h -> content (s_heap s) x v -> seen h x w -> cut ct v w.
Proof.
  intros S G C H. inversion H as [u L|r o v' ? A B D E]; subst.
  - destruct (content_leaf _ _ _ C) as (-> & _). apply cut_refl. destruct w; try discriminate L; exact Logic.I.
  - rewrite (content_fun h (HRef r) v v'); [exact D|eapply content_grow; eassumption|exact B].
Qed.

Lemma sees_args s h e we ve kw : sound s -> grows (s_heap s) h -> hands (s_heap s) e ve -> Forall2 (sees h) e we -> match arguments e kw with
  | Ok a => exists va wa, varguments ve kw = Ok va /\ varguments we kw = Ok wa /\ stands (s_heap s) a va /\ cuts ct va wa /\ Forall2 (fun b w => fst b = fst w /\ seen h (snd b) (snd w)) a wa
  | Err x => varguments we kw = Err x end.
Proof.
  intros S G Hd H. induction kw as [|[n a] kw IH]; cbn [arguments varguments]; [exists [], []; do 2 (split; [reflexivity|]); repeat split; constructor|].
  destruct a as [v|i]; cbn [argument vargument].
  - destruct (is_proof v) eqn:L; cbn [bind]; [reflexivity|]. destruct (arguments e kw) as [a|x]; cbn [bind]; [|rewrite IH; reflexivity].
    destruct IH as (va & wa & -> & -> & K1 & K2 & K3). eexists. eexists. do 2 (split; [reflexivity|]). split; [|split]; (constructor; [|assumption]); cbn [fst snd]; (split; [reflexivity|]).
    + constructor. exact L.
    + apply cut_refl. destruct v; try discriminate L; exact Logic.I.
    + constructor. exact L.
  - pose proof (hands_handle _ _ _ i Hd) as Hv. pose proof (sees_handle _ _ _ i H) as Hh. destruct (handle e i) as [r|x]; cbn [bind]; [|rewrite Hh; reflexivity]. destruct Hh as (w & -> & Sw). destruct Hv as (v & -> & C). cbn [bind].
    destruct (arguments e kw) as [a|x]; cbn [bind]; [|rewrite IH; reflexivity].
    destruct IH as (va & wa & -> & -> & K1 & K2 & K3). eexists. eexists. do 2 (split; [reflexivity|]). split; [|split]; (constructor; [|assumption]); cbn [fst snd]; (split; [reflexivity|]); try assumption.
    eapply seen_cut; eassumption.
Qed.

Lemma cut_vgive v w : cut ct v w -> fst (vgive w) = fst (vgive v).
Proof.
  intros C. unfold vgive. rewrite (cu_class _ _ _ C). destruct (class_of v) eqn:E; [reflexivity|]. rewrite (cu_leaf _ _ _ C); [reflexivity|]. unfold is_proof. rewrite E. reflexivity.
Qed.
Lemma seen_gives s h x f w : sound s -> grows (s_heap s) h -> content (s_heap s) x f -> seen h x w -> fst (vgive w) = fst (vgive f) /\ sees h (match x with HRef r => Some r | HLeaf _ => None end) (snd (vgive w)).
Proof.
  intros S G C H. pose proof (seen_cut s h x f w S G C H) as Cut. split; [apply cut_vgive, Cut|]. unfold vgive. rewrite (cu_class _ _ _ Cut). destruct x as [v|r].
  - destruct (content_leaf _ _ _ C) as (-> & L). unfold is_proof in L. destruct (class_of v); [discriminate|exact Logic.I].
  - destruct (content_object ct made _ _ _ S C) as (o & _ & ->). exact H.
Qed.

Lemma new_loop_attr kw attrs : forall s bs p s', new_loop ct attrs kw s = (Ok (bs, p), s') -> forall n x, In (n, x) bs -> assoc n kw = Some x.
Proof.
  induction attrs as [|[name sr] attrs IH]; intros s bs p s' E n x Hin; [cbn in E; inversion E; subst; contradiction|]. rewrite new_loop_step in E. destruct (assoc name kw) as [y|] eqn:Ey; [|discriminate E].
  destruct (check ct sr (shadow (s_heap s) y)) as [[]|]; [|discriminate E]. destruct (flag_of sr y s) as [[b|] s1]; [|discriminate E].
  destruct (new_loop ct attrs kw s1) as [[[bs' p']|] s2] eqn:El; [|discriminate E]. inversion E; subst. destruct Hin as [X|Hin]; [inversion X; subst; exact Ey|eapply IH; eassumption].
Qed.
Lemma hnew_attr c kw s r s' o n x : hnew ct c kw s = (Ok r, s') -> nth_error (s_heap s') r = Some o -> assoc n (b_attrs o) = Some x -> assoc n kw = Some x.
Proof.
  intros E Ho Hx. unfold hnew in E. rewrite mbind_eq in E. destruct (attrs_for ct (s_cache s) c) as [a ca]. rewrite mbind_eq in E. destruct (new_loop ct a kw (St (s_heap s) ca)) as [[[bs p]|] s1] eqn:El; [|discriminate E].
  unfold alloc in E. inversion E; subst. cbn [s_heap] in Ho. rewrite nth_error_snoc, Nat.eqb_refl in Ho. inversion Ho; subst. cbn [fst b_attrs] in Hx. eapply new_loop_attr; [exact El|]. apply assoc_in, Hx.
Qed.

(** One command of the sender, and the same on what was sent; [sf] is the state in which it is sent. *)
Lemma command_seen s e ve we c res s' sf : sound s -> hands (s_heap s) e ve -> Forall2 (sees (s_heap sf)) e we -> instantiates ct made c -> command ct e c s = (res, s') ->
  sound sf -> follows s' sf ->
  (pure c -> match res with
  | Ok (u, x) => exists wx, vcommand ct we c = Ok (u, wx) /\ sees (s_heap sf) x wx
  | Err x => exists y, vcommand ct we c = Err y /\ same_out c (UErr x) (UErr y)
  end).
Proof.
  intros S H Hw Ic E Sf Ff Pc. pose proof (command_ok ct made PT s e ve c res s' S H Ic E) as ((S' & F) & O & _). specialize (O Pc).
  pose proof (follows_trans _ _ _ F Ff) as F2.
  assert (NE : forall i x, handle e i = Err x -> vhandle we i = Err x) by (intros i x Hx; pose proof (sees_handle _ _ _ i Hw) as Hh; rewrite Hx in Hh; exact Hh).
  assert (HV : forall i r, handle e i = Ok r -> exists v w, vhandle ve i = Ok v /\ vhandle we i = Ok w /\ content (s_heap s) (HRef r) v /\ seen (s_heap sf) (HRef r) w /\ cut ct v w).
  { intros i r Hr. pose proof (hands_handle _ _ _ i H) as Hv. pose proof (sees_handle _ _ _ i Hw) as Hh. rewrite Hr in *. destruct Hv as (v & Ev & Cv). destruct Hh as (w & Ew & Sw).
    exists v, w. do 4 (split; [assumption|]). eapply seen_cut; [exact S|exact (proj1 F2)|eassumption..]. }
  destruct c as [i name|i|i|i|i|i|i j|i|k kw|k buf]; try contradiction; cbn [command vcommand] in *; try (rewrite mbind_lift in E).
  - destruct (handle e i) as [r|x] eqn:Hr; [|inversion E; subst; rewrite (NE _ _ Hr); eexists; split; [reflexivity|left; reflexivity]].
    destruct (HV i r Hr) as (v & w & _ & -> & C & Sw & Cut). cbn [bind]. rewrite mbind_eq in E. destruct (getattr ct r name s) as [[x|x] s1] eqn:Eg; unfold getattr in Eg; pose proof (hget_ok ct made PT _ _ _ _ _ _ _ S C (Nat.lt_succ_diag_r r) Eg) as (S1 & F1 & Ca & _ & P).
    + destruct P as (c & fs & ix & f & -> & Hi & Hf & Cx & o1 & Ho1 & Hx1). destruct (give_ok ct made s1 x f S1 Cx) as (hx & Eh & _ & Ehx). rewrite Eh in E. inversion E; subst. clear E O.
      destruct (proj1 Ff _ _ Ho1) as (o2 & Ho2 & L2). pose proof (la_attrs _ _ L2 _ _ Hx1) as Hx2. destruct (seen_ref _ _ _ Sw) as (o3 & v3 & Ho3 & _ & _ & A). rewrite Ho2 in Ho3. inversion Ho3; subst o3.
      destruct (A name x Hx2) as (c' & ws & i' & f' & -> & Hi' & Hf' & Sf'). rewrite (peek_full ct c' ws name i' f' Hi' Hf'). cbn [bind].
      destruct (seen_gives s' (s_heap sf) x f f' S1 (proj1 Ff) Cx Sf') as (G1 & G2). exists (snd (vgive f')). split; [rewrite <- G1; destruct (vgive f'); reflexivity|]. destruct x; subst hx; exact G2.
    + inversion E; subst. destruct P as (_ & -> & P). clear E O. destruct (peek_none ct w name) as (y & Ey & Uy).
      { pose proof (cu_class _ _ _ Cut) as Ec. pose proof (cu_view _ _ _ Cut) as Nw. destruct (content_object ct made _ _ _ S C) as (o & _ & Eo). rewrite Eo in Ec. pose proof (content_not_view _ _ _ C) as Nv.
        destruct v; try discriminate Eo; try contradiction.
        - destruct w; try discriminate Ec; try contradiction; [|exact Logic.I]. cbn in Ec, Eo. replace c0 with c by congruence. exact P.
        - rewrite (cu_hash _ _ _ Cut). exact Logic.I. }
      rewrite Ey. cbn [bind]. eexists. split; [reflexivity|]. right. split; [apply missing_unreadable|exact Uy].
  - destruct (handle e i) as [r|x] eqn:Hr; [|inversion E; subst; rewrite (NE _ _ Hr); eexists; split; [reflexivity|left; reflexivity]].
    destruct (HV i r Hr) as (v & w & Ev & -> & C & Sw & Cut). cbn [bind]. destruct (content_object ct made _ _ _ S C) as (o & Ho & Ec). unfold give_ref in E. rewrite mbind_eq, (hprune_eq _ _ _ Ho) in E. cbn [give] in E. unfold mbind, fetch, ret in E. cbn [s_heap] in E.
    rewrite nth_error_snoc, Nat.eqb_refl in E. inversion E; subst. clear E O. unfold vgive. rewrite (cu_class _ _ _ Cut), Ec. cbn [b_class]. eexists. split; [reflexivity|]. cbn [sees].
    match type of Ff with follows ?s1 _ => assert (Hk : nth_error (s_heap s1) (List.length (s_heap s)) = Some (Obj (b_class o) (Some r) [] true true None None)) by (cbn [s_heap]; rewrite nth_error_snoc, Nat.eqb_refl; reflexivity) end.
    destruct (proj1 Ff _ _ Hk) as (ok & Hok & Lk). eapply seen_view; [exact Sf|exact Hok|rewrite (la_orig _ _ Lk); reflexivity|exact Sw].
  - destruct (handle e i) as [r|x] eqn:Hr; [|inversion E; subst; rewrite (NE _ _ Hr); eexists; split; [reflexivity|left; reflexivity]].
    destruct (HV i r Hr) as (v & w & Ev & -> & C & Sw & Cut). rewrite Ev in O. cbn [bind] in *. unfold phash in *. rewrite (cu_hashes _ _ _ Cut). destruct res as [[u x]|x].
    + destruct O as (vx & O1 & O2). destruct (snd (hashes ct v)); inversion O1; subst. destruct x; [contradiction|]. eexists. split; [reflexivity|exact Logic.I].
    + exact O.
  - destruct (handle e i) as [r|x] eqn:Hr; [|inversion E; subst; rewrite (NE _ _ Hr); eexists; split; [reflexivity|left; reflexivity]].
    destruct (HV i r Hr) as (v & w & Ev & -> & C & Sw & Cut). rewrite Ev in O. cbn [bind] in *. unfold data_hash in *. rewrite (cu_hashes _ _ _ Cut). destruct res as [[u x]|x].
    + destruct O as (vx & O1 & O2). destruct (fst (hashes ct v)); inversion O1; subst. destruct x; [contradiction|]. eexists. split; [reflexivity|exact Logic.I].
    + exact O.
  - destruct (handle e i) as [r|x] eqn:Hr; [|inversion E; subst; rewrite (NE _ _ Hr); eexists; split; [reflexivity|left; reflexivity]].
    destruct (HV i r Hr) as (v & w & Ev & -> & C & Sw & Cut). rewrite mbind_lift in E. destruct (handle e j) as [r2|x] eqn:Hr2; [|inversion E; subst; rewrite (NE _ _ Hr2); eexists; split; [reflexivity|left; reflexivity]].
    destruct (HV j r2 Hr2) as (v2 & w2 & Ev2 & -> & C2 & Sw2 & Cut2). rewrite Ev, Ev2 in O. cbn [bind] in *. unfold phash in *. rewrite (cu_hashes _ _ _ Cut), (cu_hashes _ _ _ Cut2). destruct res as [[u x]|x].
    + destruct O as (vx & O1 & O2). destruct (snd (hashes ct v)); [|discriminate O1]. cbn [bind] in *. destruct (snd (hashes ct v2)); inversion O1; subst. destruct x; [contradiction|]. eexists. split; [reflexivity|exact Logic.I].
    + exact O.
  - pose proof (sees_args s (s_heap sf) e we ve kw S (proj1 F2) H Hw) as Ha. destruct (arguments e kw) as [a|x]; [|inversion E; subst; rewrite Ha; eexists; split; [reflexivity|left; reflexivity]].
    destruct Ha as (va & wa & Eva & -> & K & Kc & Ks). cbn [bind]. unfold give_ref in E. rewrite mbind_eq in E. destruct (hnew ct k a s) as [rn s1] eqn:En. destruct (hnew_ok ct made PT s k a va rn s1 S Ic K En) as (S1 & F1 & P).
    pose proof (cut_construct_loop ct va wa (c_attrs (ct k)) Kc) as Cl. unfold construct in *. destruct (construct_loop ct (c_attrs (ct k)) va) as [fs|y] eqn:Efs; cbn [bind] in *.
    + destruct Cl as (ws & Ews & Cf). rewrite Ews. cbn [bind]. destruct P as (-> & C & o & Eh & Ec & Eo & _). destruct (give_ok ct made _ _ _ S1 C) as (hx & Egv & _ & ->). rewrite Egv in E. inversion E; subst. clear E O.
      eexists. split; [reflexivity|]. cbn [vgive class_of snd sees].
      assert (Ho : nth_error (s_heap s') (List.length (s_heap s)) = Some o) by (rewrite Eh, nth_error_snoc, Nat.eqb_refl; reflexivity). destruct (proj1 Ff _ _ Ho) as (o2 & Ho2 & L2). pose proof (content_grow _ _ _ _ (proj1 Ff) C) as C2.
      econstructor; [exact Ho2|exact C2|apply cut_full, Cf|]. intros n x Hx. destruct (la_full _ _ L2 Eo) as (Ea & _). rewrite Ea in Hx.
      destruct (content_attr ct made _ _ _ _ _ _ S1 C Ho Hx) as (c' & fs' & i & f & X & Hi & Hf & Cx). inversion X; subst c' fs'.
      destruct (forall2_nth _ _ _ _ _ Cf Hf) as (w & Hwi & _). exists (b_class o), ws, i, w. do 3 (split; [auto|]).
      destruct (attr_index_nth _ _ _ Hi) as (sr & Ean). destruct (construct_loop_nth ct wa _ ws Ews i n sr Ean) as (w' & Aw & Hw'). rewrite Hwi in Hw'. inversion Hw'; subst w'.
      assert (Ax : assoc n a = Some x) by (eapply hnew_attr; eassumption).
      clear -Ks Ax Aw. induction Ks as [|[m y] [m' z] a wa (E & Sz) Ks IH]; cbn in *; [discriminate|]. subst m'. destruct (String.eqb m n); [inversion Ax; inversion Aw; subst; exact Sz|auto].
    + rewrite Cl. destruct P as (-> & _). inversion E; subst. eexists. split; [reflexivity|left; reflexivity].
  - destruct res as [[u x]|x].
    + destruct O as (vx & O1 & O2). exists vx. split; [exact O1|]. destruct x as [r|], vx as [v|]; cbn in O2 |- *; try contradiction; [|exact Logic.I]. apply (content_seen sf v Sf). eapply content_grow; [exact (proj1 Ff)|exact O2].
    + exact O.
Qed.
End Replay.

Lemma forall2_last {A B} (R : A -> B -> Prop) l m a b : Forall2 R (l ++ [a]) (m ++ [b]) -> R a b.
Proof.
  revert m. induction l as [|x l IH]; intros [|y m] H; cbn in H; inversion H; subst; auto.
  - exfalso. destruct m; match goal with K : Forall2 _ [] _ |- _ => inversion K end.
  - exfalso. destruct l; match goal with K : Forall2 _ _ [] |- _ => inversion K end.
  - eapply IH; eassumption.
Qed.

Section Send.
Context (ct : ctable) (made : cid -> Prop) (PT : program_table ct made).
Notation sound := (Heap_Inv.sound ct made).

Lemma exec_seen s e ve we c u s' e' sf : sound s -> hands (s_heap s) e ve -> Forall2 (sees ct (s_heap sf)) e we -> instantiates ct made c -> exec ct s e c = (u, s', e') ->
  sound sf -> follows s' sf -> Forall2 (sees ct (s_heap sf)) e' (snd (vexec ct we c)) /\ (pure c -> same_out c u (fst (vexec ct we c))).
Proof.
  intros S H Hw Ic E Sf Ff. unfold exec in E. destruct (command ct e c s) as [res s1] eqn:Ec. pose proof (command_ok ct made PT s e ve c res s1 S H Ic Ec) as (_ & _ & N).
  assert (D : pure c \/ ~ pure c) by (destruct c; cbn; auto). unfold vexec. destruct D as [D|D].
  - assert (Es : s1 = s') by (destruct res as [[w h]|x]; inversion E; reflexivity). subst s1. pose proof (command_seen ct made PT s e ve we c res s' sf S H Hw Ic Ec Sf Ff D) as P. destruct res as [[w h]|x]; inversion E; subst.
    + destruct P as (wx & -> & X). cbn [fst snd]. split; [apply Forall2_app; [exact Hw|constructor; [exact X|constructor]]|intros _; left; reflexivity].
    + destruct P as (y & -> & X). cbn [fst snd]. split; [apply Forall2_app; [exact Hw|constructor; [exact Logic.I|constructor]]|intros _; exact X].
  - specialize (N D). assert (X : e' = e ++ [None]) by (destruct res as [[w h]|x]; inversion E; subst; reflexivity). subst e'.
    destruct c; cbn in D; try tauto; cbn [vcommand fst snd]; (split; [apply Forall2_app; [exact Hw|constructor; [exact Logic.I|constructor]]|intros []]).
Qed.

Lemma run_seen q : forall s e ve we us sf e', sound s -> hands (s_heap s) e ve -> Forall2 (sees ct (s_heap sf)) e we -> Forall (instantiates ct made) q -> run_all ct s e q = (us, sf, e') -> same_outs q us (vrun ct we q).
Proof.
  induction q as [|c q IH]; intros s e ve we us sf e' S H Hw I E; cbn [run_all vrun] in *; [inversion E; subst; exact Logic.I|].
  destruct (exec ct s e c) as [[u s1] e1] eqn:Ec. destruct (run_all ct s1 e1 q) as [[us2 s2] e2] eqn:Er. inversion E; subst. inversion I as [|? ? Ic Ip]; subst.
  destruct (exec_ok ct made PT _ _ _ _ _ _ _ S H Ic Ec) as ((S1 & F1) & _ & H1 & _). destruct (run_ok ct made PT q _ _ _ _ _ _ S1 H1 Ip Er) as ((S2 & F2) & _).
  destruct (exec_seen s e ve we c u s1 e1 sf S H Hw Ic Ec S2 F2) as (Hw1 & O1). pose proof (IH _ _ _ _ _ _ _ S1 H1 Hw1 Ip Er) as O2. destruct (vexec ct we c) as [w we1]. split; assumption.
Qed.

Lemma fits_any sr w : fits ct bits_survive sr w -> fits ct any_bits sr w.
Proof.
  intros Hw. apply (fits_mind ct bits_survive (fun sr w _ => fits ct any_bits sr w) (fun a fs _ => fits_all ct any_bits a fs)) with (v := w); try (intros; econstructor; eauto; fail); [|exact Hw].
  intros; constructor. exact Logic.I.
Qed.

Lemma send c o h p us0 s e i u s1 k q us s2 e2 : wf_table ct -> plain_table ct -> plain_tagged ct c ->
  Forall (instantiates ct made) p -> run_all ct start [] p = (us0, s, e) -> nth_error (venv ct [] p) i = Some (Some o) -> fits ct bits_survive (SerProof c) o -> phash ct o = Ok h ->
  exec ct s e (CPrune i) = (u, s1, e ++ [k]) -> Forall (instantiates ct made) q -> run_all ct s1 [k] q = (us, s2, e2) ->
  exists buf, outcome ct s2 e2 (CSer 0) = UBytes buf /\
  forall made' t f w t1 x, program_table ct made' -> reach ct made' t f -> instantiates ct made' (CLoad c buf) -> Forall (instantiates ct made') q -> exec ct t f (CLoad c buf) = (w, t1, f ++ [x]) ->
    w = UProof c /\ outcome ct t1 [x] (CHash 0) = UBytes h /\ forall us' t2 f2, run_all ct t1 [x] q = (us', t2, f2) -> same_outs q us us'.
Proof.
  intros W Pt Pc Ip Ep Ho Fo Hh Ek Iq Eq. destruct (run_ok ct made PT p start [] [] us0 s e (start_sound ct made) (Forall2_nil _) Ip Ep) as ((S & _) & _ & H & _).
  destruct (exec_ok ct made PT s e _ (CPrune i) u s1 _ S H Logic.I Ek) as ((S1 & F1) & _ & H1 & _).
  assert (Hi : vhandle (venv ct [] p) i = Ok o) by (unfold vhandle; rewrite Ho; reflexivity). pose proof (hands_handle _ _ _ i H) as Hr. destruct (handle e i) as [r|y] eqn:Er; [|destruct Hr; congruence]. destruct Hr as (v & Ev & C). assert (v = o) by congruence; subst v.
  destruct (content_object ct made _ _ _ S C) as (ob & Hob & Ecl).
  assert (X : k = Some (List.length (s_heap s)) /\ nth_error (s_heap s1) (List.length (s_heap s)) = Some (Obj (b_class ob) (Some r) [] true true None None) /\ content (s_heap s1) (HRef (List.length (s_heap s))) o).
  { unfold exec in Ek. cbn [command] in Ek. rewrite mbind_lift, Er in Ek. unfold give_ref in Ek. rewrite mbind_eq, (hprune_eq _ _ _ Hob) in Ek. cbn [give] in Ek. unfold mbind, fetch, ret in Ek. cbn [s_heap] in Ek.
    rewrite nth_error_snoc, Nat.eqb_refl in Ek. inversion Ek as [[X1 X2 X3]]. apply app_inv_head in X3. inversion X3. cbn [s_heap] in *. subst s1. cbn [s_heap]. split; [reflexivity|].
    assert (Hk : nth_error (s_heap s ++ [Obj (b_class ob) (Some r) [] true true None None]) (List.length (s_heap s)) = Some (Obj (b_class ob) (Some r) [] true true None None)) by (rewrite nth_error_snoc, Nat.eqb_refl; reflexivity).
    split; [exact Hk|]. eapply Ct_view; [exact Hk|reflexivity|]. exact (content_grow _ _ _ _ (proj1 F1) C). }
  destruct X as (-> & Hk & Ck). set (kk := List.length (s_heap s)) in *.
  assert (Hd : hands (s_heap s1) [Some kk] [Some o]) by (constructor; [exact Ck|constructor]). destruct (run_ok ct made PT q s1 [Some kk] [Some o] us s2 e2 S1 Hd Iq Eq) as ((S2 & F2) & (xs & -> & _) & _ & _).
  pose proof (content_grow _ _ _ _ (proj1 F2) Ck) as Ck2. destruct (proj1 F2 _ _ Hk) as (ok & Hok & Lk). assert (Vk : viewish (s_heap s2) (HRef kk)) by (exists ok, r; split; [exact Hok|rewrite (la_orig _ _ Lk); reflexivity]).
  destruct (abs_ex ct made s2 S2 o _ Ck2) as (a & A). pose proof (abs_shows ct made PT s2 bits_survive S2 o _ _ a Fo Ck2 A Vk) as Sh.
  destruct (frozen_fits ct bits_survive W Pt o (SerProof c) a Fo Pc Sh) as (Ff & Po); [eauto|]. destruct (proof_roundtrip ct c (frozen ct a) W (fits_any _ _ Ff)) as (buf & Eb & Db & _). exists buf. split.
  { unfold outcome, exec. cbn [command]. rewrite mbind_lift. cbn [handle nth_error app]. unfold give_bytes. rewrite mbind_eq. destruct (serialize_of ct kk s2) as [d s3] eqn:Es. destruct (serialize_ok ct made PT s2 kk a d s3 S2 A Es) as (_ & ->).
    pose proof (ser_frozen ct bits_survive W o (SerProof c) a h Fo Sh (fun _ => Hh)) as SF. cbn [ser_val] in SF. rewrite SF, Eb. reflexivity. }
  pose proof (root_seen ct made PT s2 bits_survive W S2 o _ _ a h Fo Ck2 A Vk (fun _ => Hh) Po) as Sn.
  pose proof (run_seen q s1 [Some kk] [Some o] [Some (frozen ct a)] us s2 _ S1 Hd (Forall2_cons (R := sees ct (s_heap s2)) (Some kk) (Some (frozen ct a)) Sn (Forall2_nil _)) Iq Eq) as Snd.
  intros made' t f w t1 x PT' R Ib Iq' El. destruct (reach_sound ct made' PT' t f R) as (St & vf & Hf). specialize (Db Ff []). rewrite app_nil_r in Db.
  destruct (exec_ok ct made' PT' t f vf (CLoad c buf) w t1 _ St Hf Ib El) as ((St1 & Ft1) & _ & Hf1 & Ol). specialize (Ol Logic.I).
  assert (Ev1 : vexec ct vf (CLoad c buf) = (UProof c, vf ++ [Some (frozen ct a)])).
  { unfold vexec. cbn [vcommand]. unfold deserialize. rewrite Db. cbn [bind fst]. unfold vgive. destruct (fits_class _ _ _ _ Ff) as (kc & Ekc & Dk). unfold declared in Dk. rewrite (proj1 Pc) in Dk. subst kc. rewrite Ekc. reflexivity. }
  rewrite Ev1 in *. cbn [fst snd] in *. destruct Ol as [->|Ol]; [|contradiction]. split; [reflexivity|].
  assert (Hx : hands (s_heap t1) [x] [Some (frozen ct a)]) by (constructor; [exact (forall2_last _ _ _ _ _ Hf1)|constructor]).
  split.
  - unfold outcome. destruct (exec ct t1 [x] (CHash 0)) as [[u0 t2] f2] eqn:Eh. destruct (exec_ok ct made' PT' t1 [x] _ (CHash 0) u0 t2 f2 St1 Hx Logic.I Eh) as (_ & _ & _ & O). specialize (O Logic.I). unfold vexec in O. cbn [vcommand vhandle nth_error bind] in O.
    rewrite (frozen_hash ct bits_survive W o (SerProof c) a h Fo Sh Hh Po) in O. cbn in O. destruct O as [->|O]; [reflexivity|contradiction].
  - intros us' t2 f2 E2. destruct (run_ok ct made' PT' q t1 [x] _ us' t2 f2 St1 Hx Iq' E2) as (_ & _ & _ & O). eapply same_outs_trans; [exact Snd|]. apply same_outs_sym, O.
Qed.
End Send.
