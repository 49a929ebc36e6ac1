(** Proofs about Heap_Model.v, part 2: pruning, attribute access, hashes. *)
From Verif Require Import Base Sha256 Serialize_Model Tx_Model Proof_Model Proof_Spec Cache_Model Construct_Proofs
  Proof_Proofs ProofHash_Proofs ProofView_Proofs Heap_Model Heap_Spec Heap_Inv.
From Coq Require Import ZifyBool ZifyNat ZifyN.

Section Step.
Context (ct : ctable) (made : cid -> Prop) (PT : program_table ct made).
Notation sound := (sound ct made).
Notation formed := (formed ct made).

Lemma fills_refl ca : fills ca ca.
Proof. intros mro H. exact H. Qed.
Lemma fills_trans a b c : fills a b -> fills b c -> fills a c.
Proof. intros A B mro H. apply B, A, H. Qed.

(** A state that follows: nothing that was fixed changes. *)
Definition follows (s s' : state) : Prop := grows (s_heap s) (s_heap s') /\ fills (s_cache s) (s_cache s').
Lemma follows_refl s : follows s s.
Proof. split; [apply grows_refl|apply fills_refl]. Qed.
Lemma follows_trans a b c : follows a b -> follows b c -> follows a c.
Proof. intros (A1 & A2) (B1 & B2). split; [eapply grows_trans; eassumption|eapply fills_trans; eassumption]. Qed.

Lemma sound_alloc s o : sound s -> formed (St (s_heap s ++ [o]) (s_cache s)) (List.length (s_heap s)) o ->
  kept ct (s_heap s ++ [o]) (List.length (s_heap s)) o -> sound (St (s_heap s ++ [o]) (s_cache s)).
Proof.
  intros [F K C] Fo Ko. constructor; cbn [s_heap s_cache]; [| |exact C]; intros r x; rewrite nth_error_snoc; destruct (Nat.eqb_spec r (List.length (s_heap s))) as [->|N]; intros H.
  - inversion H; subst. exact Fo.
  - apply (formed_grow ct made s); [apply grows_snoc|apply fills_refl|eapply nth_error_lt, H|apply F, H].
  - inversion H; subst. exact Ko.
  - eapply kept_grow; [apply grows_snoc|apply K, H].
Qed.

Lemma sound_set s r o o' : sound s -> nth_error (s_heap s) r = Some o -> later o o' ->
  formed (St (set_nth r o' (s_heap s)) (s_cache s)) r o' -> kept ct (set_nth r o' (s_heap s)) r o' -> sound (St (set_nth r o' (s_heap s)) (s_cache s)).
Proof.
  intros [F K C] H L Fo Ko. pose proof (grows_set _ _ _ _ H L) as G.
  constructor; cbn [s_heap s_cache]; [| |exact C]; intros k x; destruct (Nat.eq_dec r k) as [->|N]; intros Hk.
  - rewrite set_nth_same in Hk by (eapply nth_error_lt, H). inversion Hk; subst. exact Fo.
  - rewrite set_nth_other in Hk by exact N. apply (formed_grow ct made s); [exact G|apply fills_refl|eapply nth_error_lt, Hk|apply F, Hk].
  - rewrite set_nth_same in Hk by (eapply nth_error_lt, H). inversion Hk; subst. exact Ko.
  - rewrite set_nth_other in Hk by exact N. eapply kept_grow; [exact G|apply K, Hk].
Qed.

(** ** Every object stands for a value *)

Lemma contents_list h r xs : (forall c, c < r -> exists v, content h (HRef c) v) ->
  Forall (fun x => match x with HLeaf v => is_proof v = false | HRef c => c < r end) xs -> exists vs, contents h xs vs.
Proof.
  intros IH. induction 1 as [|x xs P _ (vs & IHx)]; [exists []; constructor|].
  destruct x as [v|c]; [exists (v :: vs); constructor; [constructor; exact P|exact IHx]|].
  destruct (IH c P) as (v & Hv). exists (v :: vs). constructor; assumption.
Qed.

Lemma passed_refs h r attrs bs : Forall2 (passed ct h r) attrs bs -> Forall (fun x => match x with HLeaf v => is_proof v = false | HRef c => c < r end) (map snd bs).
Proof. induction 1 as [|a b attrs bs (_ & _ & X) _ IH]; cbn; constructor; [|exact IH]. destruct (snd b); [apply X|exact X]. Qed.

Lemma content_ex s r o : sound s -> nth_error (s_heap s) r = Some o -> exists v, content (s_heap s) (HRef r) v.
Proof.
  intros S. revert o. induction r as [r IH] using (well_founded_induction lt_wf). intros o H.
  pose proof (so_formed _ _ _ S r o H) as F. unfold Heap_Inv.formed in F. destruct (b_orig o) as [p|] eqn:Eo.
  - destruct F as (L & _ & _ & _ & q & Hq & _). destruct (IH p L q Hq) as (v & Hv). exists v. eapply Ct_view; eassumption.
  - destruct (b_fully o) eqn:Ef.
    + destruct F as (_ & _ & d & Hd). eexists. eapply Ct_hash; eassumption.
    + destruct F as (F & _). destruct (contents_list (s_heap s) r (map snd (b_attrs o))) as (vs & Hvs).
      * intros c Lc. destruct (nth_error (s_heap s) c) as [q|] eqn:Eq; [eapply IH; eassumption|].
        apply nth_error_None in Eq. apply nth_error_lt in H. lia.
      * eapply passed_refs, F.
      * eexists. eapply Ct_full; eassumption.
Qed.

Lemma content_class s x v : sound s -> content (s_heap s) x v -> match x with
  | HLeaf _ => class_of v = None
  | HRef r => exists o, nth_error (s_heap s) r = Some o /\ class_of v = Some (b_class o)
  end.
Proof.
  intros S. induction 1 as [v L|r o p v E1 E2 C IH|r o d E1 E2 E3 E4|r o fs E1 E2 E3 C]; [unfold is_proof in L; destruct (class_of v); congruence| |eauto|eauto].
  destruct IH as (q & Hq & Hc). exists o. split; [exact E1|]. pose proof (so_formed _ _ _ S r o E1) as F. unfold Heap_Inv.formed in F. rewrite E2 in F.
  destruct F as (_ & _ & _ & _ & q' & Hq' & Ec & _). rewrite Hq in Hq'. inversion Hq'; subst. congruence.
Qed.

Lemma content_object s r v : sound s -> content (s_heap s) (HRef r) v -> exists o, nth_error (s_heap s) r = Some o /\ class_of v = Some (b_class o).
Proof. intros S H. exact (content_class s (HRef r) v S H). Qed.

Lemma passed_names h r attrs bs : Forall2 (passed ct h r) attrs bs -> map fst bs = map fst attrs.
Proof. induction 1 as [|a b attrs bs (E & _) _ IH]; cbn; congruence. Qed.

Lemma assoc_index {B} (attrs : list (string * ser)) (bs : list (string * B)) n x : map fst bs = map fst attrs -> assoc n bs = Some x ->
  exists i, attr_index attrs n = Some i /\ nth_error (map snd bs) i = Some x.
Proof.
  revert bs. induction attrs as [|[m sr] attrs IH]; intros [|[m' y] bs] E; cbn in *; try discriminate. injection E as -> E2.
  destruct (String.eqb_spec m n) as [->|N]; intros H; [inversion H; subst; exists 0; auto|].
  destruct (IH bs E2 H) as (i & -> & Hi). exists (S i). auto.
Qed.
Lemma index_assoc {B} (attrs : list (string * ser)) (bs : list (string * B)) n i : map fst bs = map fst attrs -> attr_index attrs n = Some i ->
  exists x, assoc n bs = Some x /\ nth_error (map snd bs) i = Some x.
Proof.
  revert bs i. induction attrs as [|[m sr] attrs IH]; intros [|[m' y] bs] i E; cbn in *; try discriminate. injection E as -> E2.
  destruct (String.eqb_spec m n) as [->|N]; intros H; [inversion H; subst; exists y; auto|].
  destruct (attr_index attrs n) as [j|]; [|discriminate]. inversion H; subst. destruct (IH bs j E2 eq_refl) as (x & Hx & Hj). exists x. auto.
Qed.

Lemma content_attr s r o v n x : sound s -> content (s_heap s) (HRef r) v -> nth_error (s_heap s) r = Some o -> assoc n (b_attrs o) = Some x ->
  exists c fs i f, v = PFull c fs /\ attr_index (c_attrs (ct c)) n = Some i /\ nth_error fs i = Some f /\ content (s_heap s) x f.
Proof.
  intros S C. remember (HRef r) as y eqn:Ey. revert r o x Ey.
  induction C as [v L|r o p v E1 E2 C IH|r o d E1 E2 E3 E4|r o fs E1 E2 E3 C]; intros r0 o0 x Ey H Hx; inversion Ey; subst; rewrite E1 in H; inversion H; subst o0; pose proof (so_formed _ _ _ S r0 o E1) as F; unfold Heap_Inv.formed in F; rewrite E2 in F.
  - destruct F as (_ & _ & _ & _ & q & Hq & _ & A). destruct (A n x Hx) as (y & Hy & V). destruct (IH p q y eq_refl Hq Hy) as (c & fs & i & f & -> & Hi & Hf & Cf).
    exists c, fs, i, f. do 3 (split; [auto|]). destruct y as [a|c1], x as [b|k]; cbn in V; try contradiction; [subst b; exact Cf|].
    destruct V as (ok & Hk & Ek). eapply Ct_view; eassumption.
  - rewrite E3 in F. destruct F as (F & _). rewrite F in Hx. discriminate.
  - rewrite E3 in F. destruct F as (F & _). destruct (assoc_index _ _ _ _ (passed_names _ _ _ _ F) Hx) as (i & Hi & Hxi).
    destruct (contents_nth _ _ _ C i x Hxi) as (f & Hf & Cf). exists (b_class o), fs, i, f. auto.
Qed.

Lemma NoDup_snoc {A} (l : list A) x : NoDup l -> ~ In x l -> NoDup (l ++ [x]).
Proof.
  induction 1 as [|y l N D IH]; cbn; intros H; [constructor; [tauto|constructor]|]. constructor; [|apply IH; tauto].
  intros K. apply in_app_or in K. destruct K as [K|[K|[]]]; [tauto|subst; tauto].
Qed.

(** ** prune *)

Lemma hprune_eq s r o : nth_error (s_heap s) r = Some o ->
  hprune r s = (Ok (List.length (s_heap s)), St (s_heap s ++ [Obj (b_class o) (Some r) [] true true None None]) (s_cache s)).
Proof. intros H. unfold hprune, mbind, fetch. rewrite H. reflexivity. Qed.

Lemma hprune_ok s r o v : sound s -> nth_error (s_heap s) r = Some o -> content (s_heap s) (HRef r) v ->
  let o' := Obj (b_class o) (Some r) [] true true None None in let s' := St (s_heap s ++ [o']) (s_cache s) in
  sound s' /\ follows s s' /\ content (s_heap s') (HRef (List.length (s_heap s))) v.
Proof.
  intros S H C o' s'. assert (G : grows (s_heap s) (s_heap s')) by apply grows_snoc.
  assert (E : nth_error (s_heap s') (List.length (s_heap s)) = Some o') by (cbn; rewrite nth_error_snoc, Nat.eqb_refl; reflexivity).
  split; [|split].
  - apply sound_alloc; [exact S| |split; discriminate]. unfold Heap_Inv.formed. cbn. split; [eapply nth_error_lt, H|]. do 2 (split; [reflexivity|]). split; [constructor|].
    exists o. split; [|split; [reflexivity|discriminate]]. rewrite nth_error_app1; [exact H|eapply nth_error_lt, H].
  - split; [exact G|apply fills_refl].
  - eapply Ct_view; [exact E|reflexivity|]. eapply content_grow; eassumption.
Qed.

(** ** Attributes *)

(** The exception raised for an attribute that is not there. *)
Definition missing (ca : cache) (v : val) (name : string) : exn :=
  match v with
  | PHash c _ =>
    match cached ca (c_supers (ct c)) with
    | None => TypeError
    | Some attrs => if existsb (fun a => String.eqb (fst a) name) attrs then PrunedError else AttributeError
    end
  | _ => AttributeError
  end.

Lemma attr_index_existsb attrs name : existsb (fun a : string * ser => String.eqb (fst a) name) attrs = match attr_index attrs name with Some _ => true | None => false end.
Proof. induction attrs as [|[m sr] attrs IH]; cbn; [reflexivity|]. destruct (String.eqb m name); cbn; [reflexivity|]. rewrite IH. destruct (attr_index attrs name); reflexivity. Qed.

(** With [good], the attributes of the class itself are the ones looked up. *)
Lemma cached_own s c a : sound s -> made c -> cached (s_cache s) (c_supers (ct c)) = Some a -> a = c_attrs (ct c).
Proof.
  intros S Mc H. destruct (cached_some _ _ _ H) as (d & Id & Hd). destruct (so_cache _ _ _ S d a Hd) as (-> & Md). apply (pt_apart _ _ PT c); try assumption. apply (pt_self _ _ PT).
Qed.

Definition hget_post (s : state) (r : ref) (v : val) (name : string) (res : result hval) (s' : state) : Prop :=
  match res with
  | Ok x => exists c fs i f, v = PFull c fs /\ attr_index (c_attrs (ct c)) name = Some i /\ nth_error fs i = Some f /\
      content (s_heap s') x f /\ exists o', nth_error (s_heap s') r = Some o' /\ assoc name (b_attrs o') = Some x
  | Err e => s' = s /\ e = missing (s_cache s) v name /\ match v with PFull c _ => attr_index (c_attrs (ct c)) name = None | _ => True end
  end.

Lemma hget_ok fuel : forall s r v name res s', sound s -> content (s_heap s) (HRef r) v -> r < fuel -> hget ct fuel r name s = (res, s') ->
  sound s' /\ follows s s' /\ s_cache s' = s_cache s /\
  (forall k o, r < k -> nth_error (s_heap s) k = Some o -> nth_error (s_heap s') k = Some o) /\
  hget_post s r v name res s'.
Proof.
  induction fuel as [|fuel IH]; intros s r v name res s' S C Lf E; [lia|].
  destruct (content_object _ _ _ S C) as (o & Ho & Ec). cbn [hget] in E. unfold mbind at 1, fetch at 1 in E. rewrite Ho in E.
  destruct (assoc name (b_attrs o)) as [x|] eqn:Ea.
  - inversion E; subst. split; [exact S|]. split; [apply follows_refl|]. do 2 (split; [auto|]). cbn.
    destruct (content_attr _ _ _ _ _ _ S C Ho Ea) as (c & fs & i & f & A1 & A2 & A3 & A4). exists c, fs, i, f. do 4 (split; [assumption|]). eauto.
  - pose proof (so_formed _ _ _ S r o Ho) as F. unfold Heap_Inv.formed in F. destruct (b_orig o) as [p|] eqn:Eo.
    + destruct F as (Lp & Pp & Ff & Fd & q & Hq & Ecq & Aq).
      assert (Cp : content (s_heap s) (HRef p) v). { inversion C as [|? o1 p1 ? F1 F2 F3|? o1 d1 F1 F2 F3 F4|? o1 fs1 F1 F2 F3 F4]; subst; rewrite Ho in F1; inversion F1; subst o1; congruence. }
      unfold mbind at 1 in E. destruct (hget ct fuel p name s) as [[y|e] s1] eqn:Eg.
      2:{ inversion E; subst. destruct (IH _ _ _ _ _ _ S Cp ltac:(lia) Eg) as (S1 & Fo & Ca & Fr & (-> & P)).
          split; [exact S1|]. split; [exact Fo|]. split; [exact Ca|]. split; [auto|]. split; [reflexivity|exact P]. }
      destruct (IH _ _ _ _ _ _ S Cp ltac:(lia) Eg) as (S1 & Fo & Ca & Fr & P). cbn in P.
      destruct P as (c & fs & i & f & -> & Hi & Hf & Cy & q1 & Hq1 & Hy).
      assert (Hr1 : nth_error (s_heap s1) r = Some o) by (apply Fr; [lia|exact Ho]).
      (* the value put into the view *)
      assert (X : exists x s2, match y with HLeaf v0 => ret (HLeaf v0) | HRef c0 => let! k := hprune c0 in ret (HRef k) end s1 = (Ok x, s2) /\
        sound s2 /\ follows s1 s2 /\ s_cache s2 = s_cache s1 /\ content (s_heap s2) x f /\ view_of (s_heap s2) y x /\
        (forall k o, nth_error (s_heap s1) k = Some o -> nth_error (s_heap s2) k = Some o)).
      { destruct y as [a|cy].
        - exists (HLeaf a), s1. split; [reflexivity|]. split; [exact S1|]. split; [apply follows_refl|]. split; [reflexivity|]. split; [exact Cy|]. split; [reflexivity|auto].
        - destruct (content_object _ _ _ S1 Cy) as (oy & Hoy & _). unfold mbind. rewrite (hprune_eq _ _ _ Hoy).
          destruct (hprune_ok _ _ _ _ S1 Hoy Cy) as (S2 & Fo2 & C2). do 2 eexists. split; [reflexivity|]. split; [exact S2|]. split; [exact Fo2|]. split; [reflexivity|]. split; [exact C2|]. split.
          + cbn. eexists. rewrite nth_error_snoc, Nat.eqb_refl. split; reflexivity.
          + intros k ok Hk. cbn. rewrite nth_error_app1; [exact Hk|eapply nth_error_lt, Hk]. }
      destruct X as (x & s2 & Ex & S2 & Fo2 & Ca2 & Cx & Vx & Fr2). unfold mbind at 1 in E. rewrite Ex in E.
      pose proof (Fr2 _ _ Hr1) as Hr2. unfold mbind, update in E. rewrite Hr2 in E. inversion E; subst res s'. clear E.
      set (o' := with_attr name x o) in *.
      assert (L : later o o'). { unfold o'. constructor; cbn; auto; [|intros N; congruence]. intros n z Hz. rewrite assoc_snoc, Hz. reflexivity. }
      assert (G : grows (s_heap s2) (set_nth r o' (s_heap s2))) by (eapply grows_set; eassumption).
      assert (Hr' : nth_error (set_nth r o' (s_heap s2)) r = Some o') by (apply set_nth_same; eapply nth_error_lt, Hr2).
      split; [|split; [|split; [|split]]].
      * eapply sound_set; [exact S2|exact Hr2|exact L| |].
        -- unfold Heap_Inv.formed, o'. cbn. rewrite Eo. split; [lia|]. split; [exact Pp|]. split; [destruct (b_attrs o); reflexivity|].
           split; [rewrite map_app; cbn; apply NoDup_snoc; [exact Fd|apply assoc_none; exact Ea]|].
           assert (Hq2 : exists q2, nth_error (s_heap s2) p = Some q2 /\ later q1 q2). { destruct (proj1 Fo2 _ _ Hq1) as (q2 & H2 & L2). eauto. }
           destruct Hq2 as (q2 & Hq2 & L2). exists q2. split; [rewrite set_nth_other by lia; exact Hq2|].
           assert (Hcl : b_class q2 = b_class o). { destruct (proj1 Fo _ _ Hq) as (q1' & H1' & L1'). rewrite Hq1 in H1'. inversion H1'; subst q1'. rewrite (la_class _ _ L2), (la_class _ _ L1'). exact Ecq. }
           split; [exact Hcl|]. intros n z. rewrite assoc_snoc. destruct (assoc n (b_attrs o)) as [z0|] eqn:Ez.
           ++ intros Hz. inversion Hz; subst z0. destruct (Aq n z Ez) as (y0 & Hy0 & V0). exists y0. split.
              ** apply (la_attrs _ _ L2). destruct (proj1 Fo _ _ Hq) as (q1' & H1' & L1'). rewrite Hq1 in H1'. inversion H1'; subst q1'. apply (la_attrs _ _ L1'), Hy0.
              ** eapply view_of_grow; [exact G|]. eapply view_of_grow; [exact (proj1 Fo2)|]. eapply view_of_grow; [exact (proj1 Fo)|exact V0].
           ++ destruct (String.eqb_spec name n) as [<-|]; [|discriminate]. intros Hz. inversion Hz; subst z. exists y. split; [apply (la_attrs _ _ L2), Hy|].
              eapply view_of_grow; [exact G|exact Vx].
        -- assert (Kp : kept ct (s_heap s2) r o) by (apply (so_kept _ _ _ S2), Hr2). apply (kept_grow ct _ _ r o' G). exact Kp.
      * eapply follows_trans; [exact Fo|]. eapply follows_trans; [exact Fo2|]. split; [exact G|apply fills_refl].
      * cbn [s_cache]. congruence.
      * intros k ok Hlk Hk. cbn [s_heap]. rewrite set_nth_other by lia. apply Fr2, Fr; [lia|exact Hk].
      * cbn. exists c, fs, i, f. do 3 (split; [auto|]). split; [eapply content_grow; [exact G|exact Cx]|]. exists o'. split; [exact Hr'|].
        cbn. rewrite assoc_snoc, Ea, String.eqb_refl. reflexivity.
    + (* not a view *)
      assert (E' : res = Err (missing (s_cache s) v name) /\ s' = s /\ match v with PFull c _ => attr_index (c_attrs (ct c)) name = None | _ => True end).
      { inversion C as [|? o1 p1 ? F1 F2 F3|? o1 d1 F1 F2 F3 F4|? o1 fs1 F1 F2 F3 F4]; subst; rewrite Ho in F1; inversion F1; subst o1; try congruence.
        - cbn [missing]. destruct (cached (s_cache s) (c_supers (ct (b_class o)))); inversion E; auto.
        - rewrite F3 in F. destruct F as (F & _ & M & Cc).
          destruct (cached (s_cache s) (c_supers (ct (b_class o)))) as [a|] eqn:Eca; [|congruence].
          pose proof (cached_own _ _ _ S M Eca) as ->. rewrite attr_index_existsb in E.
          destruct (attr_index (c_attrs (ct (b_class o))) name) as [i|] eqn:Ei; [|inversion E; auto].
          destruct (index_assoc _ _ _ _ (passed_names _ _ _ _ F) Ei) as (x & Hx & _). congruence. }
      destruct E' as (-> & -> & X). split; [exact S|]. split; [apply follows_refl|]. split; [reflexivity|]. split; [auto|]. cbn. auto.
Qed.

Lemma getattr_set s r o name x : nth_error (s_heap s) r = Some o -> assoc name (b_attrs o) = Some x -> getattr ct r name s = (Ok x, s).
Proof. intros H E. unfold getattr. cbn [hget]. unfold mbind, fetch. rewrite H, E. reflexivity. Qed.

(** ** Hashes *)

(** Everything but the hashes that were kept. *)
Definition erase (o : obj) : obj := Obj (b_class o) (b_orig o) (b_attrs o) (b_pruned o) (b_fully o) None None.
Definition same_shape (h h' : list obj) : Prop := map erase h' = map erase h.

Lemma shape_nth h h' r o : same_shape h h' -> nth_error h r = Some o -> exists o', nth_error h' r = Some o' /\ erase o' = erase o.
Proof.
  intros E H. assert (X : nth_error (map erase h') r = Some (erase o)) by (rewrite E; apply map_nth_error, H).
  destruct (nth_error h' r) as [o'|] eqn:H'.
  2:{ exfalso. apply nth_error_None in H'. assert (nth_error (map erase h') r = None) by (apply nth_error_None; rewrite map_length; exact H'). congruence. }
  rewrite (map_nth_error erase _ _ H') in X. exists o'. split; [reflexivity|congruence].
Qed.
Lemma shape_length h h' : same_shape h h' -> List.length h' = List.length h.
Proof. intros E. rewrite <- (map_length erase h'), E. apply map_length. Qed.
Lemma shape_set h r o o' : nth_error h r = Some o -> erase o' = erase o -> same_shape h (set_nth r o' h).
Proof. intros H E. unfold same_shape. revert r H. induction h as [|x h IH]; intros [|r] H; cbn in *; try discriminate; [inversion H; subst; congruence|]. rewrite IH; auto. Qed.

(** What a computation of hashes leaves behind. *)
Definition hashing (s s' : state) : Prop := sound s' /\ follows s s' /\ s_cache s' = s_cache s /\ same_shape (s_heap s) (s_heap s').
Lemma hashing_refl s : sound s -> hashing s s.
Proof. intros S. split; [exact S|]. split; [apply follows_refl|]. split; reflexivity. Qed.
Lemma hashing_trans a b c : hashing a b -> hashing b c -> hashing a c.
Proof. intros (A1 & A2 & A3 & A4) (B1 & B2 & B3 & B4). split; [exact B1|]. split; [eapply follows_trans; eassumption|]. split; [congruence|]. unfold same_shape in *. congruence. Qed.

Lemma as_leaf_content h x f sr : content h x f -> match sr with SerProof _ | SerUnion _ => False | _ => True end -> ser_leaf sr (as_leaf x) = ser_leaf sr f.
Proof.
  intros C Hs. destruct x as [v|r]; [destruct (content_leaf _ _ _ C) as (-> & _); reflexivity|].
  assert (P : match f with PFull _ _ | PHash _ _ => True | _ => False end).
  { remember (HRef r) as y eqn:Ey. revert r Ey. induction C as [|? ? p ? ? ? ? IH| |]; intros r0 Ey; try discriminate; try exact Logic.I. eapply IH. reflexivity. }
  destruct f; try contradiction; destruct sr; try contradiction; reflexivity.
Qed.

Lemma dh_loop_ok (H : ref -> M bytes) r :
  (forall s c w res s', sound s -> content (s_heap s) (HRef c) w -> c < r -> H c s = (res, s') -> hashing s s' /\ res = phash ct w) ->
  forall attrs bs fs s o res s', sound s -> nth_error (s_heap s) r = Some o -> (forall n x, In (n, x) bs -> assoc n (b_attrs o) = Some x) ->
  Forall2 (fun a b => fst a = fst b /\ match snd b with HLeaf _ => True | HRef c => c < r end) attrs bs -> contents (s_heap s) (map snd bs) fs ->
  dh_loop ct H r attrs s = (res, s') -> hashing s s' /\ res = hash_fields ct attrs fs.
Proof.
  intros HH. induction attrs as [|[name sr] attrs IH]; intros bs fs s o res s' S Ho A F C E; inversion F as [|? [n x] ? bs' (En & Px) F']; subst; inversion C as [|? f ? fs' Cx C']; subst.
  { inversion E; subst. split; [apply hashing_refl, S|reflexivity]. }
  cbn [fst snd map] in *. subst n. cbn [dh_loop] in E. unfold mbind at 1 in E. rewrite (getattr_set _ _ _ _ _ Ho (A name x (or_introl eq_refl))) in E.
  cbn [hash_fields]. unfold mbind at 1 in E.
  assert (X : exists r1 s1, match sr with SerProof _ | SerUnion _ => match x with HRef c => H c | HLeaf _ => raise AttributeError end
                            | _ => lift (ser_leaf sr (as_leaf x)) end s = (r1, s1) /\ hashing s s1 /\
     r1 = match sr with SerProof _ | SerUnion _ => phash ct f | _ => ser_leaf sr f end).
  { destruct sr as [pr| | | |cp|cs];
      try (eexists; exists s; split; [reflexivity|]; split; [apply hashing_refl, S|]; apply (as_leaf_content (s_heap s)); [exact Cx|exact Logic.I]).
    all: destruct x as [v|c];
      [destruct (content_leaf _ _ _ Cx) as (-> & Lv); eexists; exists s; split; [reflexivity|]; split; [apply hashing_refl, S|]; destruct v; try discriminate Lv; reflexivity|].
    all: destruct (H c s) as [r1 s1] eqn:E1; exists r1, s1; split; [reflexivity|]; apply (HH s c f r1 s1 S Cx Px E1). }
  destruct X as (r1 & s1 & E1 & Hs1 & ->). rewrite E1 in E.
  destruct (match sr with SerProof _ | SerUnion _ => phash ct f | _ => ser_leaf sr f end) as [p|e]; cbn [bind]; [|inversion E; subst; auto].
  unfold mbind at 1 in E. destruct (dh_loop ct H r attrs s1) as [r2 s2] eqn:E2.
  destruct Hs1 as (S1 & Fo1 & Ca1 & Sh1). destruct (shape_nth _ _ _ _ Sh1 Ho) as (o1 & Ho1 & Er1).
  destruct (IH bs' fs' s1 o1 r2 s2) as (Hs2 & ->); [exact S1|exact Ho1| |exact F'|eapply contents_grow; [exact (proj1 Fo1)|exact C']|exact E2|].
  { intros n y Hy. assert (b_attrs o1 = b_attrs o) as -> by (inversion Er1; reflexivity). apply A. right. exact Hy. }
  assert (Hs : hashing s s2) by (eapply hashing_trans; [|exact Hs2]; split; [exact S1|split; [exact Fo1|split; assumption]]).
  destruct (hash_fields ct attrs fs') as [q|e]; cbn [bind]; inversion E; subst; auto.
Qed.

Lemma content_full_inv s r o v : content (s_heap s) (HRef r) v -> nth_error (s_heap s) r = Some o ->
  (exists p, b_orig o = Some p /\ content (s_heap s) (HRef p) v) \/
  (exists d, b_orig o = None /\ b_fully o = true /\ b_dhash o = Some d /\ v = PHash (b_class o) d) \/
  (exists fs, b_orig o = None /\ b_fully o = false /\ contents (s_heap s) (map snd (b_attrs o)) fs /\ v = PFull (b_class o) fs).
Proof.
  intros C H. inversion C as [|? o1 p1 ? F1 F2 F3|? o1 d1 F1 F2 F3 F4|? o1 fs1 F1 F2 F3 F4]; subst; rewrite H in F1; inversion F1; subst o1; eauto 8.
Qed.

(** Keeping a hash. *)
Lemma store_ok s r o (full : bool) d v : sound s -> nth_error (s_heap s) r = Some o -> content (s_heap s) (HRef r) v ->
  (if full then phash ct v else data_hash ct v) = Ok d -> hashing s (St (set_nth r (with_hash full d o) (s_heap s)) (s_cache s)).
Proof.
  intros S Ho C Hd. assert (Er : erase (with_hash full d o) = erase o) by (destruct full; reflexivity).
  pose proof (so_kept _ _ _ S r o Ho) as (K1 & K2).
  assert (L : later o (with_hash full d o)).
  { destruct full; constructor; cbn; auto; intros d' Hd'.
    - destruct (K2 d' Hd') as (w & Cw & Ew). rewrite (content_fun _ _ _ _ Cw C) in Ew. congruence.
    - destruct (K1 d' Hd') as (w & Cw & Ew). rewrite (content_fun _ _ _ _ Cw C) in Ew. congruence. }
  assert (G : grows (s_heap s) (set_nth r (with_hash full d o) (s_heap s))) by (eapply grows_set; eassumption).
  split; [|split; [split; [exact G|apply fills_refl]|split; [reflexivity|eapply shape_set; eassumption]]].
  eapply sound_set; [exact S|exact Ho|exact L| |].
  - assert (Fo : formed (St (set_nth r (with_hash full d o) (s_heap s)) (s_cache s)) r o).
    { apply (formed_grow ct made s); [exact G|apply fills_refl|eapply nth_error_lt, Ho|apply (so_formed _ _ _ S), Ho]. }
    unfold Heap_Inv.formed in *. destruct full; cbn [with_hash b_orig b_class b_pruned b_fully b_attrs b_dhash] in *; [exact Fo|].
    destruct (b_orig o); [exact Fo|]. destruct (b_fully o); [|exact Fo]. destruct Fo as (A1 & A2 & _). eauto.
  - destruct full; split; intros d' Hd'; cbn in Hd'.
    + destruct (K1 d' Hd') as (w & Cw & Ew). exists w. split; [eapply content_grow; eassumption|exact Ew].
    + inversion Hd'; subst. exists v. split; [eapply content_grow; eassumption|exact Hd].
    + inversion Hd'; subst. exists v. split; [eapply content_grow; eassumption|exact Hd].
    + destruct (K2 d' Hd') as (w & Cw & Ew). exists w. split; [eapply content_grow; eassumption|exact Ew].
Qed.

Ltac fuel_lia := repeat match goal with H : context [if ?b then _ else _] |- _ => progress (cbn iota in H) end; cbn iota; lia.

Ltac fin Hs := do 2 eexists; split; [reflexivity|]; split; [exact Hs|reflexivity].

Lemma hhash_ok fuel : forall s r v (full : bool) res s', sound s -> content (s_heap s) (HRef r) v -> 2 * r + (if full then 2 else 1) <= fuel ->
  hhash ct fuel full r s = (res, s') -> hashing s s' /\ res = if full then phash ct v else data_hash ct v.
Proof.
  induction fuel as [|fuel IH]; intros s r v full res s' S C Lf E; [destruct full; fuel_lia|].
  destruct (content_object _ _ _ S C) as (o & Ho & Ec). cbn [hhash] in E. unfold mbind at 1, fetch at 1 in E. rewrite Ho in E.
  destruct (if full then b_hash o else b_dhash o) as [d|] eqn:Ek.
  { inversion E; subst. split; [apply hashing_refl, S|]. destruct (so_kept _ _ _ S r o Ho) as (K1 & K2).
    destruct full; [destruct (K2 d Ek) as (w & Cw & Ew)|destruct (K1 d Ek) as (w & Cw & Ew)]; rewrite <- Ew; f_equal; eapply content_fun; eassumption. }
  unfold mbind at 1 in E.
  match type of E with (match ?m s with _ => _ end) = _ => set (body := m) in E end.
  assert (X : exists r1 s1, body s = (r1, s1) /\ hashing s s1 /\ r1 = if full then phash ct v else data_hash ct v).
  { unfold body. clear E body. destruct (content_full_inv _ _ _ _ C Ho) as [(p & Eo & Cp)|[(d & Eo & Ef & Ed & ->)|(fs & Eo & Ef & Cs & ->)]]; rewrite Eo.
    - pose proof (so_formed _ _ _ S r o Ho) as F. unfold Heap_Inv.formed in F. rewrite Eo in F. destruct F as (Lp & _).
      destruct (hhash ct fuel full p s) as [r1 s1] eqn:E1. exists r1, s1. split; [reflexivity|]. apply (IH s p v full r1 s1 S Cp); [destruct full; fuel_lia|exact E1].
    - destruct full; [|congruence]. assert (Cd : content (s_heap s) (HRef r) (PHash (b_class o) d)) by exact C.
      assert (D : exists s1, hhash ct fuel false r s = (Ok d, s1) /\ hashing s s1).
      { destruct (hhash ct fuel false r s) as [r1 s1] eqn:E1. destruct (IH s r _ false r1 s1 S Cd ltac:(fuel_lia) E1) as (Hs & ->). exists s1. auto. }
      destruct D as (s1 & D & Hs). unfold phash. cbn [hashes snd]. unfold tagged. cbn [bind].
      pose proof (so_formed _ _ _ S r o Ho) as F. unfold Heap_Inv.formed in F. rewrite Eo, Ef in F. destruct F as (_ & Pr & _).
      destruct (c_hash (ct (b_class o))) as [t|].
      + unfold mbind. rewrite D. destruct t; fin Hs.
      + rewrite Pr. unfold mbind. rewrite D. fin Hs.
    - pose proof (so_formed _ _ _ S r o Ho) as F. unfold Heap_Inv.formed in F. rewrite Eo, Ef in F. destruct F as (F & Pr & _).
      destruct full.
      + unfold phash. rewrite hashes_full. cbn [snd]. destruct (c_hash (ct (b_class o))) as [t|] eqn:Et.
        * unfold mbind at 1. destruct (hhash ct fuel false r s) as [r1 s1] eqn:E1. destruct (IH s r _ false r1 s1 S C ltac:(fuel_lia) E1) as (Hs & ->).
          unfold data_hash. rewrite hashes_full. cbn [fst]. unfold tagged. rewrite Et.
          destruct (hash_fields ct (c_attrs (ct (b_class o))) fs) as [m|e]; cbn [bind]; [|fin Hs]. destruct t; fin Hs.
        * rewrite (pt_tx _ _ PT _ Et) in F, Pr. inversion F as [|? [n x] ? bs' (En & Ch & Px) F' E0 E3]. inversion F'; subst. rewrite <- E3 in *. cbn in En. subst n.
          cbn in Pr. rewrite Pr. unfold mbind at 1. rewrite (getattr_set s r o "tx" x Ho) by (rewrite <- E3; reflexivity).
          cbn [map snd] in *. inversion Cs as [|? f ? fs' Cx Cs']; subst. inversion Cs'; subst.
          destruct x as [a|c0].
          -- destruct (content_leaf _ _ _ Cx) as (-> & La). cbn in Ch. destruct a; try discriminate Ch. unfold mbind, lift, ret. cbn [bind].
             destruct (tx_GetHash t) as [hh|e]; do 2 eexists; (split; [reflexivity|]; split; [apply hashing_refl, S|reflexivity]).
          -- cbn in Ch. destruct (nth_error (s_heap s) c0); discriminate Ch.
      + unfold data_hash. rewrite hashes_full. cbn [fst]. unfold mbind at 1.
        destruct (dh_loop ct (hhash ct fuel true) r (c_attrs (ct (b_class o))) s) as [r1 s1] eqn:E1.
        edestruct (dh_loop_ok (hhash ct fuel true) r) with (bs := b_attrs o) as (Hs & Er); [|exact S|exact Ho| | |exact Cs|exact E1|].
        * intros s0 c w res0 s0' S0 C0 L0 E0. apply (IH s0 c w true res0 s0' S0 C0); [fuel_lia|exact E0].
        * intros n x Hx. apply in_assoc; [|exact Hx]. rewrite (passed_names _ _ _ _ F). apply (pt_names _ _ PT).
        * clear -F. induction F as [|a b la lb (A1 & A2 & A3) F IH]; constructor; [|exact IH]. split; [exact A1|]. destruct (snd b); [exact Logic.I|exact A3].
        * rewrite Er. destruct (hash_fields ct (c_attrs (ct (b_class o))) fs); fin Hs. }
  destruct X as (r1 & s1 & E1 & Hs & ->). rewrite E1 in E.
  destruct (if full then phash ct v else data_hash ct v) as [d|e] eqn:Ed; [|inversion E; subst; auto].
  destruct Hs as (S1 & Fo & Ca & Sh). destruct (shape_nth _ _ _ _ Sh Ho) as (o1 & Ho1 & Er).
  unfold mbind, update in E. rewrite Ho1 in E. inversion E; subst. split; [|reflexivity].
  eapply hashing_trans; [split; [exact S1|split; [exact Fo|split; [exact Ca|exact Sh]]]|]. eapply store_ok; [exact S1|exact Ho1|eapply content_grow; [exact (proj1 Fo)|exact C]|exact Ed].
Qed.

End Step.
