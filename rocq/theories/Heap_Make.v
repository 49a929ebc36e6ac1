(** Proofs about Heap_Model.v, part 3: construction and deserialization. *)
From Verif Require Import Base Sha256 Serialize_Model Tx_Model Proof_Model Proof_Spec Cache_Model Construct_Proofs
  Proof_Proofs ProofHash_Proofs ProofView_Proofs Heap_Model Heap_Spec Heap_Inv Heap_Step.
From Coq Require Import ZifyBool ZifyNat ZifyN.

Section Make.
Context (ct : ctable) (made : cid -> Prop) (PT : program_table ct made).
Notation sound := (Heap_Inv.sound ct made).
Notation formed := (Heap_Inv.formed ct made).

Lemma isinst_class v w c : class_of v = class_of w -> isinst ct v c = isinst ct w c.
Proof. intros E. unfold isinst. rewrite E. reflexivity. Qed.
Lemma existsb_isinst v w u : class_of v = class_of w -> existsb (isinst ct v) u = existsb (isinst ct w) u.
Proof. intros E. induction u as [|c u IH]; cbn; [reflexivity|]. rewrite IH, (isinst_class v w); auto. Qed.

Lemma content_shadow s x f : sound s -> content (s_heap s) x f -> shadow (s_heap s) x = f \/
  exists r k, x = HRef r /\ shadow (s_heap s) x = PHash k [] /\ class_of f = Some k /\ is_proof f = true /\ match f with PFull _ _ | PHash _ _ => True | _ => False end.
Proof.
  intros S C. destruct x as [v|r]; [left; destruct (content_leaf _ _ _ C) as (-> & _); reflexivity|right].
  destruct (content_object ct made _ _ _ S C) as (o & Ho & Ec). exists r, (b_class o). cbn. rewrite Ho. split; [reflexivity|]. split; [reflexivity|]. split; [exact Ec|]. split; [unfold is_proof; rewrite Ec; reflexivity|].
  pose proof (content_not_view _ _ _ C) as N. destruct f; try discriminate Ec; auto.
Qed.

Lemma check_shadow s sr x f : sound s -> content (s_heap s) x f -> check ct sr (shadow (s_heap s) x) = check ct sr f.
Proof.
  intros S C. destruct (content_shadow s x f S C) as [->|(r & k & -> & -> & Ec & _ & P)]; [reflexivity|].
  assert (E : class_of (PHash k []) = class_of f) by (rewrite Ec; reflexivity).
  destruct sr; cbn [check]; [destruct f; try contradiction; reflexivity|reflexivity|destruct f; try contradiction; reflexivity|destruct f; try contradiction; reflexivity| |rewrite (existsb_isinst _ _ _ E); reflexivity].
  destruct (c_kind (ct c)); [reflexivity|]. rewrite (existsb_isinst _ _ _ E). reflexivity.
Qed.

(** Keyword arguments and the values they stand for. *)
Definition stands (h : list obj) (kw : list (string * hval)) (vkw : list (string * val)) : Prop :=
  Forall2 (fun b w => fst b = fst w /\ content h (snd b) (snd w)) kw vkw.

Lemma stands_assoc h kw vkw n : stands h kw vkw -> match assoc n kw with
  | Some x => exists f, assoc n vkw = Some f /\ content h x f
  | None => assoc n vkw = None
  end.
Proof.
  induction 1 as [|[m x] [m' f] kw vkw (E & C) F IH]; cbn in *; [reflexivity|]. subst m'. destruct (String.eqb m n); [eauto|exact IH].
Qed.
Lemma stands_grow h h' kw vkw : grows h h' -> stands h kw vkw -> stands h' kw vkw.
Proof. intros G. induction 1 as [|b w kw vkw (E & C) F IH]; constructor; [|exact IH]. split; [exact E|eapply content_grow; eassumption]. Qed.

Definition flag_of (sr : ser) (x : hval) : M bool :=
  match sr with SerProof _ => match x with HRef c => let! o := fetch c in ret (b_pruned o) | HLeaf _ => raise AttributeError end | _ => ret false end.
Lemma new_loop_step s name sr attrs kw : new_loop ct ((name, sr) :: attrs) kw s =
  match assoc name kw with
  | None => (Err KeyError, s)
  | Some x =>
    match check ct sr (shadow (s_heap s) x) with
    | Err e => (Err e, s)
    | Ok _ =>
      match flag_of sr x s with
      | (Err e, s1) => (Err e, s1)
      | (Ok p, s1) => match new_loop ct attrs kw s1 with (Err e, s2) => (Err e, s2) | (Ok q, s2) => (Ok ((name, x) :: fst q, p || snd q), s2) end
      end
    end
  end.
Proof.
  cbn [new_loop]. destruct (assoc name kw) as [x|]; [|reflexivity]. unfold mbind at 1, ret at 1. unfold mbind at 1.
  destruct (check ct sr (shadow (s_heap s) x)); [|reflexivity]. unfold mbind at 1. change (match sr with SerProof _ => _ | _ => ret false end) with (flag_of sr x).
  destruct (flag_of sr x s) as [[p|e] s1]; [|reflexivity]. unfold mbind. destruct (new_loop ct attrs kw s1) as [[q|e] s2]; reflexivity.
Qed.

Lemma new_loop_ok s kw vkw : sound s -> stands (s_heap s) kw vkw -> forall attrs,
  match construct_loop ct attrs vkw with
  | Ok fs => exists bs, new_loop ct attrs kw s = (Ok (bs, flags (s_heap s) attrs bs), s) /\ contents (s_heap s) (map snd bs) fs /\
      Forall2 (passed ct (s_heap s) (List.length (s_heap s))) attrs bs /\ (forall n x, In (n, x) bs -> In x (map snd kw))
  | Err e => new_loop ct attrs kw s = (Err e, s)
  end.
Proof.
  intros S K. induction attrs as [|[name sr] attrs IH]; cbn [construct_loop].
  - exists []. split; [reflexivity|]. split; [constructor|]. split; [constructor|]. contradiction.
  - rewrite new_loop_step. pose proof (stands_assoc _ _ _ name K) as A. destruct (assoc name kw) as [x|] eqn:Ex; [|rewrite A; reflexivity].
    destruct A as (f & -> & C). cbn [bind]. rewrite (check_shadow s sr x f S C).
    destruct (check ct sr f) as [[]|e] eqn:Ch; [|reflexivity]. cbn [bind].
    assert (X : match (match sr with SerProof _ => if is_proof f then Ok tt else Err AttributeError | _ => Ok tt end) with
      | Ok _ => flag_of sr x s = (Ok (flag (s_heap s) (name, sr) (name, x)), s) /\
           match x with HLeaf v => is_proof v = false /\ match sr with SerProof _ => False | _ => True end | HRef c => c < List.length (s_heap s) end
      | Err e => flag_of sr x s = (Err e, s)
      end).
    { unfold flag_of. destruct x as [v|c].
      - destruct (content_leaf _ _ _ C) as (-> & Lv). rewrite Lv. destruct sr; cbn; auto.
      - destruct (content_object ct made _ _ _ S C) as (o & Ho & Ec). pose proof (nth_error_lt _ _ _ Ho) as Lc.
        assert (P : is_proof f = true) by (unfold is_proof; rewrite Ec; reflexivity). rewrite P. unfold flag, mbind, fetch, ret. cbn [snd]. destruct sr; rewrite ?Ho; (split; [reflexivity|exact Lc]). }
    destruct (match sr with SerProof _ => if is_proof f then Ok tt else Err AttributeError | _ => Ok tt end) as [[]|e]; [|rewrite X; reflexivity].
    destruct X as (X & Px). rewrite X. cbn [bind].
    destruct (construct_loop ct attrs vkw) as [fs|e]; cbn [bind]; [|rewrite IH; reflexivity].
    destruct IH as (bs & -> & Cs & Fp & Sub). exists ((name, x) :: bs). split; [reflexivity|]. split; [constructor; assumption|].
    split; [constructor; [|exact Fp]; split; [reflexivity|]; split; [cbn [snd]; rewrite (check_shadow s sr x f S C); exact Ch|exact Px]|].
    intros n y [H|H]; [inversion H; subst; apply in_map_iff; exists (n, y); split; [reflexivity|apply assoc_in, Ex]|eauto].
Qed.

Lemma cached_fill ca c a : fills ca (fun d => if Nat.eqb d c then Some a else ca d).
Proof. intros mro. induction mro as [|d mro IH]; cbn; [auto|]. destruct (Nat.eqb d c); [discriminate|]. destruct (ca d); [auto|exact IH]. Qed.

Lemma sound_cache s ca : sound s -> fills (s_cache s) ca -> Construct_Proofs.sound ct made ca -> sound (St (s_heap s) ca).
Proof.
  intros [F K C] Fi C'. constructor; cbn [s_heap s_cache]; [|exact K|exact C']. intros r o H.
  apply (formed_grow ct made s); [apply grows_refl|exact Fi|eapply nth_error_lt, H|apply F, H].
Qed.

Lemma attrs_for_ok s c : sound s -> made c -> exists ca, attrs_for ct (s_cache s) c = (c_attrs (ct c), ca) /\ sound (St (s_heap s) ca) /\ fills (s_cache s) ca /\ cached ca (c_supers (ct c)) <> None.
Proof.
  intros S M. unfold attrs_for. destruct (cached (s_cache s) (c_supers (ct c))) as [a|] eqn:E.
  - rewrite (cached_own ct made PT _ _ _ S M E). exists (s_cache s). split; [reflexivity|]. split; [destruct s; exact S|]. split; [apply fills_refl|]. congruence.
  - eexists. split; [reflexivity|].
    assert (Fi : fills (s_cache s) (fun d => if Nat.eqb d c then Some (c_attrs (ct c)) else s_cache s d)) by apply cached_fill.
    split; [apply sound_cache; [exact S|exact Fi|]|split; [exact Fi|]].
    + intros d a. destruct (Nat.eqb_spec d c) as [->|_]; [intros H; inversion H; auto|]. apply (so_cache _ _ _ S).
    + pose proof (pt_self _ _ PT c) as Sc. unfold subclass in Sc. clear E. induction (c_supers (ct c)) as [|d l IH]; [contradiction|]. cbn.
      destruct (Nat.eqb_spec d c) as [->|N]; [discriminate|]. destruct (s_cache s d); [discriminate|]. apply IH. destruct Sc as [->|Sc]; [congruence|exact Sc].
Qed.

Lemma forall2_weaken {A B} (R Q : A -> B -> Prop) l m : (forall a b, R a b -> Q a b) -> Forall2 R l m -> Forall2 Q l m.
Proof. intros H. induction 1; constructor; auto. Qed.

Lemma hnew_ok s c kw vkw res s' : sound s -> made c -> stands (s_heap s) kw vkw -> hnew ct c kw s = (res, s') ->
  sound s' /\ follows s s' /\
  match construct ct c vkw with
  | Ok v => res = Ok (List.length (s_heap s)) /\ content (s_heap s') (HRef (List.length (s_heap s))) v /\
      exists o, s_heap s' = s_heap s ++ [o] /\ b_class o = c /\ b_orig o = None /\ (forall n x, In (n, x) (b_attrs o) -> In x (map snd kw))
  | Err e => res = Err e /\ s_heap s' = s_heap s
  end.
Proof.
  intros S M K E. unfold hnew in E. unfold mbind at 1 in E. destruct (attrs_for_ok s c S M) as (ca & Ea & S1 & Fi & Cc). rewrite Ea in E.
  unfold mbind at 1 in E. pose proof (new_loop_ok (St (s_heap s) ca) kw vkw S1 K (c_attrs (ct c))) as N. unfold construct.
  destruct (construct_loop ct (c_attrs (ct c)) vkw) as [fs|e]; cbn [bind].
  - destruct N as (bs & Hb & Cs & Fp & Sub). rewrite Hb in E. unfold alloc in E. cbn [s_heap s_cache fst snd] in *. inversion E; subst res s'. clear E.
    set (o := Obj c None bs (flags (s_heap s) (c_attrs (ct c)) bs) false None None) in *.
    assert (G : grows (s_heap s) (s_heap s ++ [o])) by apply grows_snoc.
    assert (Ho : nth_error (s_heap s ++ [o]) (List.length (s_heap s)) = Some o) by (rewrite nth_error_snoc, Nat.eqb_refl; reflexivity).
    split; [|split; [split; [exact G|exact Fi]|]].
    + apply (sound_alloc ct made (St (s_heap s) ca)); [exact S1| |split; discriminate]. unfold Heap_Inv.formed. change (b_orig o) with (@None ref). change (b_fully o) with false. change (b_class o) with c. change (b_attrs o) with bs. cbn [s_heap s_cache].
      assert (Sh : forall a b, passed ct (s_heap s) (List.length (s_heap s)) a b -> passed ct (s_heap s ++ [o]) (List.length (s_heap s)) a b).
      { intros a b (P1 & P2 & P3). split; [exact P1|]. split; [|exact P3]. rewrite (shadow_grow made (s_heap s)); [exact P2|exact G|]. destruct (snd b); [exact Logic.I|exact P3]. }
      split; [exact (forall2_weaken _ _ _ _ Sh Fp)|]. split; [|split; [exact M|exact Cc]].
      change (b_pruned o) with (flags (s_heap s) (c_attrs (ct c)) bs). clearbody o. clear -Fp G. induction Fp as [|a b la lb (P1 & P2 & P3) F IH]; [reflexivity|]. cbn. rewrite IH. f_equal. unfold flag. destruct (snd a); try reflexivity.
      destruct (snd b) as [|cx]; [reflexivity|]. destruct (nth_error (s_heap s) cx) as [q|] eqn:E; [|apply nth_error_None in E; lia]. destruct (G _ _ E) as (q' & -> & La). symmetry. apply (la_pruned _ _ La).
    + split; [reflexivity|]. split; [|exists o; auto]. change c with (b_class o). eapply Ct_full; [exact Ho|reflexivity|reflexivity|]. eapply contents_grow; [exact G|exact Cs].
  - rewrite N in E. inversion E; subst. split; [exact S1|]. split; [split; [apply grows_refl|exact Fi]|]. auto.
Qed.

(** ** Deserialization *)

(** New objects only. *)
Definition extends (h h' : list obj) : Prop := exists l, h' = h ++ l.
Lemma extends_refl h : extends h h.
Proof. exists []. rewrite app_nil_r. reflexivity. Qed.
Lemma extends_trans a b c : extends a b -> extends b c -> extends a c.
Proof. intros (l & ->) (m & ->). exists (l ++ m). rewrite app_assoc. reflexivity. Qed.

Lemma de_leaf_plain sr buf v rest : de_leaf sr buf = Ok (v, rest) -> is_proof v = false.
Proof.
  intros El. destruct sr as [pr| | | |c|cs]; cbn in El; try discriminate.
  - destruct (prim_de pr buf) as [[? ?]|]; inversion El; reflexivity.
  - destruct (bits_de buf) as [[b ?]|]; [|discriminate]. cbn in El. destruct (Bits_Model.bits_iter b); inversion El; reflexivity.
  - destruct (de_prefixed tx_de buf) as [[? ?]|]; inversion El; reflexivity.
  - destruct (de_prefixed outpoint_de buf) as [[? ?]|]; inversion El; reflexivity.
Qed.

Lemma leaf_case sr buf s : sound s -> exists r1 s1, (let! q := lift (de_leaf sr buf) in ret (HLeaf (fst q), snd q)) s = (r1, s1) /\ sound s1 /\ follows s s1 /\
  match de_leaf sr buf with Ok (v, rest) => exists x, r1 = Ok (x, rest) /\ content (s_heap s1) x v | Err e => r1 = Err e end.
Proof.
  intros S. destruct (de_leaf sr buf) as [[v rest]|e] eqn:El; unfold mbind, lift; do 2 eexists; (split; [reflexivity|]); (split; [exact S|]); (split; [apply follows_refl|]); [|reflexivity].
  exists (HLeaf v). split; [reflexivity|]. apply Ct_leaf. eapply de_leaf_plain; exact El.
Qed.

Lemma hde_loop_ok fuel (D : cid -> bytes -> M (ref * bytes)) :
  (forall c buf s res s', (forall k, declared ct c k -> made k) -> sound s -> D c buf s = (res, s') -> sound s' /\ follows s s' /\
     match de_proof ct fuel c buf with
     | Ok (v, rest) => exists r, res = Ok (r, rest) /\ content (s_heap s') (HRef r) v
     | Err e => res = Err e
     end) ->
  forall attrs buf s res s', (forall name sr k, In (name, sr) attrs -> standing ct sr k -> made k) -> sound s -> de_loop D attrs buf s = (res, s') ->
  sound s' /\ follows s s' /\
  match de_fields ct fuel attrs buf with
  | Ok (vkw, rest) => exists kw, res = Ok (kw, rest) /\ stands (s_heap s') kw vkw
  | Err e => res = Err e
  end.
Proof.
  intros HD. induction attrs as [|[name sr] attrs IH]; intros buf s res s' Hm S E.
  - inversion E; subst. split; [exact S|]. split; [apply follows_refl|]. exists []. split; [reflexivity|constructor].
  - cbn [de_loop] in E. unfold mbind at 1 in E. cbn [de_fields].
    match type of E with (match ?m s with _ => _ end) = _ => set (body := m) in E end.
    assert (X : exists r1 s1, body s = (r1, s1) /\ sound s1 /\ follows s s1 /\
      match de_val ct fuel sr buf with Ok (v, rest) => exists x, r1 = Ok (x, rest) /\ content (s_heap s1) x v | Err e => r1 = Err e end).
    { unfold body. clear E body. destruct sr as [pr| | | |c|cs]; cbn [de_val].
      1,2,3,4: apply leaf_case, S.
      - unfold mbind at 1. destruct (D c buf s) as [r1 s1] eqn:E1. destruct (HD c buf s r1 s1) as (S1 & F1 & P); [|exact S|exact E1|].
          { intros k Hk. apply (Hm name (SerProof c) k); [left; reflexivity|exact Hk]. }
          destruct (de_proof ct fuel c buf) as [[v rest]|e]; [destruct P as (r & -> & Cr)|subst r1]; do 2 eexists; (split; [reflexivity|]; split; [exact S1|]; split; [exact F1|]); [|reflexivity].
          exists (HRef r). auto.
      - unfold mbind at 1, lift. destruct (read_varuint buf) as [[i rest0]|e]; cbn [bind fst snd]; [|do 2 eexists; split; [reflexivity|]; split; [exact S|]; split; [apply follows_refl|reflexivity]].
          destruct (if (i <? N.of_nat (List.length cs))%N then nth_error cs (N.to_nat i) else None) as [c|] eqn:Ei; [|do 2 eexists; split; [reflexivity|]; split; [exact S|]; split; [apply follows_refl|reflexivity]].
          unfold mbind at 1. destruct (D c rest0 s) as [r1 s1] eqn:E1. destruct (HD c rest0 s r1 s1) as (S1 & F1 & P); [|exact S|exact E1|].
          { intros k Hk. apply (Hm name (SerUnion cs) k); [left; reflexivity|]. exists c. split; [|exact Hk]. destruct (i <? N.of_nat (List.length cs))%N; [|discriminate]. eapply nth_error_In, Ei. }
          destruct (de_proof ct fuel c rest0) as [[v rest]|e]; [destruct P as (r & -> & Cr)|subst r1]; do 2 eexists; (split; [reflexivity|]; split; [exact S1|]; split; [exact F1|]); [|reflexivity].
          exists (HRef r). auto. }
    destruct X as (r1 & s1 & E1 & S1 & F1 & P). rewrite E1 in E.
    destruct (de_val ct fuel sr buf) as [[v rest]|e]; [|subst r1; inversion E; subst; split; [exact S1|]; split; [exact F1|reflexivity]].
    destruct P as (x & -> & Cx). cbn [fst snd bind] in *. unfold mbind at 1 in E. destruct (de_loop D attrs rest s1) as [r2 s2] eqn:E2.
    destruct (IH rest s1 r2 s2) as (S2 & F2 & P); [|exact S1|exact E2|].
    { intros n sr0 k Hi Hk. apply (Hm n sr0 k); [right; exact Hi|exact Hk]. }
    destruct (de_fields ct fuel attrs rest) as [[vkw rest']|e]; cbn [bind]; [destruct P as (kw & -> & K)|subst r2]; inversion E; subst; (split; [exact S2|]; split; [eapply follows_trans; eassumption|]); [|reflexivity].
    exists ((name, x) :: kw). split; [reflexivity|]. constructor; [|exact K]. split; [reflexivity|]. eapply content_grow; [exact (proj1 F2)|exact Cx].
Qed.

Lemma hde_ok fuel : forall c buf s res s', (forall k, declared ct c k -> made k) -> sound s -> hde ct fuel c buf s = (res, s') -> sound s' /\ follows s s' /\
  match de_proof ct fuel c buf with
  | Ok (v, rest) => exists r, res = Ok (r, rest) /\ content (s_heap s') (HRef r) v
  | Err e => res = Err e
  end.
Proof.
  induction fuel as [|fuel IH]; intros c buf s res s' Hc S E; [inversion E; subst; split; [exact S|]; split; [apply follows_refl|reflexivity]|].
  rewrite de_proof_S. cbn [hde] in E. unfold mbind at 1, lift at 1 in E.
  destruct (read_bool buf) as [[b rest]|e]; cbn [bind fst snd] in *; [|inversion E; subst; split; [exact S|]; split; [apply follows_refl|reflexivity]].
  destruct b.
  - unfold mbind at 1, lift at 1 in E. destruct (fd_read 32 rest) as [[d rest']|e]; cbn [bind fst snd] in *; [|inversion E; subst; split; [exact S|]; split; [apply follows_refl|reflexivity]].
    unfold mbind, alloc in E. inversion E; subst. clear E. set (o := Obj c None [] true true (Some d) None).
    assert (Ho : nth_error (s_heap s ++ [o]) (List.length (s_heap s)) = Some o) by (rewrite nth_error_snoc, Nat.eqb_refl; reflexivity).
    assert (C : content (s_heap s ++ [o]) (HRef (List.length (s_heap s))) (PHash c d)) by (change c with (b_class o); eapply Ct_hash; [exact Ho|reflexivity..]).
    split; [|split; [split; [apply grows_snoc|apply fills_refl]|]].
    + apply sound_alloc; [exact S| |].
      * unfold Heap_Inv.formed. cbn. eauto.
      * split; [|discriminate]. intros d' Hd'. inversion Hd'; subst d'. exists (PHash c d). split; [exact C|reflexivity].
    + eexists. split; [reflexivity|exact C].
  - unfold mbind at 1 in E.
    match type of E with (match ?m s with _ => _ end) = _ => set (body := m) in E end.
    assert (X : body s = (match c_kind (ct c) with
                  | Plain => Ok (c, rest)
                  | Variant u => do (i, s) <- read_varuint rest;
                    match (if (i <? N.of_nat (List.length u))%N then nth_error u (N.to_nat i) else None) with Some uc => Ok (uc, s) | None => Err NameError end end, s)).
    { unfold body. destruct (c_kind (ct c)) as [|u]; [reflexivity|]. unfold mbind, lift. destruct (read_varuint rest) as [[i rest0]|e]; cbn [bind fst snd]; [|reflexivity].
      destruct (if (i <? N.of_nat (List.length u))%N then nth_error u (N.to_nat i) else None); reflexivity. }
    rewrite X in E. clear X body.
    assert (Du : forall uc r0, match c_kind (ct c) with
                  | Plain => Ok (c, rest)
                  | Variant u => do (i, s) <- read_varuint rest;
                    match (if (i <? N.of_nat (List.length u))%N then nth_error u (N.to_nat i) else None) with Some uc => Ok (uc, s) | None => Err NameError end end = Ok (uc, r0) -> made uc).
    { intros uc r0 Hu. apply Hc. unfold declared. destruct (c_kind (ct c)) as [|u]; [congruence|]. destruct (read_varuint rest) as [[i rest0]|e]; [|discriminate]. cbn [bind] in Hu.
      destruct (i <? N.of_nat (List.length u))%N; [|discriminate]. destruct (nth_error u (N.to_nat i)) eqn:Ei; [|discriminate]. inversion Hu; subst. eapply nth_error_In, Ei. }
    destruct (match c_kind (ct c) with Plain => _ | Variant u => _ end) as [[uc r0]|e]; cbn [bind fst snd] in *; [|inversion E; subst; split; [exact S|]; split; [apply follows_refl|reflexivity]].
    specialize (Du uc r0 eq_refl). unfold mbind at 1 in E. destruct (de_loop (hde ct fuel) (c_attrs (ct uc)) r0 s) as [r1 s1] eqn:E1.
    destruct (hde_loop_ok fuel (hde ct fuel) IH (c_attrs (ct uc)) r0 s r1 s1) as (S1 & F1 & P); [|exact S|exact E1|].
    { intros name sr k Hi Hk. exact (pt_subs _ _ PT uc name sr k Hi Hk). }
    destruct (de_fields ct fuel (c_attrs (ct uc)) r0) as [[vkw rest']|e]; cbn [bind]; [|subst r1; inversion E; subst; split; [exact S1|]; split; [exact F1|reflexivity]].
    destruct P as (kw & -> & K). cbn [fst snd] in E. unfold mbind at 1 in E. destruct (hnew ct uc kw s1) as [r2 s2] eqn:E2.
    destruct (hnew_ok s1 uc kw vkw r2 s2 S1 Du K E2) as (S2 & F2 & P2).
    destruct (construct ct uc vkw) as [v|e]; cbn [bind]; [destruct P2 as (-> & C & _)|destruct P2 as (-> & _)]; inversion E; subst; (split; [exact S2|]; split; [eapply follows_trans; eassumption|]); [|reflexivity].
    eexists. split; [reflexivity|exact C].
Qed.

Lemma load_ok c buf s res s' : (forall k, declared ct c k -> made k) -> sound s -> load ct c buf s = (res, s') -> sound s' /\ follows s s' /\
  match deserialize ct c buf with
  | Ok v => exists r, res = Ok r /\ content (s_heap s') (HRef r) v
  | Err e => res = Err e
  end.
Proof.
  intros Hc S E. unfold load, mbind in E. destruct (hde ct (Datatypes.S (List.length buf)) c buf s) as [r1 s1] eqn:E1.
  destruct (hde_ok _ _ _ _ _ _ Hc S E1) as (S1 & F1 & P). unfold deserialize, de_class.
  destruct (de_proof ct (Datatypes.S (List.length buf)) c buf) as [[v rest]|e]; cbn [bind]; [destruct P as (r & -> & C)|subst r1]; inversion E; subst; (split; [exact S1|]; split; [exact F1|]); [|reflexivity]. eauto.
Qed.

End Make.
