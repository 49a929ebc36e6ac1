(** Proofs about Proof_Model.v, part 3: pruned views. *)
From Verif Require Import Base Bits_Model Sha256 Serialize_Model Serialize_Spec Serialize_Proofs
  Tx_Model Tx_Spec Proof_Model Proof_Spec Proof_Proofs ProofHash_Proofs.
From Coq Require Import ZifyBool ZifyNat ZifyN.
Ltac Zify.zify_post_hook ::= Z.div_mod_to_equations.

(** ** [shows ct o v]: [v] is a view of [o] after some reads (or the leaf itself) *)

Inductive shows (ct : ctable) : val -> val -> Prop :=
| Sh_leaf v : is_proof v = false -> shows ct v v
| Sh_full c fs st : Forall2 (fun f s => s = None \/ exists x, s = Some x /\ shows ct f x) fs st ->
    List.length st = List.length (c_attrs (ct c)) -> shows ct (PFull c fs) (PView c (PFull c fs) st)
| Sh_hash c dh : shows ct (PHash c dh) (PView c (PHash c dh) (repeat None (List.length (c_attrs (ct c))))).

Lemma shows_hashes ct o v : shows ct o v -> hashes ct v = hashes ct o.
Proof. intros H. destruct H; reflexivity. Qed.

Lemma shows_class ct o v : shows ct o v -> class_of v = class_of o.
Proof. intros H. destruct H; reflexivity. Qed.

Lemma shows_leaf ct o v : shows ct o v -> is_proof o = false -> v = o.
Proof. intros H L. destruct H; [reflexivity|discriminate L|discriminate L]. Qed.

Lemma forall2_none {A} (R : A -> option val -> Prop) fs : (forall f, R f None) -> Forall2 R fs (repeat None (List.length fs)).
Proof. intros H. induction fs; cbn; constructor; auto. Qed.

Lemma fits_full_length ct Q sr c fs : fits ct Q sr (PFull c fs) -> List.length fs = List.length (c_attrs (ct c)).
Proof.
  intros H. remember (PFull c fs) as v eqn:E. induction H; try discriminate E.
  - inversion E; subst. symmetry. eapply fits_all_length. eassumption.
  - auto.
Qed.

Lemma prune_shows ct Q sr o : fits ct Q sr o -> shows ct o (prune ct o).
Proof.
  intros H. unfold prune. destruct o; cbn [class_of]; try (apply Sh_leaf; reflexivity).
  - rewrite <- (fits_full_length _ _ _ _ _ H). apply Sh_full; [apply forall2_none; auto|].
    rewrite repeat_length. eapply fits_full_length, H.
  - apply Sh_hash.
  - exfalso. exact (fits_not_view _ _ _ _ H).
Qed.

(** ** Fields *)

Lemma attr_index_nth attrs name i : attr_index attrs name = Some i -> exists sr, nth_error attrs i = Some (name, sr).
Proof.
  revert i. induction attrs as [|[n sr] attrs IH]; intros i H; [discriminate|]. cbn [attr_index] in H.
  destruct (String.eqb_spec n name) as [->|_]; [inversion H; subst; cbn; eauto|].
  destruct (attr_index attrs name) as [j|]; [|discriminate]. cbn in H. inversion H; subst. cbn. apply IH. reflexivity.
Qed.

Lemma attr_index_complete attrs i name sr : NoDup (map fst attrs) -> nth_error attrs i = Some (name, sr) -> attr_index attrs name = Some i.
Proof.
  revert i. induction attrs as [|[n s] attrs IH]; intros i ND H; [destruct i; discriminate|]. cbn [attr_index]. inversion ND; subst.
  destruct i as [|i]; cbn in H.
  - inversion H; subst. rewrite String.eqb_refl. reflexivity.
  - destruct (String.eqb_spec n name) as [->|_]; [|rewrite (IH i); auto].
    exfalso. apply H2. apply (in_map fst _ (name, sr)). eapply nth_error_In, H.
Qed.

Lemma attr_index_none attrs name : attr_index attrs name = None <-> forall sr, ~ In (name, sr) attrs.
Proof.
  induction attrs as [|[n s] attrs IH]; cbn [attr_index]; [split; [intros _ sr []|reflexivity]|].
  destruct (String.eqb_spec n name) as [->|N].
  - split; [discriminate|]. intros H. exfalso. apply (H s). left. reflexivity.
  - destruct (attr_index attrs name) as [i|].
    + split; [discriminate|]. intros H. exfalso. assert (Some i = None); [|discriminate]. apply IH. intros sr Hi. apply (H sr). right. exact Hi.
    + split; [|reflexivity]. intros _ sr [E|Hi]; [inversion E; congruence|]. apply (proj1 IH eq_refl sr Hi).
Qed.

Lemma fits_all_nth ct Q attrs fs i name sr : fits_all ct Q attrs fs -> nth_error attrs i = Some (name, sr) ->
  exists f, nth_error fs i = Some f /\ fits ct Q sr f.
Proof.
  intros H. revert i. induction H; intros i Hi; [destruct i; discriminate|]. destruct i as [|i]; cbn in *.
  - inversion Hi; subst. eauto.
  - apply IHfits_all, Hi.
Qed.

Lemma fits_full_all ct Q sr c fs : fits ct Q sr (PFull c fs) -> fits_all ct Q (c_attrs (ct c)) fs.
Proof. intros H. remember (PFull c fs) as v eqn:E. induction H; try discriminate E; [inversion E; subst; assumption|auto]. Qed.

Lemma set_nth_length {A} n (x : A) l : List.length (set_nth n x l) = List.length l.
Proof. revert n; induction l as [|y l IH]; intros [|n]; cbn; auto. Qed.

Lemma set_nth_same {A} n (x : A) l : n < List.length l -> nth_error (set_nth n x l) n = Some x.
Proof. revert n; induction l as [|y l IH]; intros [|n] H; cbn in *; try lia; auto. apply IH. lia. Qed.

Lemma set_nth_other {A} n m (x : A) l : n <> m -> nth_error (set_nth n x l) m = nth_error l m.
Proof. revert n m; induction l as [|y l IH]; intros [|n] [|m] H; cbn in *; try congruence; auto. Qed.

Lemma set_nth_id {A} n (x : A) l : nth_error l n = Some x -> set_nth n x l = l.
Proof. revert n; induction l as [|y l IH]; intros [|n] H; cbn in *; try congruence. rewrite IH; auto. Qed.

Lemma set_nth_twice {A} n (x y : A) l : set_nth n x (set_nth n y l) = set_nth n x l.
Proof. revert n; induction l as [|z l IH]; intros [|n]; cbn; auto. rewrite IH. reflexivity. Qed.

Lemma forall2_set {A B} (R : A -> B -> Prop) l1 l2 n a b : Forall2 R l1 l2 -> nth_error l1 n = Some a -> R a b -> Forall2 R l1 (set_nth n b l2).
Proof.
  intros H. revert n. induction H; intros [|n] Hn Hr; cbn in *; try discriminate.
  - inversion Hn; subst. constructor; assumption.
  - constructor; [assumption|]. apply IHForall2; assumption.
Qed.

Lemma forall2_nth {A B} (R : A -> B -> Prop) l1 l2 n a : Forall2 R l1 l2 -> nth_error l1 n = Some a -> exists b, nth_error l2 n = Some b /\ R a b.
Proof. intros H. revert n. induction H; intros [|n] Hn; cbn in *; try discriminate; [inversion Hn; subst; eauto|auto]. Qed.

(** ** Reading a view *)

Lemma settled_get ct Q sr v name x v' : fits ct Q sr v -> get ct v name = Ok (x, v') -> v' = v /\ exists sr', fits ct Q sr' x.
Proof.
  intros H G. destruct v; cbn [get] in G; try discriminate G.
  - destruct (attr_index _ _) as [i|] eqn:E; [|discriminate]. destruct (nth_error fs i) as [y|] eqn:E2; [|discriminate]. inversion G; subst.
    split; [reflexivity|]. destruct (attr_index_nth _ _ _ E) as (s & Es).
    destruct (fits_all_nth _ _ _ _ _ _ _ (fits_full_all _ _ _ _ _ H) Es) as (f & Ef & Hf). rewrite E2 in Ef. inversion Ef; subst. eauto.
  - destruct (attr_index _ _); discriminate.
  - exfalso. exact (fits_not_view _ _ _ _ H).
Qed.

Lemma read_settled ct Q path : forall sr v, fits ct Q sr v -> snd (read ct v path) = v.
Proof.
  induction path as [|name path IH]; intros sr v H; [reflexivity|]. cbn [read].
  destruct (get ct v name) as [[x v']|e] eqn:G; [|reflexivity]. destruct (settled_get _ _ _ _ _ _ _ H G) as (-> & sr' & Hx).
  specialize (IH sr' x Hx). destruct (read ct x path) as [r x']. cbn [snd] in *. subst x'.
  destruct v; cbn [get] in G; try discriminate G; cbn [put_back].
  - destruct (attr_index _ _) as [i|]; [|discriminate]. destruct (nth_error fs i) as [y|] eqn:E2; [|discriminate]. inversion G; subst.
    rewrite set_nth_id; [reflexivity|exact E2].
  - destruct (attr_index _ _); discriminate.
  - exfalso. exact (fits_not_view _ _ _ _ H).
Qed.

(** Reading one attribute of a view of a complete proof. *)
Lemma view_get ct Q sr c fs st name i : wf_table ct -> fits ct Q sr (PFull c fs) -> shows ct (PFull c fs) (PView c (PFull c fs) st) ->
  attr_index (c_attrs (ct c)) name = Some i ->
  exists f x, nth_error fs i = Some f /\ (exists sr', fits ct Q sr' f) /\ shows ct f x /\
    get ct (PFull c fs) name = Ok (f, PFull c fs) /\
    get ct (PView c (PFull c fs) st) name = Ok (x, PView c (PFull c fs) (set_nth i (Some x) st)) /\
    (nth_error st i = Some (Some x) \/ (nth_error st i = Some None /\ x = prune ct f)).
Proof.
  intros W H S Ei. destruct (attr_index_nth _ _ _ Ei) as (s & Es).
  destruct (fits_all_nth _ _ _ _ _ _ _ (fits_full_all _ _ _ _ _ H) Es) as (f & Ef & Hf).
  inversion S as [|? ? ? HF HL|]; subst.
  destruct (forall2_nth _ _ _ _ _ HF Ef) as (s0 & Es0 & [->|(x & -> & Hx)]).
  - exists f, (prune ct f). split; [exact Ef|]. split; [eauto|]. split; [eapply prune_shows, Hf|].
    assert (G : get ct (PFull c fs) name = Ok (f, PFull c fs)) by (cbn [get]; rewrite Ei, Ef; reflexivity).
    split; [exact G|]. split; [|right; auto]. cbn [get]. rewrite Ei, Es0, Ef. reflexivity.
  - exists f, x. split; [exact Ef|]. split; [eauto|]. split; [exact Hx|].
    split; [cbn [get]; rewrite Ei, Ef; reflexivity|]. split; [|left; exact Es0]. cbn [get]. rewrite Ei, Es0.
    rewrite set_nth_id by exact Es0. reflexivity.
Qed.

Lemma shows_set ct c fs st i f x : shows ct (PFull c fs) (PView c (PFull c fs) st) -> nth_error fs i = Some f -> shows ct f x ->
  shows ct (PFull c fs) (PView c (PFull c fs) (set_nth i (Some x) st)).
Proof.
  intros S Ef Hx. inversion S as [|? ? ? HF HL|]; subst. apply Sh_full; [|rewrite set_nth_length; exact HL].
  eapply forall2_set; [exact HF|exact Ef|right; eauto].
Qed.

Definition same_result (ct : ctable) (r1 r2 : result val) : Prop :=
  match r1, r2 with Ok y, Ok x => shows ct y x | Err e, Err e' => e = e' | _, _ => False end.

Lemma read_shows ct Q path : wf_table ct -> forall sr o v, fits ct Q sr o -> shows ct o v ->
  shows ct o (snd (read ct v path)) /\ same_result ct (fst (read ct o path)) (fst (read ct v path)).
Proof.
  intros W. induction path as [|name path IH]; intros sr o v H S; [cbn; auto|]. cbn [read].
  destruct S as [v L|c fs st HF HL|c dh].
  - destruct v; try discriminate L; cbn; split; auto; apply Sh_leaf; reflexivity.
  - destruct (attr_index (c_attrs (ct c)) name) as [i|] eqn:Ei.
    + destruct (view_get ct Q sr c fs st name i W H (Sh_full ct c fs st HF HL) Ei) as (f & x & Ef & (sr' & Hf) & Hx & G1 & G2 & _).
      rewrite G1, G2. destruct (IH sr' f x Hf Hx) as (S' & R). pose proof (read_settled ct Q path sr' f Hf) as Ff.
      destruct (read ct f path) as [r1 f']. destruct (read ct x path) as [r2 x']. cbn [fst snd] in *. split; [|exact R].
      cbn [put_back]. rewrite Ei, set_nth_twice. eapply shows_set; [apply Sh_full; assumption|exact Ef|exact S'].
    + assert (get ct (PFull c fs) name = Err AttributeError) as -> by (cbn [get]; rewrite Ei; reflexivity).
      assert (get ct (PView c (PFull c fs) st) name = Err AttributeError) as -> by (cbn [get]; rewrite Ei; reflexivity).
      cbn. split; [apply Sh_full; assumption|reflexivity].
  - destruct (attr_index (c_attrs (ct c)) name) as [i|] eqn:Ei.
    + assert (get ct (PHash c dh) name = Err PrunedError) as -> by (cbn [get]; rewrite Ei; reflexivity).
      assert (get ct (PView c (PHash c dh) (repeat None (List.length (c_attrs (ct c))))) name = Err PrunedError) as ->.
      { cbn [get]. rewrite Ei. destruct (attr_index_nth _ _ _ Ei) as (s & Es).
        assert (i < List.length (c_attrs (ct c))) by (apply nth_error_Some; congruence).
        rewrite nth_error_repeat by assumption. reflexivity. }
      cbn. split; [apply Sh_hash|reflexivity].
    + assert (get ct (PHash c dh) name = Err AttributeError) as -> by (cbn [get]; rewrite Ei; reflexivity).
      assert (get ct (PView c (PHash c dh) (repeat None (List.length (c_attrs (ct c))))) name = Err AttributeError) as -> by (cbn [get]; rewrite Ei; reflexivity).
      cbn. split; [apply Sh_hash|reflexivity].
Qed.

(** ** Serializing a view *)

Fixpoint after_fields (ct : ctable) (o : val) (attrs : list (string * ser)) (st : list (option val)) : list (option val) :=
  match attrs, st with
  | (name, _) :: attrs', s :: st' =>
    match s with
    | Some f => Some (after_ser ct f)
    | None => match peek ct o name with Ok f => Some (prune ct f) | Err _ => None end
    end :: after_fields ct o attrs' st'
  | _, st' => st'
  end.

Lemma after_ser_view ct c o st : after_ser ct (PView c o st) =
  if forallb is_none st then PView c o st else PView c o (after_fields ct o (c_attrs (ct c)) st).
Proof.
  cbn [after_ser]. destruct (forallb is_none st); [reflexivity|]. f_equal. generalize (c_attrs (ct c)) as attrs.
  induction st as [|s st IH]; intros [|[n sr] attrs]; try reflexivity. cbn [after_fields]. rewrite <- IH. reflexivity.
Qed.

(** Position by position, [attrs] and [fs] are those of a proof. *)
Definition field_of (ct : ctable) (o : val) (attrs : list (string * ser)) (fs : list val) : Prop :=
  forall i name sr f, nth_error attrs i = Some (name, sr) -> nth_error fs i = Some f -> peek ct o name = Ok f.

Lemma field_of_full ct c fs : wf_table ct -> field_of ct (PFull c fs) (c_attrs (ct c)) fs.
Proof.
  intros W i name sr f Ha Hf. unfold peek. cbn [get]. rewrite (attr_index_complete _ _ _ _ (wf_names ct W c) Ha), Hf. reflexivity.
Qed.

Lemma field_of_tl ct o a attrs f fs : field_of ct o (a :: attrs) (f :: fs) -> field_of ct o attrs fs.
Proof. intros H i name sr x Ha Hx. apply (H (S i) name sr x); assumption. Qed.

Lemma forallb_none_repeat n : forallb is_none (repeat (@None val) n) = true.
Proof. induction n; cbn; auto. Qed.

Lemma after_ser_shows ct Q : wf_table ct -> forall o sr v, fits ct Q sr o -> shows ct o v -> shows ct o (after_ser ct v).
Proof.
  intros W. induction o as [pv|bl|t0|o0|c fs IH|c dh|c0 o0 st0 IHo0 IHst0] using val_ind'; intros sr v H S; inversion S as [? L|? ? ? HF HL|]; subst; try discriminate L;
    try (cbn; apply Sh_leaf; reflexivity).
  - rewrite after_ser_view. destruct (forallb is_none st); [exact S|].
    pose proof (fits_full_all _ _ _ _ _ H) as FA.
    enough (Forall2 (fun f s => s = None \/ exists x, s = Some x /\ shows ct f x) fs (after_fields ct (PFull c fs) (c_attrs (ct c)) st)
            /\ List.length (after_fields ct (PFull c fs) (c_attrs (ct c)) st) = List.length st) as [A B].
    { apply Sh_full; [exact A|congruence]. }
    pose proof (field_of_full ct c fs W) as FO. clear S H. revert FO FA HL HF IH. generalize (PFull c fs) as o. generalize (c_attrs (ct c)) as attrs.
    intros attrs o FO FA HL HF IH. revert st HF HL. induction FA as [|name s attrs f fs Hf Hfs IHa]; intros st HF HL.
    + inversion HF; subst. cbn. auto.
    + inversion HF as [|? s0 ? st' R HF']; subst. inversion IH as [|? ? IHf IHfs]; subst. cbn in HL.
      destruct (IHa (field_of_tl _ _ _ _ _ _ FO) IHfs st' HF' ltac:(lia)) as [A B]. cbn [after_fields]. split; [|cbn; lia].
      constructor; [|exact A]. right. destruct R as [->|(x & -> & Hx)].
      * rewrite (FO 0 name s f eq_refl eq_refl). eexists. split; [reflexivity|]. eapply prune_shows, Hf.
      * eexists. split; [reflexivity|]. eapply IHf; eassumption.
  - rewrite after_ser_view, forallb_none_repeat. apply Sh_hash.
Qed.

Lemma step_shows ct Q : wf_table ct -> forall sr o v x, fits ct Q sr o -> shows ct o v -> shows ct o (step ct v x).
Proof.
  intros W sr o v [path|] H S; cbn [step].
  - eapply read_shows; eassumption.
  - eapply after_ser_shows; eassumption.
Qed.

Lemma steps_shows ct Q : wf_table ct -> forall os sr o v, fits ct Q sr o -> shows ct o v -> shows ct o (steps ct v os).
Proof.
  intros W. induction os as [|x os IH]; intros sr o v H S; [exact S|]. unfold steps. cbn [fold_left].
  eapply IH; [exact H|]. eapply step_shows; eassumption.
Qed.

(** ** What hides behind a hash *)

Fixpoint freeze_fields (ct : ctable) (fs : list val) (st : list (option val)) : list val :=
  match fs, st with
  | f :: fs', s :: st' => match s with Some x => frozen ct x | None => sealed ct f end :: freeze_fields ct fs' st'
  | _, _ => []
  end.

Lemma frozen_view ct c k fs st : frozen ct (PView c (PFull k fs) st) =
  if forallb is_none st then PHash c (dhash ct (PFull k fs)) else PFull c (freeze_fields ct fs st).
Proof.
  cbn [frozen]. destruct (forallb is_none st); [reflexivity|]. f_equal. revert st.
  induction fs as [|f fs IH]; intros [|s st]; try reflexivity. cbn [freeze_fields]. rewrite <- IH. reflexivity.
Qed.

Lemma frozen_class ct o v : shows ct o v -> class_of (frozen ct v) = class_of o.
Proof.
  intros S. destruct S as [v L|c fs st HF HL|c dh]; [destruct v; try discriminate L; reflexivity| |].
  - rewrite frozen_view. destruct (forallb is_none st); reflexivity.
  - cbn [frozen]. rewrite forallb_none_repeat. reflexivity.
Qed.

Lemma sealed_class ct v : class_of (sealed ct v) = class_of v.
Proof. destruct v; reflexivity. Qed.

(** The hash of every sub-proof exists when that of the proof does. *)
Lemma parts_nth ct attrs fs ps i a f : parts ct attrs fs ps -> nth_error attrs i = Some a -> nth_error fs i = Some f -> exists p, part ct a f p.
Proof. intros H. revert i. induction H; intros [|i] Ha Hf; cbn in *; try discriminate; [inversion Ha; inversion Hf; subst; eauto|eauto]. Qed.

Lemma phash_parts ct Q sr c fs h : wf_table ct -> fits ct Q sr (PFull c fs) -> phash ct (PFull c fs) = Ok h -> exists ps, parts ct (c_attrs (ct c)) fs ps.
Proof.
  intros W H P. destruct (c_hash (ct c)) as [[t|]|] eqn:E.
  - apply (phash_tag ct (PFull c fs) c t h eq_refl E I) in P. destruct P as (d & D & _). apply data_hash_full in D. destruct D as (ps & Hp & _). eauto.
  - unfold phash in P. rewrite hashes_full in P. cbn [snd] in P. rewrite E in P. unfold tagged in P. rewrite E in P. destruct (hash_fields _ _ _); discriminate.
  - destruct (wf_tx_class ct W c E) as (_ & name & Ea). pose proof (fits_full_all _ _ _ _ _ H) as FA. rewrite Ea in *.
    inversion FA as [|? ? ? f fs' Hf Hfs]; subst. inversion Hfs; subst. inversion Hf as [| |? Hwt| | | |]; subst.
    destruct (prefixed_codec tx_ser Tx_Model.tx_de wf_tx Tx_Proofs.tx_codec t Hwt) as (e & Ee & _).
    exists [e]. constructor; [exact Ee|constructor].
Qed.

Lemma phash_data ct Q sr v h : wf_table ct -> fits ct Q sr v -> phash ct v = Ok h -> exists d, data_hash ct v = Ok d /\ List.length d = 32.
Proof.
  intros W H P. assert (L : is_proof v = true) by (destruct v; try reflexivity; discriminate P).
  destruct v; try discriminate L.
  - destruct (phash_parts ct Q sr c fs h W H P) as (ps & Hp). exists (sha256 (concat ps)). split; [apply data_hash_full; eauto|apply sha256_length].
  - exists dh. split; [reflexivity|]. remember (PHash c dh) as v eqn:E. clear -H E. induction H; try discriminate E; [inversion E; subst; assumption|auto].
  - exfalso. exact (fits_not_view _ _ _ _ H).
Qed.

Definition all_hashed (ct : ctable) (attrs : list (string * ser)) (fs : list val) : Prop :=
  forall i a f, nth_error attrs i = Some a -> nth_error fs i = Some f -> is_proof f = true -> exists h, phash ct f = Ok h.

Lemma phash_sub ct Q sr c fs h : wf_table ct -> fits ct Q sr (PFull c fs) -> phash ct (PFull c fs) = Ok h -> all_hashed ct (c_attrs (ct c)) fs.
Proof.
  intros W H P i [name s] f Ha Hf L. destruct (phash_parts ct Q sr c fs h W H P) as (ps & Hp).
  destruct (parts_nth _ _ _ _ _ _ _ Hp Ha Hf) as (p & Pp). unfold part in Pp. cbn [snd] in Pp.
  destruct (fits_all_nth _ _ _ _ _ _ _ (fits_full_all _ _ _ _ _ H) Ha) as (f' & Ef & Ff). rewrite Hf in Ef. inversion Ef; subst f'.
  destruct s; try (exists p; exact Pp); exfalso; inversion Ff; subst; discriminate L.
Qed.

Lemma all_hashed_tl ct a attrs f fs : all_hashed ct (a :: attrs) (f :: fs) -> all_hashed ct attrs fs.
Proof. intros H i x y Ha Hy. apply (H (S i) x y); assumption. Qed.

Lemma dhash_ok ct v d : data_hash ct v = Ok d -> dhash ct v = d.
Proof. unfold dhash. intros ->. reflexivity. Qed.

(** ** Bytes of a view are the bytes of its frozen form *)

Fixpoint ser_view_fields (ct : ctable) (o : val) (attrs : list (string * ser)) (st : list (option val)) : result bytes :=
  match attrs, st with
  | [], [] => Ok []
  | (name, sr) :: attrs', s :: st' =>
    do x <- match s with
            | Some f => ser_val ct sr f
            | None =>
              do f <- peek ct o name;
              let b := if is_proof f then do dh <- data_hash ct f; Ok (xff :: dh) else Err AttributeError in
              match sr with
              | SerProof _ => b
              | SerUnion cs => ser_union ct cs f b
              | _ => ser_leaf sr f
              end
            end;
    do r <- ser_view_fields ct o attrs' st'; Ok (x ++ r)
  | _, _ => Err AttributeError
  end.

Lemma ser_view ct c o st : ser_proof ct (PView c o st) =
  if forallb is_none st then do dh <- data_hash ct o; Ok (xff :: dh)
  else do ix <- ser_variant ct (PView c o st); do body <- ser_view_fields ct o (c_attrs (ct c)) st; Ok (x00 :: ix ++ body).
Proof.
  cbn [ser_proof]. destruct (forallb is_none st); [reflexivity|].
  match goal with |- bind _ ?k = _ => assert (E : forall st attrs, (fix go (attrs : list (string * ser)) (st : list (option val)) {struct st} : result bytes :=
                    match attrs, st with
                    | [], [] => Ok []
                    | (name, sr) :: attrs', s :: st' =>
                      do x <- match s with
                              | Some f =>
                                match sr with
                                | SerProof _ => ser_proof ct f
                                | SerUnion cs => ser_union ct cs f (ser_proof ct f)
                                | _ => ser_leaf sr f
                                end
                              | None =>
                                do f <- peek ct o name;
                                let b := if is_proof f then do dh <- data_hash ct f; Ok (xff :: dh) else Err AttributeError in
                                match sr with
                                | SerProof _ => b
                                | SerUnion cs => ser_union ct cs f b
                                | _ => ser_leaf sr f
                                end
                              end;
                      do r <- go attrs' st'; Ok (x ++ r)
                    | _, _ => Err AttributeError
                    end) attrs st = ser_view_fields ct o attrs st) end.
  { intros l. induction l as [|s l IH]; intros [|[n sr] attrs]; try reflexivity. cbn [ser_view_fields]. rewrite <- IH. reflexivity. }
  rewrite E. reflexivity.
Qed.

Lemma union_index_class ct cs v w : class_of v = class_of w -> union_index ct cs v = union_index ct cs w.
Proof. intros E. induction cs as [|c cs IH]; [reflexivity|]. cbn. unfold isinst. rewrite E, IH. reflexivity. Qed.

Lemma ser_variant_class ct v w : class_of v = class_of w -> ser_variant ct v = ser_variant ct w.
Proof.
  intros E. unfold ser_variant. rewrite E. destruct (class_of w) eqn:Ew; [|reflexivity]. destruct (c_kind _) as [|u]; [reflexivity|].
  rewrite (union_index_class ct u v w) by congruence. reflexivity.
Qed.

Lemma ser_frozen ct Q : wf_table ct -> forall o sr v h, fits ct Q sr o -> shows ct o v -> (is_proof o = true -> phash ct o = Ok h) ->
  ser_val ct sr v = ser_val ct sr (frozen ct v).
Proof.
  intros W.
  assert (K : forall o sr v, fits ct Q sr o -> shows ct o v -> ser_proof ct v = ser_proof ct (frozen ct v) -> ser_val ct sr v = ser_val ct sr (frozen ct v)).
  { intros o sr v H S E. destruct (is_proof o) eqn:L.
    - destruct sr; cbn [ser_val]; try exact E; try (inversion H; subst; discriminate L).
      unfold ser_union. rewrite E. erewrite (union_index_class ct cs v (frozen ct v)); [reflexivity|].
      rewrite (frozen_class _ _ _ S). eapply shows_class, S.
    - rewrite (shows_leaf _ _ _ S L). destruct o; try discriminate L; reflexivity. }
  induction o as [pv|bl|t0|o0|c fs IH|c dh|c0 o0 st0 IHo0 IHst0] using val_ind'; intros sr v h H S P; (eapply K; [exact H|exact S|]);
    inversion S as [? L|? ? ? HF HL|]; subst; try discriminate L; try reflexivity.
  - specialize (P eq_refl). rewrite frozen_view, ser_view. destruct (forallb is_none st) eqn:EN.
    + destruct (phash_data ct Q sr _ h W H P) as (d & D & _). rewrite D. cbn [bind ser_proof]. rewrite (dhash_ok _ _ _ D). reflexivity.
    + rewrite ser_proof_full. rewrite (ser_variant_class ct (PView c (PFull c fs) st) (PFull c (freeze_fields ct fs st)) eq_refl).
      destruct (ser_variant _ _); cbn [bind]; [|reflexivity].
      enough (ser_view_fields ct (PFull c fs) (c_attrs (ct c)) st = ser_fields ct (c_attrs (ct c)) (freeze_fields ct fs st)) as -> by reflexivity.
      pose proof (fits_full_all _ _ _ _ _ H) as FA. pose proof (field_of_full ct c fs W) as FO. pose proof (phash_sub ct Q sr c fs h W H P) as AH.
      clear S H P EN K. revert FO AH. generalize (PFull c fs) as o. revert FA HL HF IH. generalize (c_attrs (ct c)) as attrs.
      intros attrs FA HL HF IH o FO AH. revert st HF HL. induction FA as [|name s attrs f fs Hf Hfs IHa]; intros st HF HL.
      * inversion HF; subst. reflexivity.
      * inversion HF as [|? s0 ? st' R HF']; subst. inversion IH as [|? ? IHf IHfs]; subst. cbn in HL.
        specialize (IHa IHfs (field_of_tl _ _ _ _ _ _ FO) (all_hashed_tl _ _ _ _ _ AH) st' HF' ltac:(lia)).
        cbn [ser_view_fields freeze_fields ser_fields]. rewrite IHa. clear IHa.
        assert (HH : is_proof f = true -> exists h, phash ct f = Ok h) by (apply (AH 0 _ _ eq_refl eq_refl)).
        destruct R as [->|(x & -> & Hx)].
        -- rewrite (FO 0 name s f eq_refl eq_refl). cbn [bind]. destruct (is_proof f) eqn:L.
           ++ destruct (HH eq_refl) as (hf & Hh). destruct (phash_data ct Q s f hf W Hf Hh) as (d & D & _). rewrite D. cbn [bind].
              assert (EU : forall cs b, ser_union ct cs f b = ser_union ct cs (sealed ct f) b) by
                (intros cs b; unfold ser_union; rewrite (union_index_class ct cs f (sealed ct f)); [reflexivity|rewrite sealed_class; reflexivity]).
              assert (ES : ser_proof ct (sealed ct f) = Ok (xff :: d)) by
                (unfold sealed; destruct (class_of f) eqn:Ek; [cbn [ser_proof]; rewrite (dhash_ok _ _ _ D); reflexivity|unfold is_proof in L; rewrite Ek in L; discriminate]).
              destruct s; try (inversion Hf; subst; discriminate L); cbn [ser_val]; [rewrite ES; reflexivity|rewrite EU, ES; reflexivity].
           ++ assert (sealed ct f = f) as -> by (destruct f; try discriminate L; reflexivity).
              destruct s; try reflexivity; [rewrite (fits_proof _ _ _ _ Hf) in L; discriminate|].
              inversion Hf as [| | | | | |? ? ? Hc0 Hf0]; subst. rewrite (fits_proof _ _ _ _ Hf0) in L. discriminate.
        -- destruct (is_proof f) eqn:L.
           ++ destruct (HH eq_refl) as (hf & Hh). rewrite (IHf s x hf Hf Hx (fun _ => Hh)). reflexivity.
           ++ rewrite (IHf s x [] Hf Hx); [reflexivity|congruence].
  - rewrite ser_view, forallb_none_repeat. cbn [frozen]. rewrite forallb_none_repeat. cbn. reflexivity.
Qed.

(** ** Hash of the frozen form *)

Lemma frozen_hash ct Q : wf_table ct -> forall o sr v h, fits ct Q sr o -> shows ct o v -> phash ct o = Ok h ->
  pruned_only (tagged_class ct) (frozen ct v) -> phash ct (frozen ct v) = Ok h.
Proof.
  intros W. induction o as [pv|bl|t0|o0|c fs IH|c dh|c0 o0 st0 IHo0 IHst0] using val_ind'; intros sr v h H S P T; try discriminate P;
    inversion S as [? L|? ? ? HF HL|]; subst; try discriminate L.
  - rewrite frozen_view in *. destruct (forallb is_none st) eqn:EN.
    + inversion T as [? Hx| |? ? (t & Ht)]; subst; [discriminate Hx|]. destruct (phash_data ct Q sr _ h W H P) as (d & D & _).
      apply (phash_tag ct (PFull c fs) c t h eq_refl Ht I) in P. destruct P as (d' & D' & ->). rewrite D in D'. inversion D'; subst d'.
      rewrite (dhash_ok _ _ _ D). apply (phash_tag ct (PHash c d) c t _ eq_refl Ht I). exists d. split; reflexivity.
    + inversion T as [? Hx|? ? TF|]; subst; [discriminate Hx|].
      assert (PF : forall ps, parts ct (c_attrs (ct c)) fs ps -> parts ct (c_attrs (ct c)) (freeze_fields ct fs st) ps).
      { pose proof (fits_full_all _ _ _ _ _ H) as FA. clear S H P EN T. revert FA HL HF IH TF. generalize (c_attrs (ct c)) as attrs.
        intros attrs FA HL HF IH TF ps PS. revert st HF HL TF ps PS. induction FA as [|name s attrs f fs Hf Hfs IHa]; intros st HF HL TF ps PS.
        - inversion HF; subst. exact PS.
        - inversion HF as [|? s0 ? st' R HF']; subst. inversion IH as [|? ? IHf IHfs]; subst. cbn in HL. inversion PS as [|? ? ? ? p ps' Pp Pps]; subst.
          cbn [freeze_fields] in TF. inversion TF as [|? ? TF1 TF2]; subst. cbn [freeze_fields]. constructor; [|apply IHa; auto].
          assert (G : is_proof f = true -> phash ct f = Ok p -> phash ct (match s0 with Some x => frozen ct x | None => sealed ct f end) = Ok p).
          { intros Lf Hp. destruct R as [->|(x & -> & Hx)].
            - unfold sealed in *. destruct (class_of f) as [k|] eqn:Ek; [|unfold is_proof in Lf; rewrite Ek in Lf; discriminate].
              inversion TF1 as [? Hy| |? ? (t & Ht)]; subst; [discriminate Hy|].
              destruct (phash_data ct Q s _ p W Hf Hp) as (d & D & _). apply (phash_tag ct f k t p Ek Ht (fits_not_view _ _ _ _ Hf)) in Hp.
              destruct Hp as (d' & D' & ->). rewrite D in D'. inversion D'; subst d'. rewrite (dhash_ok _ _ _ D).
              apply (phash_tag ct (PHash k d) k t _ eq_refl Ht I). exists d. split; reflexivity.
            - eapply IHf; eassumption. }
          destruct (is_proof f) eqn:L.
          + unfold part in *. cbn [snd] in *. destruct s; try (inversion Hf; subst; discriminate L); apply G; auto.
          + assert ((match s0 with Some x => frozen ct x | None => sealed ct f end) = f) as ->; [|exact Pp].
            destruct R as [->|(x & -> & Hx)]; [destruct f; try discriminate L; reflexivity|].
            rewrite (shows_leaf _ _ _ Hx L). destruct f; try discriminate L; reflexivity. }
      destruct (c_hash (ct c)) as [[t|]|] eqn:E.
      * apply (phash_tag ct (PFull c fs) c t h eq_refl E I) in P. destruct P as (d & D & ->). apply data_hash_full in D. destruct D as (ps & Hp & ->).
        apply (phash_tag ct (PFull c (freeze_fields ct fs st)) c t _ eq_refl E I). exists (sha256 (concat ps)). split; [|reflexivity].
        apply data_hash_full. eauto.
      * unfold phash in P. rewrite hashes_full in P. cbn [snd] in P. rewrite E in P. unfold tagged in P. rewrite E in P. destruct (hash_fields _ _ _); discriminate.
      * destruct (wf_tx_class ct W c E) as (_ & name & Ea). pose proof (fits_full_all _ _ _ _ _ H) as FA. rewrite Ea in *.
        inversion FA as [|? ? ? f fs' Hf Hfs]; subst. inversion Hfs; subst. inversion Hf; subst.
        inversion HF as [|? s0 ? st' R HF']; subst. inversion HF'; subst. cbn [freeze_fields].
        assert ((match s0 with Some x => frozen ct x | None => sealed ct (VTx t) end) = VTx t) as ->.
        { destruct R as [->|(x & -> & Hx)]; [reflexivity|]. rewrite (shows_leaf _ _ _ Hx eq_refl). reflexivity. }
        exact P.
  - cbn [frozen] in *. rewrite forallb_none_repeat in *. exact P.
Qed.
