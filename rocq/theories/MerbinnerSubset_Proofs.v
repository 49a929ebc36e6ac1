From Coq Require Import ZifyBool ZifyNat ZifyN.
From Verif Require Import Base Sha256 Serialize_Model Serialize_Spec Serialize_Proofs Tx_Model Tx_Spec Tx_Proofs Proof_Model Proof_Spec Proof_Proofs ProofHash_Proofs Merbinner_Model Merbinner_Spec Merbinner_Proofs MerbinnerHash_Proofs.

Section Subset.
Context (ct : ctable) (M : mbt_classes) (ks vs : ser) (k2p : val -> list bool) (K : val -> Prop) (n : nat).
Context (W : wf_table ct) (T : wf_tags ct) (I : is_mbt ct M ks vs) (G : good_keys ct k2p K n).

Local Notation radix := (radix k2p K).
Local Notation tree := (tree k2p K).
Local Notation pre := (pre k2p).

Definition fine_tree (t : mbt) : Prop := forall k v, In (k, v) (entries t) -> entry_fine ct ks vs k v.
Lemma fine_inner p l r : fine_tree (TInner p l r) -> fine_tree l /\ fine_tree r.
Proof. intros F. split; intros k v H; apply F; cbn; apply in_or_app; auto. Qed.

Lemma three_tags c : In c [b_empty M; b_leaf M; b_inner M] -> exists t, c_hash (ct c) = HTag (Some t).
Proof.
  intros Hc. pose proof (mb_distinct _ _ _ _ I) as ND. inversion ND as [|? ? _ ND1]; subst. inversion ND1 as [|? ? N2 ND2]; subst. inversion ND2 as [|? ? N3 _]; subst.
  assert (D : forall c, In c [b_empty M; b_leaf M; b_inner M] -> declared ct (b_base M) c) by (intros x Hx; unfold declared; rewrite (mb_kinds _ _ _ _ I) by (left; reflexivity); exact Hx).
  assert (X : forall a b, In a [b_empty M; b_leaf M; b_inner M] -> In b [b_empty M; b_leaf M; b_inner M] -> a <> b -> exists t, c_hash (ct a) = HTag (Some t)).
  { intros a b Ha Hb N. destruct (tag_distinct ct T (b_inner M) "left" (SerProof (b_base M)) a b) as [E|(t1 & t2 & E & _)]; [rewrite (mb_inner _ _ _ _ I); right; left; reflexivity|exact (D a Ha)|exact (D b Hb)|contradiction|eauto]. }
  cbn [In] in *. destruct Hc as [<-|[<-|[<-|[]]]].
  - apply (X (b_empty M) (b_leaf M)); [auto|auto|intuition congruence].
  - apply (X (b_leaf M) (b_empty M)); [auto|auto|intuition congruence].
  - apply (X (b_inner M) (b_leaf M)); [auto|auto|intuition congruence].
Qed.

Lemma declared_kind k : k <> BBase -> declared ct (b_base M) (bkind_class M k).
Proof. intros Nk. unfold declared. rewrite (mb_kinds _ _ _ _ I) by (left; reflexivity). destruct k; [congruence|cbn; auto ..]. Qed.

Lemma tree_holds t : tree t -> fine_tree t -> holds ct (SerProof (b_base M)) (bnode M t).
Proof.
  intros [->|R] F.
  - apply Ho_full; [apply (declared_kind BEmpty); discriminate|]. rewrite (mb_empty _ _ _ _ I). constructor.
  - induction R as [k v Kk|p l r Rl IHl Rr IHr Hl Hr].
    + destruct (F k v (or_introl eq_refl)) as (A & B & _). apply Ho_full; [apply (declared_kind BLeaf); discriminate|]. rewrite (mb_leaf _ _ _ _ I).
      constructor; [exact A|]. constructor; [exact B|constructor].
    + apply fine_inner in F. destruct F as (Fl & Fr). apply Ho_full; [apply (declared_kind BInner); discriminate|]. rewrite (mb_inner _ _ _ _ I).
      constructor; [apply Ho_leaf; [reflexivity|constructor; exact Logic.I]|]. constructor; [auto|]. constructor; [auto|constructor].
Qed.

(** What a key or value contributes to the data hash of a leaf. *)
Lemma field_ok sr v : holds ct sr v -> hashable ct v -> exists x, match sr with SerProof _ | SerUnion _ => phash ct v | _ => ser_leaf sr v end = Ok x.
Proof.
  intros H HA. destruct sr; try (apply holds_leaf in H; [exact (leaf_ser_ok ct _ v H)|exact Logic.I]).
  - apply HA. destruct (holds_class _ _ _ H) as (? & E & _). unfold is_proof. rewrite E. reflexivity.
  - apply HA. destruct (holds_proof _ _ _ H) as (? & H'). destruct (holds_class _ _ _ H') as (? & E & _). unfold is_proof. rewrite E. reflexivity.
Qed.

Lemma phash_full c fs t m : c_hash (ct c) = HTag (Some t) -> hash_fields ct (c_attrs (ct c)) fs = Ok m -> phash ct (PFull c fs) = Ok (tag_hash t (sha256 m)).
Proof. intros E H. unfold phash. rewrite hashes_full. cbn [snd]. rewrite E, H. unfold tagged. rewrite E. reflexivity. Qed.

Lemma tree_hash t : tree t -> fine_tree t -> exists h, phash ct (bnode M t) = Ok h.
Proof.
  intros [->|R] F.
  - destruct (three_tags (b_empty M)) as (tg & E); [cbn; auto|]. eexists. cbn [bnode]. eapply phash_full; [exact E|]. rewrite (mb_empty _ _ _ _ I). reflexivity.
  - induction R as [k v Kk|p l r Rl IHl Rr IHr Hl Hr].
    + destruct (F k v (or_introl eq_refl)) as (A & B & A' & B'). destruct (three_tags (b_leaf M)) as (tg & E); [cbn; auto|].
      destruct (field_ok _ _ A A') as (x & Ex), (field_ok _ _ B B') as (y & Ey). eexists. cbn [bnode]. eapply phash_full; [exact E|]. rewrite (mb_leaf _ _ _ _ I).
      cbn [hash_fields]. rewrite Ex, Ey. reflexivity.
    + apply fine_inner in F. destruct F as (Fl & Fr). destruct (IHl Fl) as (hl & El), (IHr Fr) as (hr & Er). destruct (three_tags (b_inner M)) as (tg & E); [cbn; auto|].
      destruct (leaf_ser_ok ct SerBits (VBits p)) as (x & Ex); [constructor; exact Logic.I|].
      eexists. cbn [bnode]. eapply phash_full; [exact E|]. rewrite (mb_inner _ _ _ _ I). cbn [hash_fields]. rewrite Ex, El, Er. reflexivity.
Qed.

Lemma tree_eq a b : tree a -> tree b -> fine_tree a -> fine_tree b -> exists e, node_eq ct M a b = Ok e /\
  (e = true -> bmirror ct a b \/ hash_collision ct (bnode M a) (bnode M b)).
Proof.
  intros Ta Tb Fa Fb. destruct (tree_hash a Ta Fa) as (ha & Ea), (tree_hash b Tb Fb) as (hb & Eb). unfold node_eq, proof_eq. rewrite Ea, Eb. cbn [bind].
  exists (bytes_eqb ha hb). split; [reflexivity|]. intros E. apply bytes_eqb_eq in E. subst hb.
  eapply mbt_binding; try eassumption; apply tree_holds; assumption.
Qed.

(** Mirror images hold the same map. *)
Lemma mirror_entries a b : bmirror ct a b -> tree a -> tree b -> Forall2 (fun e f => agree ct (fst e) (fst f) /\ agree ct (snd e) (snd f)) (entries a) (entries b).
Proof.
  intros B. induction B as [|k v k' v' A1 A2|p l r l' r' Ml IHl Mr IHr|k dh t E|k dh t E]; intros Ta Tb.
  - constructor.
  - repeat constructor; assumption.
  - destruct Ta as [Ta|Ta]; [discriminate|]. destruct Tb as [Tb|Tb]; [discriminate|]. inversion Ta; subst. inversion Tb; subst. cbn [entries].
    apply Forall2_app; [apply IHl|apply IHr]; right; assumption.
  - destruct Ta as [Ta|Ta]; [discriminate|inversion Ta].
  - destruct Tb as [Tb|Tb]; [discriminate|inversion Tb].
Qed.

Lemma agree_key k k' v v' : K k -> K k' -> entry_fine ct ks vs k v -> entry_fine ct ks vs k' v' -> agree ct k k' -> k = k'.
Proof.
  intros Kk Kk' (H1 & _ & A1 & _) (H2 & _ & A2 & _) A. destruct (gk_eq _ _ _ _ G k k' Kk Kk') as (b & E & X). apply X.
  rewrite (agree_eq ct ks k k' W H1 H2 A1 A2 A) in E. congruence.
Qed.

Lemma agree_sym v w : agree ct v w -> agree ct w v.
Proof.
  revert w. induction v as [| | | |k fs IH|k dh|] using val_ind'; intros w A; inversion A as [|? ? fs2 F| |]; subst; try apply A_refl; try (apply A_right; assumption); try (apply A_left; assumption).
  apply A_full. revert fs2 F A. induction fs as [|f fs IHfs]; intros fs2 F A; inversion F; subst; constructor; inversion IH; subst; auto.
  eapply IHfs; [assumption|eassumption|]. apply A_full. assumption.
Qed.

Lemma mirror_map a b : bmirror ct a b -> tree a -> tree b -> fine_tree a -> fine_tree b ->
  forall k v, In (k, v) (entries a) -> exists w, In (k, w) (entries b) /\ agree ct v w.
Proof.
  intros B Ta Tb Fa Fb k v H. pose proof (mirror_entries a b B Ta Tb) as F2.
  assert (Ka : forall k v, In (k, v) (entries a) -> K k) by (destruct Ta as [->|R]; [intros ? ? []|exact (radix_keys _ _ _ R)]).
  assert (Kb : forall k v, In (k, v) (entries b) -> K k) by (destruct Tb as [->|R]; [intros ? ? []|exact (radix_keys _ _ _ R)]).
  unfold fine_tree in *. clear B Ta Tb. revert Fa Fb H Ka Kb. induction F2 as [|[k1 v1] [k2 v2] l1 l2 (A1 & A2) F2 IH]; intros Fa Fb H Ka Kb; [destruct H|]. cbn [fst snd] in *.
  destruct H as [H|H].
  - inversion H; subst. exists v2. split; [|exact A2]. left. f_equal. symmetry. eapply agree_key; [eapply Ka; left; reflexivity|eapply Kb; left; reflexivity|apply Fa; left; reflexivity|apply Fb; left; reflexivity|exact A1].
  - destruct IH as (w & Hw & Aw).
    + intros; apply Fa; right; assumption.
    + intros; apply Fb; right; assumption.
    + exact H.
    + intros k0 v0 H0. apply (Ka k0 v0). right. exact H0.
    + intros k0 v0 H0. apply (Kb k0 v0). right. exact H0.
    + exists w. split; [right; exact Hw|exact Aw].
Qed.

Lemma mirror_sym a b : bmirror ct a b -> bmirror ct b a.
Proof. induction 1; constructor; auto using agree_sym. Qed.

Lemma mirror_sub a b : bmirror ct a b -> tree a -> tree b -> fine_tree a -> fine_tree b -> sub_map ct (entries a) (entries b).
Proof.
  intros B Ta Tb Fa Fb k v H. destruct (mirror_map a b B Ta Tb Fa Fb k v H) as (w & Hw & A). exists w. split; [exact Hw|].
  destruct (Fa _ _ H) as (_ & H1 & _ & A1), (Fb _ _ Hw) as (_ & H2 & _ & A2). eapply agree_eq; eassumption.
Qed.

(** ** Collisions inside *)

Lemma lift l l' : (forall v m, In v l -> hashed ct v m -> exists v', In v' l' /\ hashed ct v' m) -> collision_among ct l -> collision_among ct l'.
Proof.
  intros H (v1 & v2 & I1 & I2 & m1 & m2 & H1 & H2 & C). destruct (H v1 m1 I1 H1) as (w1 & J1 & L1), (H v2 m2 I2 H2) as (w2 & J2 & L2).
  exists w1, w2. split; [exact J1|]. split; [exact J2|]. exists m1, m2. auto.
Qed.
Lemma hashed_child p l r m : hashed ct (bnode M l) m \/ hashed ct (bnode M r) m -> hashed ct (bnode M (TInner p l r)) m.
Proof.
  intros H. destruct (three_tags (b_inner M)) as (tg & E); [cbn; auto|]. cbn [bnode]. destruct H as [H|H].
  - eapply H_sub; [congruence| |exact H]. right. left. reflexivity.
  - eapply H_sub; [congruence| |exact H]. right. right. left. reflexivity.
Qed.

Definition coll (a b : mbt) : Prop := collision_among ct [bnode M a; bnode M b; bnode M TEmpty].
Lemma coll_pair a b : hash_collision ct (bnode M a) (bnode M b) -> coll a b.
Proof. intros C. exists (bnode M a), (bnode M b). cbn; auto. Qed.
Lemma coll_empty a b : hash_collision ct (bnode M b) (bnode M TEmpty) -> coll a b.
Proof. intros C. exists (bnode M b), (bnode M TEmpty). cbn; auto 6. Qed.
Definition within (x a : mbt) : Prop := forall m, hashed ct (bnode M x) m -> hashed ct (bnode M a) m.
Lemma coll_within x y a b : within x a -> within y b -> coll x y -> coll a b.
Proof.
  intros Wx Wy. apply lift. intros v m [<-|[<-|[<-|[]]]] H; [exists (bnode M a)|exists (bnode M b)|exists (bnode M TEmpty)]; cbn; auto 6.
Qed.
Lemma within_refl a : within a a.
Proof. intros m H. exact H. Qed.
Lemma within_left p l r : within l (TInner p l r).
Proof. intros m H. apply hashed_child. auto. Qed.
Lemma within_right p l r : within r (TInner p l r).
Proof. intros m H. apply hashed_child. auto. Qed.

(** ** issubset *)

Definition decides (a b : mbt) (r : result bool) : Prop :=
  (exists e, r = Ok e /\ (e = true <-> sub_map ct (entries a) (entries b))) \/ coll a b.

Lemma tree_eq_refl a : tree a -> fine_tree a -> node_eq ct M a a = Ok true.
Proof. intros Ta Fa. destruct (tree_hash a Ta Fa) as (h & E). unfold node_eq, proof_eq. rewrite E. cbn [bind]. rewrite bytes_eqb_refl. reflexivity. Qed.

Lemma via_ok inner a b : tree a -> tree b -> fine_tree a -> fine_tree b -> (radix b -> decides a b (inner a)) -> decides a b (issubset_via ct M inner a b).
Proof.
  intros Ta Tb Fa Fb H. unfold issubset_via.
  assert (negb (Bool.eqb (bkind_eqb (bkind_of a) BBase) (bkind_eqb (bkind_of b) BBase)) = false) as ->.
  { assert (X : forall t, tree t -> bkind_eqb (bkind_of t) BBase = false) by (intros t [->|R]; [reflexivity|destruct R; reflexivity]). rewrite !X by assumption. reflexivity. }
  destruct (tree_eq a b Ta Tb Fa Fb) as (e & E1 & E). rewrite E1. cbn [bind]. destruct e.
  - destruct (E eq_refl) as [Mi|C]; [|right; apply coll_pair, C]. left. exists true. split; [reflexivity|]. split; [intros _|reflexivity]. apply mirror_sub; assumption.
  - assert (TE : tree TEmpty) by (left; reflexivity). assert (FE : fine_tree TEmpty) by (intros k v []).
    destruct (tree_eq b TEmpty Tb TE Fb FE) as (e & E2 & X). rewrite E2. cbn [bind]. destruct e.
    + destruct (X eq_refl) as [Mi|C]; [|right; apply coll_empty, C]. left. exists false. split; [reflexivity|]. split; [discriminate|].
      intros S. exfalso. assert (b = TEmpty) as ->.
      { destruct Tb as [->|R]; [reflexivity|]. inversion Mi; subst; try reflexivity; inversion R. }
      destruct Ta as [->|R].
      * rewrite tree_eq_refl in E1 by assumption. discriminate.
      * destruct (radix_some _ _ _ R) as (k & v & Hk). destruct (S k v Hk) as (w & [] & _).
    + destruct Tb as [->|Rb]; [|exact (H Rb)]. exfalso. rewrite tree_eq_refl in E2 by assumption. discriminate.
Qed.

(** Two inner nodes with the same prefix and equal children are equal. *)
Lemma inner_eq p l r l' r' : tree l -> tree r -> tree l' -> tree r' -> fine_tree l -> fine_tree r -> fine_tree l' -> fine_tree r' ->
  node_eq ct M l l' = Ok true -> node_eq ct M r r' = Ok true -> node_eq ct M (TInner p l r) (TInner p l' r') = Ok true.
Proof.
  intros T1 T2 T3 T4 F1 F2 F3 F4. unfold node_eq, proof_eq.
  destruct (tree_hash l T1 F1) as (h1 & E1), (tree_hash r T2 F2) as (h2 & E2), (tree_hash l' T3 F3) as (h3 & E3), (tree_hash r' T4 F4) as (h4 & E4).
  rewrite E1, E2, E3, E4. cbn [bind]. intros X Y. injection X as X. injection Y as Y. apply bytes_eqb_eq in X. apply bytes_eqb_eq in Y. subst h3 h4.
  destruct (three_tags (b_inner M)) as (tg & E); [cbn; auto|]. destruct (leaf_ser_ok ct SerBits (VBits p)) as (x & Ex); [constructor; exact Logic.I|].
  assert (Z : forall a b, phash ct (bnode M a) = Ok h1 -> phash ct (bnode M b) = Ok h2 -> phash ct (bnode M (TInner p a b)) = Ok (tag_hash tg (sha256 (x ++ h1 ++ h2 ++ [])))).
  { intros a b Ea Eb. cbn [bnode]. apply phash_full; [exact E|]. rewrite (mb_inner _ _ _ _ I). cbn [hash_fields]. rewrite Ex, Ea, Eb. reflexivity. }
  rewrite (Z l r E1 E2), (Z l' r' E3 E4). cbn [bind]. rewrite bytes_eqb_refl. reflexivity.
Qed.

Lemma sub_sides p l r l' r' : radix (TInner p l r) -> radix (TInner p l' r') ->
  (sub_map ct (entries (TInner p l r)) (entries (TInner p l' r')) <-> sub_map ct (entries l) (entries l') /\ sub_map ct (entries r) (entries r')).
Proof.
  intros R R'. inversion R as [|? ? ? Rl Rr Hl Hr]; subst. inversion R' as [|? ? ? Rl' Rr' Hl' Hr']; subst. unfold sub_map. cbn [entries]. split.
  - intros S. split; intros k v H; destruct (S k v ltac:(apply in_or_app; auto)) as (w & Hw & E); exists w; (split; [|exact E]); apply in_app_or in Hw; destruct Hw as [Hw|Hw]; try exact Hw; exfalso.
    + apply (starts_bits_neq p false (k2p k)); [apply (Hl k v H)|apply (Hr' k w Hw)].
    + apply (starts_bits_neq p true (k2p k)); [apply (Hr k v H)|apply (Hl' k w Hw)].
  - intros (S1 & S2) k v H. apply in_app_or in H. destruct H as [H|H]; [destruct (S1 k v H) as (w & Hw & E)|destruct (S2 k v H) as (w & Hw & E)]; exists w; (split; [apply in_or_app; auto|exact E]).
Qed.

Lemma sub_deeper a q l r b : radix (TInner q l r) -> (forall k v, In (k, v) (entries a) -> starts (q ++ [b]) (k2p k)) ->
  (sub_map ct (entries a) (entries (TInner q l r)) <-> sub_map ct (entries a) (entries (if b then r else l))).
Proof.
  intros R Ha. inversion R as [|? ? ? Rl Rr Hl Hr]; subst. unfold sub_map. cbn [entries]. split; intros S k v H; destruct (S k v H) as (w & Hw & E); exists w; (split; [|exact E]).
  - apply in_app_or in Hw. pose proof (Ha k v H) as X. destruct b, Hw as [Hw|Hw]; try exact Hw; exfalso.
    + exact (starts_bits_neq q false _ (Hl _ _ Hw) X).
    + exact (starts_bits_neq q false _ X (Hr _ _ Hw)).
  - apply in_or_app. destruct b; auto.
Qed.

Lemma present_or_absent t k : radix t -> K k -> (exists v, In (k, v) (entries t)) \/ ~ In k (map fst (entries t)).
Proof.
  intros R Kk. destruct (find_radix ct k2p K n G k Kk t R) as (c & sibs & D & X).
  assert (Y : forall v, In (k, v) (entries t) -> c = TLeaf k v).
  { intros v H. destruct (remove_radix ct M ks vs k2p K n W I G k v Kk t R H) as (s & D' & _). congruence. }
  destruct X as [(k' & v' & -> & H)|(p & l & r & ->)].
  - destruct (gk_eq _ _ _ _ G k' k (radix_keys _ _ _ R _ _ H) Kk) as (b & _ & E). destruct b.
    + left. exists v'. replace k with k' by (apply E; reflexivity). exact H.
    + right. intros N. apply in_map_iff in N. destruct N as ((k0 & v0) & E0 & N). cbn in E0. subst k0. apply Y in N. injection N as -> _.
      enough (false = true) by discriminate. apply E. reflexivity.
  - right. intros N. apply in_map_iff in N. destruct N as ((k0 & v0) & E0 & N). cbn in E0. subst k0. apply Y in N. discriminate.
Qed.

Lemma leaf_case k v b : K k -> radix b -> fine_tree b -> fine_tree (TLeaf k v) ->
  decides (TLeaf k v) b (match tgetitem ct k2p b k with Ok w => py_eq ct v w | Err KeyError => Ok false | Err e => Err e end).
Proof.
  intros Kk Rb Fb Fa. left. destruct (present_or_absent b k Rb Kk) as [(w & Hw)|N].
  - rewrite (getitem_present ct M ks vs k2p K n W I G b k w (or_intror Rb) Kk Hw).
    destruct (Fa k v (or_introl eq_refl)) as (_ & H1 & _ & A1). destruct (Fb k w Hw) as (_ & H2 & _ & A2).
    destruct (py_eq_total ct vs v w H1 H2 A1 A2) as (e & E). exists e. split; [exact E|]. split.
    + intros ->. intros k0 v0 [X|[]]. injection X as <- <-. exists w. split; [exact Hw|exact E].
    + intros S. destruct (S k v (or_introl eq_refl)) as (w' & Hw' & E').
      assert (w = w') as <- by (eapply same_key; [apply (radix_nodup k2p K b Rb)|exact Hw|exact Hw']). congruence.
  - rewrite (getitem_absent ct k2p K n G b k (or_intror Rb) Kk N). exists false. split; [reflexivity|]. split; [discriminate|].
    intros S. destruct (S k v (or_introl eq_refl)) as (w' & Hw' & E'). exfalso. apply N. apply (in_map fst) in Hw'. exact Hw'.
Qed.

Lemma leaf_pre_long k p l r : K k -> radix (TInner p l r) -> ~ starts (k2p k) p.
Proof. intros Kk R S. apply starts_len in S. rewrite (gk_len _ _ _ _ G k Kk) in S. pose proof (inner_short ct k2p K n G _ _ _ R). lia. Qed.

Lemma in_ok : forall b, radix b -> fine_tree b -> forall a, tree a -> fine_tree a -> decides a b (issubset_in ct M k2p b a).
Proof.
  induction b as [|kb vb|q tl IHl tr IHr|kd dh]; intros Rb Fb a Ta Fa; try (inversion Rb; fail).
  - destruct a as [|k v|p l r|kd dh]; [left; exists true; split; [reflexivity|]; split; [intros _ k v []|reflexivity]| | |destruct Ta as [Ta|Ta]; [discriminate|inversion Ta]].
    + apply leaf_case; try assumption. destruct Ta as [Ta|Ta]; [discriminate|]. inversion Ta; assumption.
    + assert (Ra : radix (TInner p l r)) by (destruct Ta as [Ta|Ta]; [discriminate|exact Ta]). assert (Kb : K kb) by (inversion Rb; assumption).
      cbn [issubset_in]. destruct (tree_eq (TInner p l r) (TLeaf kb vb) Ta (or_intror Rb) Fa Fb) as (e & -> & E). cbn [bind]. destruct e.
      * destruct (E eq_refl) as [Mi|C]; [inversion Mi|right; apply coll_pair, C].
      * cbn [prefix_of bind]. pose proof (leaf_pre_long kb p l r Kb Ra) as NS.
        assert (bools_eqb p (k2p kb) = false) as -> by (apply bools_eqb_false; intros ->; apply NS, starts_refl).
        destruct (startswith p (k2p kb)) eqn:SW; [apply startswith_spec in SW; contradiction|].
        left. exists false. split; [reflexivity|]. split; [discriminate|]. intros S. exfalso. apply NS. apply (radix_longest k2p K _ _ Ra).
        intros k v H. destruct (S k v H) as (w & [Hw|[]] & _). injection Hw as <- <-. apply starts_refl.
  - destruct a as [|k v|p l r|kd dh]; [left; exists true; split; [reflexivity|]; split; [intros _ k v []|reflexivity]| | |destruct Ta as [Ta|Ta]; [discriminate|inversion Ta]].
    + apply leaf_case; try assumption. destruct Ta as [Ta|Ta]; [discriminate|]. inversion Ta; assumption.
    + assert (Ra : radix (TInner p l r)) by (destruct Ta as [Ta|Ta]; [discriminate|exact Ta]).
      assert (RL : radix l) by (inversion Ra; assumption). assert (RR : radix r) by (inversion Ra; assumption).
      assert (RTL : radix tl) by (inversion Rb; assumption). assert (RTR : radix tr) by (inversion Rb; assumption).
      destruct (fine_inner _ _ _ Fa) as (Fl & Fr). destruct (fine_inner _ _ _ Fb) as (Ftl & Ftr).
      cbn [issubset_in]. destruct (tree_eq (TInner p l r) (TInner q tl tr) Ta (or_intror Rb) Fa Fb) as (e & E0 & E). rewrite E0. cbn [bind]. destruct e.
      { destruct (E eq_refl) as [Mi|C]; [|right; apply coll_pair, C]. left. exists true. split; [reflexivity|]. split; [intros _|reflexivity]. apply mirror_sub; try assumption. right. exact Rb. }
      cbn [prefix_of bind]. destruct (bools_eqb p q) eqn:PQ.
      * apply bools_eqb_spec in PQ. subst q.
        destruct (tree_eq l tl (or_intror RL) (or_intror RTL) Fl Ftl) as (x & X & _). rewrite X. cbn [bind].
        destruct (tree_eq r tr (or_intror RR) (or_intror RTR) Fr Ftr) as (y & Y & _).
        assert (AS : (do y <- (if x then node_eq ct M r tr else Ok false); assert (negb y)) = Ok tt).
        { destruct x; [|reflexivity]. rewrite Y. cbn [bind]. destruct y; [|reflexivity]. exfalso.
          rewrite (inner_eq p l r tl tr) in E0; [discriminate|right; assumption|right; assumption|right; assumption|right; assumption|assumption|assumption|assumption|assumption|exact X|exact Y]. }
        destruct (if x then node_eq ct M r tr else Ok false) as [y'|]; cbn [bind] in AS |- *; [|discriminate]. rewrite AS. cbn [bind].
        destruct (via_ok (issubset_in ct M k2p tl) l tl (or_intror RL) (or_intror RTL) Fl Ftl) as [(e1 & -> & S1)|C].
        { intros _. apply IHl; try assumption. right. assumption. }
        2:{ right. eapply coll_within; [apply within_left|apply within_left|exact C]. }
        cbn [bind]. destruct e1.
        -- destruct (via_ok (issubset_in ct M k2p tr) r tr (or_intror RR) (or_intror RTR) Fr Ftr) as [(e2 & -> & S2)|C].
           { intros _. apply IHr; try assumption. right. assumption. }
           2:{ right. eapply coll_within; [apply within_right|apply within_right|exact C]. }
           left. exists e2. split; [reflexivity|]. rewrite (sub_sides p l r tl tr Ra Rb). rewrite S2. tauto.
        -- left. exists false. split; [reflexivity|]. rewrite (sub_sides p l r tl tr Ra Rb). rewrite <- S1. intuition discriminate.
      * apply bools_eqb_false in PQ. destruct (startswith p q) eqn:SW.
        -- apply startswith_spec in SW. destruct SW as (rest & ->). destruct rest as [|b s]; [rewrite app_nil_r in PQ; congruence|].
           assert ((List.length q <? List.length (q ++ b :: s)) = true) as -> by (rewrite app_length; cbn [List.length]; lia). cbn [assert bind]. rewrite bit_app. cbn [bind].
           assert (DP : forall k v, In (k, v) (entries (TInner (q ++ b :: s) l r)) -> starts (q ++ [b]) (k2p k)).
           { intros k v H. eapply starts_trans; [|apply (radix_pre k2p K _ Ra k v H)]. apply starts_bit. exists s. reflexivity. }
           pose proof (sub_deeper (TInner (q ++ b :: s) l r) q tl tr b Rb DP) as SD. destruct b.
           ++ destruct (IHr RTR Ftr (TInner (q ++ true :: s) l r) Ta Fa) as [(e & E1 & S1)|C].
              ** left. exists e. split; [exact E1|]. rewrite SD. exact S1.
              ** right. eapply coll_within; [apply within_refl|apply within_right|exact C].
           ++ destruct (IHl RTL Ftl (TInner (q ++ false :: s) l r) Ta Fa) as [(e & E1 & S1)|C].
              ** left. exists e. split; [exact E1|]. rewrite SD. exact S1.
              ** right. eapply coll_within; [apply within_refl|apply within_left|exact C].
        -- left. exists false. split; [reflexivity|]. split; [discriminate|]. intros S. exfalso.
           assert (SQ : starts q p); [|apply startswith_spec in SQ; congruence]. apply (radix_longest k2p K _ _ Ra).
           intros k v H. destruct (S k v H) as (w & Hw & _). apply (radix_pre k2p K _ Rb k w Hw).
Qed.

Lemma issubset_ok a b : tree a -> tree b -> fine_tree a -> fine_tree b -> decides a b (issubset ct M k2p a b).
Proof. intros Ta Tb Fa Fb. apply via_ok; try assumption. intros Rb. apply in_ok; assumption. Qed.
End Subset.

(** ** Histories *)

Section Maps.
Context (ct : ctable) (M : mbt_classes) (ks vs : ser) (k2p : val -> list bool) (K : val -> Prop) (n : nat).

Lemma perm_in {A} (l1 l2 : list A) x : Permutation l1 l2 -> In x l1 <-> In x l2.
Proof. intros P. split; [apply (Permutation_in _ P)|apply (Permutation_in _ (Permutation_sym P))]. Qed.

Lemma behaves_as_the_map D r : wf_table ct -> is_mbt ct M ks vs -> good_keys ct k2p K n ->
  history ct M k2p K D r -> exists t, r = Ok t /\
  (forall k v, K k -> In (k, v) D -> tgetitem ct k2p t k = Ok v) /\
  (forall k, K k -> ~ In k (map fst D) -> tgetitem ct k2p t k = Err KeyError /\ remove ct M k2p t k = Err KeyError) /\
  (forall k v, K k -> In (k, v) D -> exists t', remove ct M k2p t k = Ok t') /\
  tlen t = Ok (List.length D) /\
  exists items, titems t = Ok items /\ Permutation items D /\ StronglySorted (before k2p) items /\ tkeys t = Ok (map fst items) /\ tvalues t = Ok (map snd items).
Proof.
  intros W I G H. destruct (history_ok ct M ks vs k2p K n W I G D r H) as (t & -> & T & P). exists t. split; [reflexivity|].
  split. { intros k v Kk Hk. apply (getitem_present ct M ks vs k2p K n W I G); try assumption. apply (perm_in _ _ _ P). exact Hk. }
  split. { intros k Kk N. assert (N' : ~ In k (map fst (entries t))) by (intros X; apply N; apply (perm_in _ _ _ (Permutation_map fst P)); exact X).
    split; [apply (getitem_absent ct k2p K n G); assumption|apply (remove_absent ct M k2p K n G); assumption]. }
  split. { intros k v Kk Hk. apply (perm_in _ _ _ P) in Hk. destruct (remove_ok ct M ks vs k2p K n W I G t k v T Kk Hk) as (t' & E & _). eauto. }
  split. { rewrite (tlen_radix k2p K t T), (Permutation_length P). reflexivity. }
  exists (entries t). split; [apply (titems_radix k2p K t T)|]. split; [exact P|]. split; [apply (sorted_radix k2p K t T)|]. apply (tkeys_radix k2p K t T).
Qed.

Lemma history_documented D r : wf_table ct -> is_mbt ct M ks vs -> good_keys ct k2p K n ->
  history ct M k2p K D r -> exists t, r = Ok t /\ radix_tree k2p D t.
Proof.
  intros W I G H. destruct (history_ok ct M ks vs k2p K n W I G D r H) as (t & -> & T & P). exists t. split; [reflexivity|].
  destruct T as [->|R]; [apply Permutation_nil in P; subst; constructor|]. apply (radix_documented k2p K t R). symmetry. exact P.
Qed.

Lemma history_nodup D r : wf_table ct -> is_mbt ct M ks vs -> good_keys ct k2p K n -> history ct M k2p K D r -> NoDup (map fst D).
Proof.
  intros W I G H. destruct (history_ok ct M ks vs k2p K n W I G D r H) as (t & -> & T & P). apply (Permutation_NoDup (Permutation_map fst P)).
  destruct T as [->|R]; [constructor|apply (radix_nodup k2p K t R)].
Qed.

Lemma history_independent D1 D2 r1 r2 : wf_table ct -> is_mbt ct M ks vs -> good_keys ct k2p K n ->
  history ct M k2p K D1 r1 -> history ct M k2p K D2 r2 -> (forall k v, In (k, v) D1 <-> In (k, v) D2) -> exists t, r1 = Ok t /\ r2 = Ok t.
Proof.
  intros W I G H1 H2 E. destruct (history_documented D1 r1 W I G H1) as (t1 & -> & R1), (history_documented D2 r2 W I G H2) as (t2 & -> & R2).
  exists t1. split; [reflexivity|]. f_equal. symmetry. apply (radix_tree_unique k2p D1 t1 R1 D2 t2); [|exact R2].
  apply NoDup_Permutation.
  - eapply NoDup_map_inv. eapply history_nodup; eassumption.
  - eapply NoDup_map_inv. eapply history_nodup; eassumption.
  - intros [k v]. apply E.
Qed.

Lemma history_key D t k v : wf_table ct -> is_mbt ct M ks vs -> good_keys ct k2p K n -> history ct M k2p K D (Ok t) -> In (k, v) D -> K k.
Proof.
  intros W I G H Hk. destruct (history_ok ct M ks vs k2p K n W I G D _ H) as (t' & E & T & P). injection E as <-. apply (perm_in _ _ _ P) in Hk.
  destruct T as [->|R]; [destruct Hk|exact (radix_keys k2p K t R k v Hk)].
Qed.

Lemma put_present_map D t k v v' : wf_table ct -> is_mbt ct M ks vs -> good_keys ct k2p K n ->
  history ct M k2p K D (Ok t) -> In (k, v') D -> entry_ok ct M k v ->
  put ct M k2p t k v = Err AssertionError /\
  exists t' t'', remove ct M k2p t k = Ok t' /\ put ct M k2p t' k v = Ok t'' /\ tgetitem ct k2p t'' k = Ok v /\
    (forall k0 v0, k0 <> k -> In (k0, v0) D -> tgetitem ct k2p t'' k0 = Ok v0).
Proof.
  intros W I G H Hk EK. pose proof (history_key D t k v' W I G H Hk) as Kk.
  assert (KD : forall k0 v0, In (k0, v0) D -> K k0) by (intros; eapply history_key; eassumption).
  destruct (history_ok ct M ks vs k2p K n W I G D _ H) as (t0 & E & T & P). injection E as <-.
  pose proof Hk as Hk0. apply (perm_in _ _ _ P) in Hk. split; [eapply put_present; eassumption|].
  destruct (remove_ok ct M ks vs k2p K n W I G t k v' T Kk Hk) as (t' & E' & T' & P').
  assert (ND : NoDup (map fst ((k, v') :: entries t'))).
  { apply (Permutation_NoDup (Permutation_map fst P')). destruct T as [->|R]; [constructor|apply (radix_nodup k2p K t R)]. }
  cbn in ND. inversion ND as [|? ? N1 _]; subst.
  destruct (put_ok ct M ks vs k2p K n W I G t' k v T' Kk EK N1) as (t'' & E'' & R'' & P''). exists t', t''. split; [exact E'|]. split; [exact E''|]. split.
  - apply (getitem_present ct M ks vs k2p K n W I G); [right; exact R''|exact Kk|]. apply (perm_in _ _ _ P''). left. reflexivity.
  - intros k0 v0 N0 H0. apply (getitem_present ct M ks vs k2p K n W I G); [right; exact R''|eauto|]. apply (perm_in _ _ _ P''). right.
    apply (perm_in _ _ _ P) in H0. apply (perm_in _ _ _ P') in H0. destruct H0 as [H0|H0]; [congruence|exact H0].
Qed.

Lemma fine_entries D t : Permutation (entries t) D -> (forall k v, In (k, v) D -> entry_fine ct ks vs k v) -> fine_tree ct ks vs t.
Proof. intros P F k v H. apply F. apply (perm_in _ _ _ P). exact H. Qed.

Lemma map_binding D1 D2 t1 t2 h : wf_table ct -> wf_tags ct -> is_mbt ct M ks vs -> good_keys ct k2p K n ->
  history ct M k2p K D1 (Ok t1) -> history ct M k2p K D2 (Ok t2) ->
  (forall k v, In (k, v) D1 \/ In (k, v) D2 -> entry_fine ct ks vs k v) ->
  phash ct (bnode M t1) = Ok h -> phash ct (bnode M t2) = Ok h ->
  ((forall k v1, In (k, v1) D1 -> exists v2, In (k, v2) D2 /\ agree ct v1 v2) /\
   (forall k v2, In (k, v2) D2 -> exists v1, In (k, v1) D1 /\ agree ct v1 v2) /\
   (Forall complete (map snd D1) -> Forall complete (map snd D2) -> forall k v, In (k, v) D1 <-> In (k, v) D2)) \/
  hash_collision ct (bnode M t1) (bnode M t2).
Proof.
  intros W T I G H1 H2 F P1 P2.
  destruct (history_ok ct M ks vs k2p K n W I G D1 _ H1) as (u1 & E1 & T1 & Q1). injection E1 as <-.
  destruct (history_ok ct M ks vs k2p K n W I G D2 _ H2) as (u2 & E2 & T2 & Q2). injection E2 as <-.
  assert (F1 : fine_tree ct ks vs t1) by (apply (fine_entries D1); auto). assert (F2 : fine_tree ct ks vs t2) by (apply (fine_entries D2); auto).
  destruct (mbt_binding ct M ks vs W T I t1 t2 h) as [B|C]; [eapply tree_holds; eassumption|eapply tree_holds; eassumption|exact P1|exact P2| |right; exact C].
  left. assert (A1 : forall k v1, In (k, v1) D1 -> exists v2, In (k, v2) D2 /\ agree ct v1 v2).
  { intros k v1 Hk. apply (perm_in _ _ _ Q1) in Hk. destruct (mirror_map ct ks vs k2p K n W G t1 t2 B T1 T2 F1 F2 k v1 Hk) as (w & Hw & Aw). exists w. split; [apply (perm_in _ _ _ Q2), Hw|exact Aw]. }
  assert (A2 : forall k v2, In (k, v2) D2 -> exists v1, In (k, v1) D1 /\ agree ct v1 v2).
  { intros k v2 Hk. apply (perm_in _ _ _ Q2) in Hk. destruct (mirror_map ct ks vs k2p K n W G t2 t1 (mirror_sym ct _ _ B) T2 T1 F2 F1 k v2 Hk) as (w & Hw & Aw).
    exists w. split; [apply (perm_in _ _ _ Q1), Hw|apply agree_sym, Aw]. }
  split; [exact A1|]. split; [exact A2|]. intros C1 C2 k v. rewrite Forall_forall in C1, C2.
  assert (I1 : forall k v, In (k, v) D1 -> complete v) by (intros k0 v0 X; apply C1; apply (in_map snd) in X; exact X).
  assert (I2 : forall k v, In (k, v) D2 -> complete v) by (intros k0 v0 X; apply C2; apply (in_map snd) in X; exact X). split; intros Hk.
  - destruct (A1 k v Hk) as (w & Hw & Aw). rewrite (agree_complete ct v w Aw (I1 _ _ Hk) (I2 _ _ Hw)). exact Hw.
  - destruct (A2 k v Hk) as (w & Hw & Aw). rewrite <- (agree_complete ct w v Aw (I1 _ _ Hw) (I2 _ _ Hk)). exact Hw.
Qed.

Lemma issubset_map D1 D2 t1 t2 : wf_table ct -> wf_tags ct -> is_mbt ct M ks vs -> good_keys ct k2p K n ->
  history ct M k2p K D1 (Ok t1) -> history ct M k2p K D2 (Ok t2) ->
  (forall k v, In (k, v) D1 \/ In (k, v) D2 -> entry_fine ct ks vs k v) ->
  (exists b, issubset ct M k2p t1 t2 = Ok b /\ (b = true <-> sub_map ct D1 D2)) \/
  collision_among ct [bnode M t1; bnode M t2; bnode M TEmpty].
Proof.
  intros W T I G H1 H2 F.
  destruct (history_ok ct M ks vs k2p K n W I G D1 _ H1) as (u1 & E1 & T1 & Q1). injection E1 as <-.
  destruct (history_ok ct M ks vs k2p K n W I G D2 _ H2) as (u2 & E2 & T2 & Q2). injection E2 as <-.
  assert (F1 : fine_tree ct ks vs t1) by (apply (fine_entries D1); auto). assert (F2 : fine_tree ct ks vs t2) by (apply (fine_entries D2); auto).
  destruct (issubset_ok ct M ks vs k2p K n W T I G t1 t2 T1 T2 F1 F2) as [(b & E & S)|C]; [left|right; exact C].
  exists b. split; [exact E|]. rewrite S. unfold sub_map. split; intros X k v Hk.
  - apply (perm_in _ _ _ Q1) in Hk. destruct (X k v Hk) as (w & Hw & Ew). exists w. split; [apply (perm_in _ _ _ Q2), Hw|exact Ew].
  - apply (perm_in _ _ _ Q1) in Hk. destruct (X k v Hk) as (w & Hw & Ew). exists w. split; [apply (perm_in _ _ _ Q2), Hw|exact Ew].
Qed.
End Maps.
