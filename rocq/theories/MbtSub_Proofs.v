From Coq Require Import ZifyBool ZifyNat ZifyN.
From Verif Require Import Base Sha256 Serialize_Model Serialize_Spec Serialize_Proofs Tx_Model Tx_Spec Tx_Proofs Proof_Model Proof_Spec Proof_Proofs ProofHash_Proofs
  Merbinner_Model Merbinner_Spec Merbinner_Proofs MerbinnerHash_Proofs MerbinnerSubset_Proofs MbtChange_Spec MbtChange_Proofs MbtSub_Spec.

Section Sub.
Context (ct : ctable) (M : mbt_classes) (ks vs : ser) (k2p : val -> list bool).
Context (W : wf_table ct) (T : wf_tags ct) (I : is_mbt ct M ks vs) (R : prefix_respects ct ks k2p).
Notation good := (good ct M). Notation same := (same ct M). Notation both := (both ct M).

(** Equality of agreeing values. *)
Definition fair (sr : ser) (v w : val) : Prop := holds ct sr v /\ hashable ct v /\ holds ct sr w /\ hashable ct w /\ agree ct v w.
Lemma fair_eq s1 s2 v v' w w' : fair s1 v v' -> fair s2 w w' -> py_eq ct v w = py_eq ct v' w'.
Proof.
  intros (H1 & A1 & H2 & A2 & A) (H3 & A3 & H4 & A4 & B). pose proof (agree_proof _ _ _ A) as EA. pose proof (agree_proof _ _ _ B) as EB.
  assert (HH : forall s x x', holds ct s x -> hashable ct x -> holds ct s x' -> hashable ct x' -> agree ct x x' -> is_proof x = true -> phash ct x = phash ct x').
  { intros s x x' Hx Ax Hx' Ax' AA P. pose proof (agree_proof _ _ _ AA) as E. destruct (holds_sort _ _ _ Hx) as [(c1 & G1 & _)|(P1 & _)]; [|congruence].
    destruct (holds_sort _ _ _ Hx') as [(c2 & G2 & P2)|(P2 & _)]; [|congruence]. destruct (Ax P) as (h1 & E1), (Ax' P2) as (h2 & E2). rewrite E1, E2. f_equal.
    exact (agree_hash ct W _ _ _ _ h1 h2 G1 G2 AA E1 E2). }
  destruct (is_proof v) eqn:PV, (is_proof w) eqn:PW.
  - rewrite !py_eq_proofs by congruence. unfold proof_eq. rewrite (HH _ _ _ H1 A1 H2 A2 A PV), (HH _ _ _ H3 A3 H4 A4 B PW). reflexivity.
  - rewrite <- (agree_leaf _ _ _ B PW). unfold is_proof in *. destruct v, w; try discriminate; destruct v'; try discriminate; reflexivity.
  - rewrite <- (agree_leaf _ _ _ A PV). unfold is_proof in *. destruct v, w; try discriminate; destruct w'; try discriminate; reflexivity.
  - rewrite <- (agree_leaf _ _ _ A PV), <- (agree_leaf _ _ _ B PW). reflexivity.
Qed.

Lemma good_value k v : good (TLeaf k v) -> holds ct vs v /\ hashable ct v.
Proof.
  intros (H & h & E). destruct (leaf_holds_parts ct M ks vs I k v H) as (_ & Hv). split; [exact Hv|]. intros P.
  destruct (variant_tag ct M ks vs T I (b_leaf M)) as (t & Et); [cbn; auto|]. unfold phash in E. cbn [bnode hashes snd] in E. rewrite Et in E. unfold tagged in E. rewrite (mb_leaf _ _ _ _ I) in E.
  destruct (match ks with SerProof _ | SerUnion _ => snd (hashes ct k) | _ => ser_leaf ks k end) as [x|]; [|discriminate]. cbn [bind] in E. clear I R.
  destruct vs; try (apply holds_leaf in Hv; [inversion Hv; subst; discriminate P|exact Logic.I]); unfold phash; destruct (snd (hashes ct v)) as [hv|]; eauto; discriminate.
Qed.
Lemma both_leaf k v k' v' : both (TLeaf k v) (TLeaf k' v') -> fair ks k k' /\ fair vs v v'.
Proof.
  intros (G1 & G2 & S). destruct (good_key ct M ks vs k2p T I R _ _ G1), (good_key ct M ks vs k2p T I R _ _ G2), (good_value _ _ G1), (good_value _ _ G2).
  pose proof (same_twin ct M ks vs I _ _ S) as TW. inversion TW; subst. unfold fair. auto 10.
Qed.

(** Looking up the same key. *)
Definition found (r r' : result val) : Prop :=
  (forall v, r = Ok v -> r' = Err PrunedError \/ exists v', r' = Ok v' /\ fair vs v v') /\ (r = Err KeyError -> r' = Err PrunedError \/ r' = Err KeyError).
Lemma descend_key t q e : descend t q = Err e -> e <> KeyError.
Proof.
  revert e. induction t as [|k v|p l IHl r IHr|k dh]; intros e E; cbn [descend] in E; try discriminate E.
  - destruct (_ && _); [|discriminate]. destruct (bit q (List.length p)) as [[]|x] eqn:Eb; cbn [bind] in E.
    + destruct (descend r q) as [|y]; [discriminate|]. cbn [bind] in E. injection E as <-. exact (IHr y eq_refl).
    + destruct (descend l q) as [|y]; [discriminate|]. cbn [bind] in E. injection E as <-. exact (IHl y eq_refl).
    + injection E as <-. unfold bit in Eb. destruct (nth_error q (List.length p)); [discriminate|]. injection Eb as <-. discriminate.
  - destruct k; try discriminate E; injection E as <-; discriminate.
Qed.
Lemma lookup_same t t' key key' : both t t' -> fair ks key key' -> found (tgetitem ct k2p t key) (tgetitem ct k2p t' key').
Proof.
  intros B F. pose proof F as (Hk & Ak & Hk' & Ak' & AK). unfold tgetitem.
  assert (k2p key' = k2p key) as -> by (symmetry; apply R; [exact Hk|exact Hk'|]; exact (agree_eq ct ks key key' W Hk Hk' Ak Ak' AK)).
  destruct (descend t (k2p key)) as [s|e] eqn:D; cbn [bind].
  2: { split; [discriminate|]. intros E. injection E as ->. exfalso. exact (descend_key _ _ _ D eq_refl). }
  destruct (descend_same ct M ks vs T I _ _ _ _ B D) as [-> |(s' & -> & Fs)]; cbn [bind]; [split; intros; left; reflexivity|].
  destruct Fs as [|c c' r r' Bc Fr]; [split; discriminate|]. pose proof Bc as (G1 & G2 & S). pose proof (same_kind ct M ks vs I _ _ S) as K.
  pose proof (same_twin ct M ks vs I _ _ S) as TW. destruct TW as [|k v k' v' A A'|p l rr l' rr' _ _|kd dh u KD|kd dh u KD].
  - cbn. split; [discriminate|auto].
  - destruct (both_leaf _ _ _ _ Bc) as (FK & FV). cbn [key_of value_of bind]. rewrite <- (fair_eq _ _ _ _ _ _ FK F).
    destruct (py_eq ct k key) as [[]|e]; cbn [bind].
    + split; [|discriminate]. intros x E. injection E as <-. right. eauto.
    + split; [discriminate|auto].
    + split; intros; destruct e; try discriminate; auto.
  - cbn. split; [discriminate|auto].
  - destruct kd; cbn [key_of bind]; (split; [intros; discriminate|]); intros E; try discriminate E; destruct u as [| | |[] ?]; try discriminate KD; cbn; auto.
  - destruct kd; cbn [key_of bind]; try (split; intros; left; reflexivity); destruct u as [| | |[] ?]; try discriminate KD; cbn; (split; [discriminate|auto]).
Qed.

Lemma node_eq_same a a' b b' : both a a' -> both b b' -> node_eq ct M a b = node_eq ct M a' b'.
Proof.
  intros (G1 & G2 & S) (G3 & G4 & S'). pose proof G1 as (_ & h1 & E1). pose proof G2 as (_ & h2 & E2). pose proof G3 as (_ & h3 & E3). pose proof G4 as (_ & h4 & E4).
  unfold node_eq, proof_eq. rewrite E1, E2, E3, E4. cbn [bind]. rewrite (same_hash ct M W _ _ _ _ G1 G2 S E1 E2), (same_hash ct M W _ _ _ _ G3 G4 S' E3 E4). reflexivity.
Qed.
Lemma both_inner p l r l' r' : both (TInner p l r) (TInner p l' r') -> both l l' /\ both r r'.
Proof.
  intros (G1 & G2 & S). destruct (good_parts ct M ks vs T I _ _ _ G1), (good_parts ct M ks vs T I _ _ _ G2). pose proof (same_twin ct M ks vs I _ _ S) as TW. inversion TW; subst.
  unfold MbtChange_Proofs.both. auto.
Qed.
Lemma both_empty : both TEmpty TEmpty.
Proof.
  assert (G : good TEmpty).
  { split; [cbn [bnode]; apply Ho_full; [unfold declared; rewrite (mb_kinds _ _ _ _ I) by (left; reflexivity); cbn; auto|rewrite (mb_empty _ _ _ _ I); constructor]|].
    destruct (variant_tag ct M ks vs T I (b_empty M)) as (t & Et); [cbn; auto|]. unfold phash. cbn [bnode hashes snd]. rewrite Et. unfold tagged. rewrite Et, (mb_empty _ _ _ _ I). cbn [bind]. eauto. }
  split; [exact G|split; [exact G|apply A_refl]].
Qed.
Definition answers (r r' : result bool) : Prop := forall b, r = Ok b -> r' = Err PrunedError \/ r' = Ok b.

Lemma via_same f f' s s' o o' : both s s' -> both o o' -> answers (f s) (f' s') -> answers (issubset_via ct M f s o) (issubset_via ct M f' s' o').
Proof.
  intros Bs Bo H b E. unfold issubset_via in *. pose proof Bs as (Gs & Gs' & _). pose proof Bo as (Go & Go' & _).
  pose proof (good_kind ct M ks vs I _ Gs) as N1. pose proof (good_kind ct M ks vs I _ Gs') as N2. pose proof (good_kind ct M ks vs I _ Go) as N3. pose proof (good_kind ct M ks vs I _ Go') as N4.
  assert (X : forall t, bkind_of t <> BBase -> bkind_eqb (bkind_of t) BBase = false) by (intros t N; destruct (bkind_of t); try reflexivity; congruence).
  rewrite !X in * by assumption. cbn [Bool.eqb negb] in *.
  rewrite <- (node_eq_same _ _ _ _ Bs Bo), <- (node_eq_same _ _ _ _ Bo both_empty). destruct (node_eq ct M s o) as [[]|]; cbn [bind] in *; [auto| |discriminate].
  destruct (node_eq ct M o TEmpty) as [[]|]; cbn [bind] in *; [auto| |discriminate]. exact (H b E).
Qed.

Lemma subset_same : forall o o' s s', both s s' -> both o o' -> answers (issubset_in ct M k2p o s) (issubset_in ct M k2p o' s').
Proof.
  (* everything but the step into the other tree *)
  assert (common : forall o o' s s', both s s' -> both o o' ->
    (forall p l r l' r', s = TInner p l r -> s' = TInner p l' r' -> answers (issubset_in ct M k2p o s) (issubset_in ct M k2p o' s')) ->
    answers (issubset_in ct M k2p o s) (issubset_in ct M k2p o' s')).
  { intros o o' s s' Bs Bo H b E. pose proof Bs as (Gs & Gs' & S). pose proof (good_kind ct M ks vs I _ Gs) as N1. pose proof (good_kind ct M ks vs I _ Gs') as N2.
    pose proof (same_twin ct M ks vs I _ _ S) as TW. destruct TW as [|k v k' v' A A'|p l r l' r' Sl Sr|kd dh u KD|kd dh u KD].
    - destruct o, o'; cbn in E |- *; auto.
    - destruct (both_leaf _ _ _ _ Bs) as (FK & FV). destruct (lookup_same _ _ _ _ Bo FK) as (L1 & L2).
      assert (issubset_in ct M k2p o (TLeaf k v) = match tgetitem ct k2p o k with Ok w => py_eq ct v w | Err KeyError => Ok false | Err e => Err e end) as X by (destruct o; reflexivity).
      assert (issubset_in ct M k2p o' (TLeaf k' v') = match tgetitem ct k2p o' k' with Ok w => py_eq ct v' w | Err KeyError => Ok false | Err e => Err e end) as X' by (destruct o'; reflexivity).
      rewrite X in E. rewrite X'. destruct (tgetitem ct k2p o k) as [w|e].
      + destruct (L1 w eq_refl) as [-> |(w' & -> & FW)]; [left; reflexivity|]. right. rewrite <- (fair_eq _ _ _ _ _ _ FV FW). exact E.
      + destruct e; try discriminate E. destruct (L2 eq_refl) as [-> | ->]; auto.
    - exact (H p l r l' r' eq_refl eq_refl b E).
    - destruct kd; cbn in N1; try congruence.
      + assert (issubset_in ct M k2p o (TPruned BEmpty dh) = Ok true) as X by (destruct o; reflexivity). rewrite X in E. right. rewrite <- E.
        destruct u as [| | |[] ?]; try discriminate KD; destruct o'; reflexivity.
      + assert (issubset_in ct M k2p o (TPruned BLeaf dh) = Err PrunedError) as X by (destruct o; reflexivity). rewrite X in E. discriminate.
      + assert (issubset_in ct M k2p o (TPruned BInner dh) = (do e <- node_eq ct M (TPruned BInner dh) o; if e then Ok true else Err PrunedError)) as X by (destruct o; reflexivity). rewrite X in E.
        rewrite (node_eq_same _ _ _ _ Bs Bo) in E. destruct (node_eq ct M u o') as [[]|] eqn:EN; cbn [bind] in E; try discriminate. injection E as <-. right.
        destruct u as [| |p l r|[] ?]; try discriminate KD; [destruct o'; cbn [issubset_in]; rewrite EN; reflexivity|destruct o'; cbn [issubset_in]; rewrite EN; reflexivity].
    - destruct kd; cbn in N2; try congruence.
      + assert (issubset_in ct M k2p o' (TPruned BEmpty dh) = Ok true) as -> by (destruct o'; reflexivity). right. rewrite <- E.
        destruct u as [| | |[] ?]; try discriminate KD; destruct o; reflexivity.
      + left. destruct o'; reflexivity.
      + assert (issubset_in ct M k2p o' (TPruned BInner dh) = (do e <- node_eq ct M (TPruned BInner dh) o'; if e then Ok true else Err PrunedError)) as -> by (destruct o'; reflexivity).
        rewrite <- (node_eq_same _ _ _ _ Bs Bo). destruct (node_eq ct M u o) as [[]|e] eqn:EN; cbn [bind]; [|left; reflexivity|].
        * right. rewrite <- E. destruct u as [| |p l r|[] ?]; try discriminate KD; destruct o; cbn [issubset_in]; rewrite EN; reflexivity.
        * exfalso. destruct u as [| |p l r|[] ?]; try discriminate KD; destruct o; cbn [issubset_in] in E; rewrite EN in E; discriminate. }
  induction o as [|ko vo|q tl IHl tr IHr|ko dho]; intros o' s s' Bs Bo; (apply common; [exact Bs|exact Bo|]); intros p l r l' r' -> -> b E; pose proof Bo as (Go & Go' & So); pose proof (same_kind ct M ks vs I _ _ So) as KO.
  - right. destruct o' as [| | |[] dh]; try discriminate KO; cbn [issubset_in prefix_of bind] in E |- *; rewrite <- (node_eq_same _ _ _ _ Bs Bo); exact E.
  - destruct o' as [|k' v'| |[] dh]; try discriminate KO.
    + cbn [issubset_in] in E |- *. rewrite <- (node_eq_same _ _ _ _ Bs Bo). destruct (node_eq ct M (TInner p l r) (TLeaf ko vo)) as [[]|]; cbn [bind] in *; [auto| |discriminate].
      destruct (both_leaf _ _ _ _ Bo) as ((Hk & Ak & Hk' & Ak' & AK) & _). cbn [prefix_of bind] in *.
      assert (k2p k' = k2p ko) as -> by (symmetry; apply R; [exact Hk|exact Hk'|]; exact (agree_eq ct ks _ _ W Hk Hk' Ak Ak' AK)). right. exact E.
    + cbn [issubset_in] in E |- *. rewrite <- (node_eq_same _ _ _ _ Bs Bo). destruct (node_eq ct M (TInner p l r) (TLeaf ko vo)) as [[]|]; cbn [bind] in *; [auto| |discriminate]. left. reflexivity.
  - destruct o' as [| |q' tl' tr'|[] dh]; try discriminate KO.
    + pose proof (same_twin ct M ks vs I _ _ So) as TW. inversion TW as [| |? ? ? ? ? Sl Sr| |]; subst. destruct (both_inner _ _ _ _ _ Bs) as (Bl & Br), (both_inner _ _ _ _ _ Bo) as (Btl & Btr).
      cbn [issubset_in] in E |- *. rewrite <- (node_eq_same _ _ _ _ Bs Bo). destruct (node_eq ct M (TInner p l r) (TInner q' tl tr)) as [[]|]; cbn [bind] in *; [auto| |discriminate].
      cbn [prefix_of bind] in *. destruct (bools_eqb p q').
      * rewrite <- (node_eq_same _ _ _ _ Bl Btl), <- (node_eq_same _ _ _ _ Br Btr). destruct (node_eq ct M l tl) as [x|]; cbn [bind] in *; [|discriminate].
        destruct (if x then node_eq ct M r tr else Ok false) as [y|]; cbn [bind] in *; [|discriminate]. destruct (assert (negb y)) as [[]|]; cbn [bind] in *; [|discriminate].
        destruct (issubset_via ct M (issubset_in ct M k2p tl) l tl) as [a|] eqn:Ea; cbn [bind] in E; [|discriminate].
        destruct (via_same (issubset_in ct M k2p tl) (issubset_in ct M k2p tl') l l' tl tl' Bl Btl (IHl tl' l l' Bl Btl) a Ea) as [-> | ->]; [left; reflexivity|]. cbn [bind].
        destruct a; [|right; exact E]. exact (via_same (issubset_in ct M k2p tr) (issubset_in ct M k2p tr') r r' tr tr' Br Btr (IHr tr' r r' Br Btr) b E).
      * destruct (startswith p q'); [|right; exact E].
        destruct (assert (List.length q' <? List.length p)%nat); cbn [bind] in *; [|discriminate]. destruct (bit p (List.length q')) as [[]|]; cbn [bind] in *; [| |discriminate].
        -- exact (IHr tr' _ _ Bs Btr b E).
        -- exact (IHl tl' _ _ Bs Btl b E).
    + cbn [issubset_in] in E |- *. rewrite <- (node_eq_same _ _ _ _ Bs Bo). destruct (node_eq ct M (TInner p l r) (TInner q tl tr)) as [[]|]; cbn [bind] in *; [auto| |discriminate]. left. reflexivity.
  - pose proof (good_kind ct M ks vs I _ Go) as N1. cbn in N1. cbn [issubset_in] in E. destruct (node_eq ct M (TInner p l r) (TPruned ko dho)) as [[]|] eqn:EN; cbn [bind] in E; [| |discriminate].
    + injection E as <-. right. rewrite (node_eq_same _ _ _ _ Bs Bo) in EN. destruct o'; cbn [issubset_in]; rewrite EN; reflexivity.
    + destruct ko; try discriminate E. rewrite (node_eq_same _ _ _ _ Bs Bo) in EN. cbn [bkind_of] in KO.
      right. destruct o' as [| | |[] dh]; try discriminate KO; cbn [issubset_in]; rewrite EN; cbn [bind prefix_of] in *; exact E.
Qed.

Lemma hash_same t1 t2 h : holds ct (SerProof (b_base M)) (bnode M t1) -> holds ct (SerProof (b_base M)) (bnode M t2) -> phash ct (bnode M t1) = Ok h -> phash ct (bnode M t2) = Ok h ->
  both t1 t2 \/ hash_collision ct (bnode M t1) (bnode M t2).
Proof.
  intros A1 A2 H1 H2. destruct (holds_class _ _ _ A1) as (k1 & K1 & S1), (holds_class _ _ _ A2) as (k2 & K2 & S2).
  destruct (hash_binding ct W T _ _ _ _ k1 k2 h A1 A2 K1 K2) as [A|C]; [|exact H1|exact H2| |right; exact C].
  { eapply (tag_distinct ct T (b_inner M) "left" (SerProof (b_base M))); [rewrite (mb_inner _ _ _ _ I); right; left; reflexivity|exact S1|exact S2]. }
  left. split; [split; eauto|split; [split; eauto|exact A]].
Qed.

Lemma tree_base t : any_tree ct M t -> bkind_eqb (bkind_of t) BBase = whole_pruned t /\ (whole_pruned t = false -> holds ct (SerProof (b_base M)) (bnode M t)).
Proof.
  intros [A|(dh & ->)]; [|split; [reflexivity|discriminate]]. split; [|auto]. destruct t as [| | |[] ?]; reflexivity.
Qed.

Theorem subsets_agree t o t' o' h g b : any_tree ct M t -> any_tree ct M o -> any_tree ct M t' -> any_tree ct M o' ->
  phash ct (bnode M t) = Ok h -> phash ct (bnode M t') = Ok h -> phash ct (bnode M o) = Ok g -> phash ct (bnode M o') = Ok g ->
  issubset ct M k2p t o = Ok b ->
  (exists e, issubset ct M k2p t' o' = Err e /\ no_answer t' o' e) \/ issubset ct M k2p t' o' = Ok b \/
  hash_collision ct (bnode M t) (bnode M t') \/ hash_collision ct (bnode M o) (bnode M o').
Proof.
  intros At Ao At' Ao' Ht Ht' Ho Ho' E. unfold issubset, issubset_via in *.
  destruct (tree_base _ At) as (Kt & Gt), (tree_base _ Ao) as (Ko & Go), (tree_base _ At') as (Kt' & Gt'), (tree_base _ Ao') as (Ko' & Go'). rewrite Kt, Ko in E. rewrite Kt', Ko'.
  destruct both_empty as ((_ & z & Ez) & _).
  unfold node_eq, proof_eq in *. rewrite Ht, Ho, Ez in E. rewrite Ht', Ho', Ez. cbn [bind] in *.
  destruct (whole_pruned t') eqn:Wt', (whole_pruned o') eqn:Wo'; cbn [Bool.eqb negb].
  2,3: left; exists TypeError; split; [reflexivity|]; unfold no_answer; rewrite Wt', Wo'; reflexivity.
  - destruct (Bool.eqb (whole_pruned t) (whole_pruned o)); cbn [negb] in E; [|discriminate]. destruct (bytes_eqb h g); [auto|]. destruct (bytes_eqb g z); [auto|].
    left. exists NotImplementedError. destruct t' as [| | |[] ?]; try discriminate Wt'. split; [destruct o'; reflexivity|]. unfold no_answer. rewrite Wo'. reflexivity.
  - destruct (Bool.eqb (whole_pruned t) (whole_pruned o)) eqn:EW; cbn [negb] in E; [|discriminate]. destruct (bytes_eqb h g); [auto|]. destruct (bytes_eqb g z); [auto|].
    destruct (whole_pruned t) eqn:Wt.
    { destruct t as [| | |[] ?]; try discriminate Wt. exfalso. destruct o; discriminate E. }
    destruct (whole_pruned o) eqn:Wo; [discriminate EW|].
    destruct (hash_same t t' h (Gt eq_refl) (Gt' eq_refl) Ht Ht') as [Bt|C]; [|auto]. destruct (hash_same o o' g (Go eq_refl) (Go' eq_refl) Ho Ho') as [Bo|C]; [|auto].
    destruct (subset_same o o' t t' Bt Bo b E) as [X|X]; [|auto]. left. exists PrunedError. split; [exact X|]. unfold no_answer. rewrite Wt', Wo'. reflexivity.
Qed.
End Sub.

Section HonestSub.
Context (ct : ctable) (M : mbt_classes) (ks vs : ser) (k2p : val -> list bool) (K : val -> Prop) (n : nat).
Context (W : wf_table ct) (T : wf_tags ct) (I : is_mbt ct M ks vs) (G : good_keys ct k2p K n).

Theorem subsets_documented D1 D2 t o t' o' h g : prefix_respects ct ks k2p -> history ct M k2p K D1 (Ok t) -> history ct M k2p K D2 (Ok o) ->
  (forall k v, In (k, v) D1 \/ In (k, v) D2 -> entry_fine ct ks vs k v) -> any_tree ct M t' -> any_tree ct M o' ->
  phash ct (bnode M t) = Ok h -> phash ct (bnode M t') = Ok h -> phash ct (bnode M o) = Ok g -> phash ct (bnode M o') = Ok g ->
  (exists e, issubset ct M k2p t' o' = Err e /\ no_answer t' o' e) \/ (exists b, issubset ct M k2p t' o' = Ok b /\ (b = true <-> sub_map ct D1 D2)) \/
  hash_collision ct (bnode M t) (bnode M t') \/ hash_collision ct (bnode M o) (bnode M o') \/ collision_among ct [bnode M t; bnode M o; bnode M TEmpty].
Proof.
  intros R H1 H2 F A1 A2 P1 P1' P2 P2'.
  assert (HT : forall D t, history ct M k2p K D (Ok t) -> (forall k v, In (k, v) D -> entry_fine ct ks vs k v) -> any_tree ct M t).
  { intros D x H FF. destruct (history_ok ct M ks vs k2p K n W I G D _ H) as (x0 & E0 & TT & Q). injection E0 as <-.
    left; eapply tree_holds; [eassumption..|]; apply (fine_entries ct ks vs D); assumption. }
  destruct (issubset_map ct M ks vs k2p K n D1 D2 t o W T I G H1 H2 F) as [(b & E & S)|C]; [|auto].
  destruct (subsets_agree ct M ks vs k2p W T I R t o t' o' h g b) as [X|[X|[X|X]]]; auto.
  - apply (HT D1); auto.
  - apply (HT D2); auto.
  - right. left. eauto.
Qed.
End HonestSub.
