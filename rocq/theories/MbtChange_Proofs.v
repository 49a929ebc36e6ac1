From Coq Require Import ZifyBool ZifyNat ZifyN.
From Verif Require Import Base Sha256 Serialize_Model Serialize_Spec Serialize_Proofs Tx_Model Tx_Spec Tx_Proofs Proof_Model Proof_Spec Proof_Proofs ProofHash_Proofs
  Merbinner_Model Merbinner_Spec Merbinner_Proofs MerbinnerHash_Proofs MerbinnerSubset_Proofs MbtChange_Spec.

Section Change.
Context (ct : ctable) (M : mbt_classes) (ks vs : ser) (k2p : val -> list bool).
Context (W : wf_table ct) (T : wf_tags ct) (I : is_mbt ct M ks vs) (R : prefix_respects ct ks k2p).

Definition good (t : mbt) : Prop := holds ct (SerProof (b_base M)) (bnode M t) /\ exists h, phash ct (bnode M t) = Ok h.
Definition same (t1 t2 : mbt) : Prop := agree ct (bnode M t1) (bnode M t2).

(** The variants all have tags. *)
Lemma variant_tag c : In c [b_empty M; b_leaf M; b_inner M] -> exists t, c_hash (ct c) = HTag (Some t).
Proof.
  intros H. pose proof (mb_distinct _ _ _ _ I) as ND. inversion ND as [|? ? N1 ND1]; subst. inversion ND1 as [|? ? N2 ND2]; subst. inversion ND2 as [|? ? N3 _]; subst.
  assert (S : forall c, In c [b_empty M; b_leaf M; b_inner M] -> standing ct (SerProof (b_base M)) c).
  { intros d Hd. cbn. unfold declared. rewrite (mb_kinds _ _ _ _ I) by (left; reflexivity). exact Hd. }
  assert (exists d, In d [b_empty M; b_leaf M; b_inner M] /\ c <> d) as (d & Hd & N).
  { destruct H as [<-|H]; [exists (b_leaf M); split; [cbn; auto|]; intros E; apply N2; rewrite E; cbn; auto|].
    exists (b_empty M). split; [cbn; auto|]. intros E. apply N2. rewrite <- E. exact H. }
  destruct (tag_distinct ct T (b_inner M) "left" (SerProof (b_base M)) c d) as [E|(t1 & t2 & E & _)]; [rewrite (mb_inner _ _ _ _ I); right; left; reflexivity|exact (S c H)|exact (S d Hd)|contradiction|eauto].
Qed.

Lemma good_kind t : good t -> bkind_of t <> BBase.
Proof.
  intros (H & _) E. destruct t as [| | |k dh]; try discriminate E. cbn in E. subst k. cbn [bnode bkind_class] in H. inversion H as [| |? ? ? D| ]; subst; [discriminate|].
  unfold declared in D. rewrite (mb_kinds _ _ _ _ I) in D by (left; reflexivity).
  pose proof (mb_distinct _ _ _ _ I) as ND. inversion ND as [|? ? N1 ND1]; subst. exact (N1 D).
Qed.

Lemma good_inner p l r : good l -> good r -> good (TInner p l r).
Proof.
  intros (Hl & hl & El) (Hr & hr & Er). split.
  - cbn [bnode]. apply Ho_full; [unfold declared; rewrite (mb_kinds _ _ _ _ I) by (left; reflexivity); cbn; auto|]. rewrite (mb_inner _ _ _ _ I).
    constructor; [apply Ho_leaf; [reflexivity|constructor; exact Logic.I]|]. constructor; [exact Hl|]. constructor; [exact Hr|constructor].
  - destruct (variant_tag (b_inner M)) as (t & E); [cbn; auto|]. unfold phash in *. cbn [bnode hashes snd]. rewrite E. unfold tagged. rewrite E, (mb_inner _ _ _ _ I).
    destruct (leaf_ser_ok ct SerBits (VBits p)) as (x & ->); [constructor; exact Logic.I|]. cbn [bind]. rewrite El, Er. cbn [bind]. eauto.
Qed.
Lemma good_leaf k v : entry_fine ct ks vs k v -> good (TLeaf k v).
Proof.
  intros (Hk & Hv & Ak & Av).
  assert (H : holds ct (SerProof (b_base M)) (bnode M (TLeaf k v))).
  { cbn [bnode]. apply Ho_full; [unfold declared; rewrite (mb_kinds _ _ _ _ I) by (left; reflexivity); cbn; auto|]. rewrite (mb_leaf _ _ _ _ I).
    constructor; [exact Hk|]. constructor; [exact Hv|constructor]. }
  split; [exact H|]. destruct (variant_tag (b_leaf M)) as (t & E); [cbn; auto|].
  assert (P : forall sr f, holds ct sr f -> hashable ct f -> exists x, match sr with SerProof _ | SerUnion _ => snd (hashes ct f) | _ => ser_leaf sr f end = Ok x).
  { intros sr f Hf Af. destruct sr; try (apply holds_leaf in Hf; [exact (leaf_ser_ok ct _ f Hf)|exact Logic.I]).
    - destruct (holds_class _ _ _ Hf) as (? & X & _). apply Af. unfold is_proof. rewrite X. reflexivity.
    - destruct (holds_proof _ _ _ Hf) as (? & Hf'). destruct (holds_class _ _ _ Hf') as (? & X & _). apply Af. unfold is_proof. rewrite X. reflexivity. }
  unfold phash. cbn [bnode hashes snd]. rewrite E. unfold tagged. rewrite E, (mb_leaf _ _ _ _ I).
  destruct (P ks k Hk Ak) as (x & ->). cbn [bind]. destruct (P vs v Hv Av) as (y & ->). cbn [bind]. eauto.
Qed.
Lemma good_parts p l r : good (TInner p l r) -> good l /\ good r.
Proof.
  intros (H & h & E). destruct (inner_holds_parts ct M ks vs I p l r H) as (Hl & Hr).
  destruct (variant_tag (b_inner M)) as (t & Et); [cbn; auto|]. unfold phash in E. cbn [bnode hashes snd] in E. rewrite Et in E. unfold tagged in E. rewrite (mb_inner _ _ _ _ I) in E.
  destruct (ser_leaf SerBits (VBits p)) as [x|]; [|discriminate]. cbn [bind] in E.
  destruct (snd (hashes ct (bnode M l))) as [hl|] eqn:El; [|discriminate]. cbn [bind] in E. destruct (snd (hashes ct (bnode M r))) as [hr|] eqn:Er; [|discriminate].
  split; (split; [assumption|]); unfold phash; eauto.
Qed.
Lemma good_key k v : good (TLeaf k v) -> holds ct ks k /\ hashable ct k.
Proof.
  intros (H & h & E). destruct (leaf_holds_parts ct M ks vs I k v H) as (Hk & _). split; [exact Hk|]. intros P.
  destruct (variant_tag (b_leaf M)) as (t & Et); [cbn; auto|]. unfold phash in E. cbn [bnode hashes snd] in E. rewrite Et in E. unfold tagged in E. rewrite (mb_leaf _ _ _ _ I) in E.
  destruct ks; try (apply holds_leaf in Hk; [inversion Hk; subst; discriminate P|exact Logic.I]); unfold phash; destruct (snd (hashes ct k)) as [hk|]; eauto; discriminate.
Qed.

Inductive twin : mbt -> mbt -> Prop :=
| Tw_empty : twin TEmpty TEmpty
| Tw_leaf k v k' v' : agree ct k k' -> agree ct v v' -> twin (TLeaf k v) (TLeaf k' v')
| Tw_inner p l r l' r' : same l l' -> same r r' -> twin (TInner p l r) (TInner p l' r')
| Tw_left k dh t : bkind_of t = k -> twin (TPruned k dh) t
| Tw_right k dh t : bkind_of t = k -> twin t (TPruned k dh).

Lemma same_twin t1 t2 : same t1 t2 -> twin t1 t2.
Proof.
  intros A. pose proof (bagree_kind ct M ks vs I _ _ A) as EK. unfold same in A.
  destruct t1 as [|k v|p l r|k dh], t2 as [|k2 v2|p2 l2 r2|k2 dh2]; cbn [bkind_of] in EK; try discriminate EK; try (first [apply Tw_empty|apply Tw_left; cbn; congruence|apply Tw_right; cbn; congruence]).
  - cbn [bnode] in A. inversion A as [? E|? ? ? F E E2| |]; subst; [apply Tw_leaf; apply A_refl|].
    inversion F as [|? ? ? ? F1 F']; subst. inversion F' as [|? ? ? ? F2 _]; subst. apply Tw_leaf; assumption.
  - cbn [bnode] in A. inversion A as [? E|? ? ? F E E2| |]; subst.
    + match goal with H : bnode M l = bnode M l2 |- _ => assert (same l l2) by (unfold same; rewrite H; apply A_refl) end.
      match goal with H : bnode M r = bnode M r2 |- _ => assert (same r r2) by (unfold same; rewrite H; apply A_refl) end.
      apply Tw_inner; assumption.
    + inversion F as [|? ? ? ? F1 F']; subst. inversion F' as [|? ? ? ? F2 F'']; subst. inversion F'' as [|? ? ? ? F3 _]; subst.
      assert (p = p2) as -> by (inversion F1; congruence). apply Tw_inner; assumption.
Qed.
Lemma same_kind t1 t2 : same t1 t2 -> bkind_of t1 = bkind_of t2.
Proof. exact (bagree_kind ct M ks vs I t1 t2). Qed.
Lemma same_inner p l r l' r' : same l l' -> same r r' -> same (TInner p l r) (TInner p l' r').
Proof. intros A B. unfold same. cbn [bnode]. apply A_full. constructor; [apply A_refl|]. constructor; [exact A|]. constructor; [exact B|constructor]. Qed.
Lemma same_hash t1 t2 h1 h2 : good t1 -> good t2 -> same t1 t2 -> phash ct (bnode M t1) = Ok h1 -> phash ct (bnode M t2) = Ok h2 -> h1 = h2.
Proof. intros (G1 & _) (G2 & _) A E1 E2. exact (agree_hash ct W _ _ _ _ h1 h2 G1 G2 A E1 E2). Qed.

(** The same key of two trees. *)
Lemma same_key_eq k v k' v' : good (TLeaf k v) -> good (TLeaf k' v') -> agree ct k k' -> py_eq ct k k' = Ok true.
Proof. intros G1 G2 A. destruct (good_key _ _ G1) as (H1 & A1), (good_key _ _ G2) as (H2 & A2). exact (agree_eq ct ks k k' W H1 H2 A1 A2 A). Qed.
Lemma prefix_same t1 t2 p : good t1 -> good t2 -> same t1 t2 -> prefix_of k2p t1 = Ok p -> prefix_of k2p t2 = Ok p \/ prefix_of k2p t2 = Err PrunedError.
Proof.
  intros G1 G2 S E. pose proof (good_kind _ G1) as B1. pose proof (good_kind _ G2) as B2. destruct (same_twin _ _ S) as [|k v k' v' A _|q l r l' r' _ _|k dh t K|k dh t K]; cbn [prefix_of] in *.
  - auto.
  - left. rewrite <- E. f_equal. destruct (good_key _ _ G1) as (H1 & A1), (good_key _ _ G2) as (H2 & A2). symmetry. apply R; [exact H1|exact H2|]. exact (agree_eq ct ks k k' W H1 H2 A1 A2 A).
  - auto.
  - destruct k; try discriminate E. destruct t as [| | |[] ?]; try discriminate K; cbn; auto.
  - destruct k; cbn in B2; try congruence; auto. destruct t as [| | |[] ?]; try discriminate K; cbn in *; auto.
Qed.

Definition both (t1 t2 : mbt) : Prop := good t1 /\ good t2 /\ same t1 t2.

Lemma descend_same q : forall t1 t2 s1, both t1 t2 -> descend t1 q = Ok s1 ->
  descend t2 q = Err PrunedError \/ exists s2, descend t2 q = Ok s2 /\ Forall2 both s1 s2.
Proof.
  assert (one : forall a b, both a b -> Forall2 both [a] [b]) by (intros; constructor; [assumption|constructor]).
  induction t1 as [|k v|p l IHl r IHr|k dh]; intros t2 s1 B E; pose proof B as (G1 & G2 & S); pose proof (good_kind _ G2) as B2; cbn [descend] in E.
  - inversion E; subst. pose proof (same_twin _ _ S) as TW; inversion TW as [| | | |k dh t K]; subst; cbn [descend bkind_of]; right; eexists; (split; [reflexivity|apply one, B]).
  - inversion E; subst. pose proof (same_twin _ _ S) as TW; inversion TW as [| | | |k' dh t K]; subst; cbn [descend bkind_of]; right; eexists; (split; [reflexivity|apply one, B]).
  - pose proof (same_twin _ _ S) as TW; inversion TW as [| |? ? ? l' r' Sl Sr| |k' dh t K]; subst; [|left; reflexivity]. cbn [descend].
    destruct (good_parts _ _ _ G1) as (Gl & Gr), (good_parts _ _ _ G2) as (Gl' & Gr').
    destruct (_ && _); [|inversion E; subst; right; eexists; split; [reflexivity|apply one, B]].
    destruct (bit q (List.length p)) as [[]|e]; cbn [bind] in *; [| |discriminate].
    + destruct (descend r q) as [x|] eqn:D; cbn [bind] in E; [|discriminate]. inversion E; subst.
      destruct (IHr r' x (conj Gr (conj Gr' Sr)) eq_refl) as [-> |(y & -> & F)]; cbn [bind]; [left; reflexivity|]. right. eexists. split; [reflexivity|].
      apply Forall2_app; [exact F|apply one; exact (conj Gl (conj Gl' Sl))].
    + destruct (descend l q) as [x|] eqn:D; cbn [bind] in E; [|discriminate]. inversion E; subst.
      destruct (IHl l' x (conj Gl (conj Gl' Sl)) eq_refl) as [-> |(y & -> & F)]; cbn [bind]; [left; reflexivity|]. right. eexists. split; [reflexivity|].
      apply Forall2_app; [exact F|apply one; exact (conj Gr (conj Gr' Sr))].
  - pose proof (same_kind _ _ S) as K. cbn [bkind_of] in K. destruct k; try discriminate E; inversion E; subst; right; exists [t2]; (split; [|apply one, B]);
      destruct t2 as [| | |[] ?]; try discriminate K; reflexivity.
Qed.

Lemma construct_tinner_kinds l r p : bkind_of l <> BBase -> bkind_of r <> BBase ->
  construct ct (b_inner M) [("left"%string, bnode M l); ("right"%string, bnode M r); ("prefix"%string, VBits p)] = Ok (bnode M (TInner p l r)).
Proof.
  assert (C : forall t, bkind_of t <> BBase -> In (bkind_class M (bkind_of t)) [b_empty M; b_leaf M; b_inner M]) by (intros t N; destruct (bkind_of t); cbn; auto; congruence).
  intros Nl Nr. unfold construct. rewrite (mb_inner _ _ _ _ I).
  destruct (bcheck_node ct M ks vs W I (bnode M l) _ (bclass_kind M l) (C l Nl)) as (C1 & P1). destruct (bcheck_node ct M ks vs W I (bnode M r) _ (bclass_kind M r) (C r Nr)) as (C2 & P2).
  cbn [construct_loop assoc]. change (String.eqb "left" "left") with true. change (String.eqb "left" "right") with false.
  change (String.eqb "right" "right") with true. change (String.eqb "left" "prefix") with false. change (String.eqb "right" "prefix") with false.
  change (String.eqb "prefix" "prefix") with true. cbn [bind]. change (check ct SerBits (VBits p)) with (@Ok unit tt). cbn [bind]. rewrite C1, P1, C2, P2. reflexivity.
Qed.

Lemma tinner_same a b a' b' u : both a a' -> both b b' -> tinner_new ct M k2p a b = Ok u ->
  tinner_new ct M k2p a' b' = Err PrunedError \/ exists u', tinner_new ct M k2p a' b' = Ok u' /\ both u u'.
Proof.
  intros (Ga & Ga' & Sa) (Gb & Gb' & Sb) E. unfold tinner_new in *.
  destruct (prefix_of k2p a) as [fp|] eqn:Ea; [|discriminate]. cbn [bind] in E. destruct (prefix_of k2p b) as [sp|] eqn:Eb; [|discriminate]. cbn [bind] in E.
  destruct (prefix_same a a' fp Ga Ga' Sa Ea) as [-> | ->]; [|left; reflexivity]. cbn [bind].
  destruct (prefix_same b b' sp Gb Gb' Sb Eb) as [-> | ->]; [|left; reflexivity]. cbn [bind].
  destruct (assert (negb (bools_eqb fp sp))); [|discriminate]. cbn [bind] in *.
  destruct (assert ((List.length (common_prefix fp sp) <? List.length fp) && (List.length (common_prefix fp sp) <=? List.length sp))); [|discriminate]. cbn [bind] in *.
  destruct (bit sp (List.length (common_prefix fp sp))) as [[]|]; cbn [bind] in *; [| |discriminate];
    rewrite construct_tinner_kinds in E by (apply good_kind; assumption); rewrite construct_tinner_kinds by (apply good_kind; assumption); cbn [bind] in *; inversion E; subst;
    right; eexists; (split; [reflexivity|]); (split; [apply good_inner; assumption|split; [apply good_inner; assumption|apply same_inner; assumption]]).
Qed.

Lemma rebuild_same chk : (forall s s', bkind_of s = bkind_of s' -> chk s = chk s') -> forall s1 s2 a a' u, Forall2 both s1 s2 -> both a a' -> rebuild ct M k2p chk a s1 = Ok u ->
  rebuild ct M k2p chk a' s2 = Err PrunedError \/ exists u', rebuild ct M k2p chk a' s2 = Ok u' /\ both u u'.
Proof.
  intros C. induction s1 as [|s s1 IH]; intros s2 a a' u F B E; inversion F as [|? s' ? s2' Bs F']; subst; cbn [rebuild] in *.
  - inversion E; subst. right. eauto.
  - rewrite <- (C s s') by (destruct Bs as (_ & _ & S); exact (same_kind _ _ S)). destruct (chk s); [|discriminate]. cbn [bind] in *.
    destruct (tinner_new ct M k2p a s) as [x|] eqn:Ex; [|discriminate]. cbn [bind] in E.
    destruct (tinner_same _ _ _ _ _ B Bs Ex) as [-> |(y & -> & By)]; [left; reflexivity|]. cbn [bind]. exact (IH s2' x y u F' By E).
Qed.

Lemma put_same t1 t2 k v u : entry_fine ct ks vs k v -> both t1 t2 -> put ct M k2p t1 k v = Ok u ->
  put ct M k2p t2 k v = Err PrunedError \/ exists u', put ct M k2p t2 k v = Ok u' /\ both u u'.
Proof.
  intros F B E. unfold put in *. destruct (tleaf_new ct M k v) as [x|] eqn:Ex; [|discriminate]. assert (x = TLeaf k v) as ->.
  { unfold tleaf_new in Ex. destruct (construct _ _ _); [|discriminate]. inversion Ex. reflexivity. }
  assert (BL : both (TLeaf k v) (TLeaf k v)) by (split; [apply good_leaf, F|split; [apply good_leaf, F|apply A_refl]]).
  cbn [bind prefix_of] in *. destruct (descend t1 (k2p k)) as [s1|] eqn:D; [|discriminate]. cbn [bind] in E.
  destruct (descend_same _ _ _ _ B D) as [-> |(s2 & -> & Fs)]; [left; reflexivity|]. cbn [bind].
  destruct Fs as [|c1 c2 r1 r2 Bc Fr]; [discriminate|]. assert (KE : bkind_of c1 = bkind_of c2) by (destruct Bc as (_ & _ & S); exact (same_kind _ _ S)). rewrite <- KE.
  destruct (bkind_eqb (bkind_of c1) BEmpty); [inversion E; subst; right; eauto|].
  destruct (tinner_new ct M k2p (TLeaf k v) c1) as [y|] eqn:Ey; [|discriminate]. cbn [bind] in E.
  destruct (tinner_same _ _ _ _ _ BL Bc Ey) as [-> |(z & -> & Bz)]; [left; reflexivity|]. cbn [bind].
  exact (rebuild_same (fun _ => Ok tt) (fun _ _ _ => eq_refl) r1 r2 y z u Fr Bz E).
Qed.

(** Comparing with the same key of another tree. *)
Lemma eq_same k v k' v' key b : good (TLeaf k v) -> good (TLeaf k' v') -> agree ct k k' -> py_eq ct k key = Ok b -> py_eq ct k' key = Ok b.
Proof.
  intros G1 G2 A E. destruct (good_key _ _ G1) as (H1 & A1), (good_key _ _ G2) as (H2 & A2).
  pose proof (agree_proof _ _ _ A) as EP. destruct (holds_sort _ _ _ H1) as [(c1 & D1 & P1)|(P1 & D1)]; [|rewrite <- (agree_leaf _ _ _ A P1); exact E].
  destruct (holds_sort _ _ _ H2) as [(c2 & D2 & P2)|(P2 & D2)]; [|congruence]. destruct (A1 P1) as (h1 & E1), (A2 P2) as (h2 & E2).
  pose proof (agree_hash ct W _ _ _ _ h1 h2 D1 D2 A E1 E2) as ->.
  destruct (is_proof key) eqn:PK.
  - rewrite py_eq_proofs in E by assumption. rewrite py_eq_proofs by assumption. unfold proof_eq in *. rewrite E1 in E. rewrite E2. exact E.
  - unfold is_proof in P1, P2, PK. destruct k, key; try discriminate; destruct k'; try discriminate; exact E.
Qed.

Lemma remove_same t1 t2 k u : both t1 t2 -> remove ct M k2p t1 k = Ok u ->
  remove ct M k2p t2 k = Err PrunedError \/ exists u', remove ct M k2p t2 k = Ok u' /\ both u u'.
Proof.
  intros B E. unfold remove in *. destruct (descend t1 (k2p k)) as [s1|] eqn:D; [|discriminate]. cbn [bind] in E.
  destruct (descend_same _ _ _ _ B D) as [-> |(s2 & -> & Fs)]; [left; reflexivity|]. cbn [bind].
  destruct Fs as [|c1 c2 r1 r2 Bc Fr]; [discriminate|]. pose proof Bc as (G1 & G2 & S). rewrite <- (same_kind _ _ S).
  destruct (bkind_eqb (bkind_of c1) BLeaf) eqn:KE; [|discriminate].
  assert (exists k1 v1, c1 = TLeaf k1 v1) as (k1 & v1 & ->) by (destruct c1 as [| | |[] ?]; try discriminate; eauto).
  cbn [key_of bind] in E. destruct (py_eq ct k1 k) as [[]|] eqn:PE; cbn [bind] in E; [|discriminate|discriminate].
  pose proof (same_twin _ _ S) as TW; inversion TW as [|? ? k2 v2 A _| | |? dh ? K]; subst; [|left; reflexivity]. cbn [key_of bind]. rewrite (eq_same _ _ _ _ _ _ G1 G2 A PE). cbn [bind].
  destruct Fr as [|a1 a2 r1 r2 Ba Fr].
  - inversion E; subst. right. exists TEmpty. split; [reflexivity|].
    assert (G : good TEmpty).
    { split; [cbn [bnode]; apply Ho_full; [unfold declared; rewrite (mb_kinds _ _ _ _ I) by (left; reflexivity); cbn; auto|rewrite (mb_empty _ _ _ _ I); constructor]|].
      destruct (variant_tag (b_empty M)) as (t & Et); [cbn; auto|]. unfold phash. cbn [bnode hashes snd]. rewrite Et. unfold tagged. rewrite Et, (mb_empty _ _ _ _ I). cbn [bind]. eauto. }
    split; [exact G|split; [exact G|apply A_refl]].
  - refine (rebuild_same _ _ r1 r2 a1 a2 u Fr Ba E). intros s s' ->. reflexivity.
Qed.

Lemma changes_same : forall cs t1 t2 u, Forall (fine_change ct ks vs) cs -> both t1 t2 -> changes ct M k2p t1 cs = Ok u ->
  changes ct M k2p t2 cs = Err PrunedError \/ exists u', changes ct M k2p t2 cs = Ok u' /\ both u u'.
Proof.
  induction cs as [|[k v|k] cs IH]; intros t1 t2 u F B E; inversion F as [|? ? F1 F2]; subst; cbn [changes] in *.
  - inversion E; subst. right. eauto.
  - destruct (put ct M k2p t1 k v) as [x|] eqn:Ex; [|discriminate]. cbn [bind] in E.
    destruct (put_same _ _ _ _ _ F1 B Ex) as [-> |(y & -> & By)]; [left; reflexivity|]. cbn [bind]. exact (IH x y u F2 By E).
  - destruct (remove ct M k2p t1 k) as [x|] eqn:Ex; [|discriminate]. cbn [bind] in E.
    destruct (remove_same _ _ _ _ B Ex) as [-> |(y & -> & By)]; [left; reflexivity|]. cbn [bind]. exact (IH x y u F2 By E).
Qed.

Lemma changes_base dh c cs u : changes ct M k2p (TPruned BBase dh) (c :: cs) <> Ok u.
Proof.
  intros E. destruct c as [k v|k]; cbn [changes] in E; [|discriminate].
  unfold put in E. destruct (tleaf_new ct M k v) as [x|]; [|discriminate]. cbn [bind] in E. destruct (prefix_of k2p x); [|discriminate]. discriminate.
Qed.

Theorem changes_agree cs t1 t2 h u1 : cs <> [] -> Forall (fine_change ct ks vs) cs -> any_tree ct M t1 -> any_tree ct M t2 ->
  phash ct (bnode M t1) = Ok h -> phash ct (bnode M t2) = Ok h -> changes ct M k2p t1 cs = Ok u1 ->
  (exists e, changes ct M k2p t2 cs = Err e /\ unknown t2 e) \/
  (exists u2 h', changes ct M k2p t2 cs = Ok u2 /\ phash ct (bnode M u1) = Ok h' /\ phash ct (bnode M u2) = Ok h') \/
  hash_collision ct (bnode M t1) (bnode M t2).
Proof.
  intros NE F A1 A2 H1 H2 E. destruct cs as [|c cs]; [contradiction|]. clear NE.
  destruct A1 as [A1|(dh & ->)]; [|exfalso; exact (changes_base _ _ _ _ E)].
  destruct A2 as [A2|(dh & ->)].
  2: { left. exists NotImplementedError. split; [|reflexivity]. inversion F as [|? ? F1 _]; subst. destruct c as [k v|k]; cbn [changes] in *; [|reflexivity].
       unfold put in *. destruct (tleaf_new ct M k v) as [x|] eqn:Ex; [|discriminate]. cbn [bind] in *. destruct (prefix_of k2p x); [reflexivity|discriminate]. }
  destruct (holds_class _ _ _ A1) as (k1 & K1 & S1), (holds_class _ _ _ A2) as (k2 & K2 & S2).
  destruct (hash_binding ct W T _ _ _ _ k1 k2 h A1 A2 K1 K2) as [A|C]; [|exact H1|exact H2| |right; right; exact C].
  { eapply (tag_distinct ct T (b_inner M) "left" (SerProof (b_base M))); [rewrite (mb_inner _ _ _ _ I); right; left; reflexivity|exact S1|exact S2]. }
  assert (B : both t1 t2) by (split; [split; eauto|split; [split; eauto|exact A]]).
  destruct (changes_same (c :: cs) t1 t2 u1 F B E) as [X|(u2 & X & G1 & G2 & S)].
  - left. exists PrunedError. split; [exact X|]. destruct B as (_ & G & _). pose proof (good_kind _ G). destruct t2 as [| | |[] ?]; try reflexivity. cbn in H. congruence.
  - right. left. exists u2. pose proof G1 as (_ & x & Ex). pose proof G2 as (_ & y & Ey). exists x. split; [exact X|]. split; [exact Ex|]. rewrite Ey. f_equal. symmetry. exact (same_hash _ _ _ _ G1 G2 S Ex Ey).
Qed.
End Change.

Section Honest.
Context (ct : ctable) (M : mbt_classes) (ks vs : ser) (k2p : val -> list bool) (K : val -> Prop) (n : nat).
Context (W : wf_table ct) (T : wf_tags ct) (I : is_mbt ct M ks vs) (G : good_keys ct k2p K n).

Lemma changes_history : forall cs D t D', history ct M k2p K D (Ok t) -> map_after D cs D' -> Forall (usable ct M K) cs ->
  exists u, changes ct M k2p t cs = Ok u /\ history ct M k2p K D' (Ok u).
Proof.
  induction cs as [|c cs IH]; intros D t D' H A U; inversion U as [|? ? U1 U2]; subst; inversion A as [|? k v ? ? N A'|D1 k v D2 ? ? A']; subst; cbn [changes].
  - eauto.
  - destruct U1 as (Kk & Ek). pose proof (Hy_put ct M k2p K D (Ok t) k v H Kk Ek N) as H'. cbn [bind] in H'.
    destruct (history_ok ct M ks vs k2p K n W I G _ _ H') as (t' & E & _). rewrite E in H' |- *. cbn [bind]. exact (IH _ _ _ H' A' U2).
  - pose proof (Hy_remove ct M k2p K D1 k v D2 (Ok t) H) as H'. cbn [bind] in H'.
    destruct (history_ok ct M ks vs k2p K n W I G _ _ H') as (t' & E & _). rewrite E in H' |- *. cbn [bind]. exact (IH _ _ _ H' A' U2).
Qed.

Theorem changes_documented cs D D' t t' h : prefix_respects ct ks k2p -> history ct M k2p K D (Ok t) -> (forall k v, In (k, v) D -> entry_fine ct ks vs k v) ->
  cs <> [] -> map_after D cs D' -> Forall (usable ct M K) cs -> Forall (fine_change ct ks vs) cs ->
  any_tree ct M t' -> phash ct (bnode M t) = Ok h -> phash ct (bnode M t') = Ok h ->
  (exists e, changes ct M k2p t' cs = Err e /\ unknown t' e) \/
  (exists u u' h', radix_tree k2p D' u /\ changes ct M k2p t' cs = Ok u' /\ phash ct (bnode M u) = Ok h' /\ phash ct (bnode M u') = Ok h') \/
  hash_collision ct (bnode M t) (bnode M t').
Proof.
  intros R H F NE A U FC AT P P'. destruct (changes_history cs D t D' H A U) as (u & E & H').
  destruct (history_ok ct M ks vs k2p K n W I G D _ H) as (t0 & E0 & TT & Q). injection E0 as <-.
  assert (HT : any_tree ct M t) by (left; eapply tree_holds; [eassumption..|]; apply (fine_entries ct ks vs D); assumption).
  destruct (history_documented ct M ks vs k2p K n D' _ W I G H') as (u0 & E1 & RT). injection E1 as <-.
  destruct (changes_agree ct M ks vs k2p W T I R cs t t' h u NE FC HT AT P P' E) as [X|[(u' & h' & X & Y & Z)|C]]; [left; exact X| |right; right; exact C].
  right. left. exists u, u', h'. auto.
Qed.
End Honest.
