From Coq Require Import ZifyBool ZifyNat ZifyN.
From Verif Require Import Base PySlice PySlice_Proofs Sha256 Serialize_Model Serialize_Spec Serialize_Proofs Tx_Model Tx_Spec Tx_Proofs Proof_Model Proof_Spec Proof_Proofs ProofHash_Proofs
  Mmr_Model Mmr_Spec Mmr_Proofs Merbinner_Model Merbinner_Spec MerbinnerHash_Proofs MmrChange_Spec.
Local Open Scope Z_scope.

Section Change.
Context (ct : ctable) (M : mmr_classes) (sr : ser).
Context (W : wf_table ct) (T : wf_tags ct) (I : is_mmr ct M sr).

Definition mgood (t : mmr) : Prop := holds ct (SerProof (m_base M)) (node M t) /\ exists h, phash ct (node M t) = Ok h.
Definition msame (t1 t2 : mmr) : Prop := agree ct (node M t1) (node M t2).

Lemma mvariant_tag c : In c [m_empty M; m_leaf M; m_inner M] -> exists t, c_hash (ct c) = HTag (Some t).
Proof.
  intros H. pose proof (mm_distinct _ _ _ I) as ND. inversion ND as [|? ? N1 ND1]; subst. inversion ND1 as [|? ? N2 ND2]; subst. inversion ND2 as [|? ? N3 _]; subst.
  assert (S : forall c, In c [m_empty M; m_leaf M; m_inner M] -> standing ct (SerProof (m_base M)) c).
  { intros d Hd. cbn. unfold declared. rewrite (mm_kinds _ _ _ I) by (left; reflexivity). exact Hd. }
  assert (exists d, In d [m_empty M; m_leaf M; m_inner M] /\ c <> d) as (d & Hd & N).
  { destruct H as [<-|H]; [exists (m_leaf M); split; [cbn; auto|]; intros E; apply N2; rewrite E; cbn; auto|].
    exists (m_empty M). split; [cbn; auto|]. intros E. apply N2. rewrite <- E. exact H. }
  destruct (tag_distinct ct T (m_inner M) "left" (SerProof (m_base M)) c d) as [E|(t1 & t2 & E & _)]; [rewrite (mm_inner _ _ _ I); left; reflexivity|exact (S c H)|exact (S d Hd)|contradiction|eauto].
Qed.

Lemma mgood_kind t : mgood t -> kind_of t <> KBase.
Proof.
  intros (H & _) E. destruct t as [| | |k dh]; try discriminate E. cbn in E. subst k. cbn [node kind_class] in H. inversion H as [| |? ? ? D| ]; subst; [discriminate|].
  unfold declared in D. rewrite (mm_kinds _ _ _ I) in D by (left; reflexivity).
  pose proof (mm_distinct _ _ _ I) as ND. inversion ND as [|? ? N1 ND1]; subst. exact (N1 D).
Qed.

Lemma mgood_inner l r n : mgood l -> mgood r -> 0 <= n < 2 ^ 64 -> mgood (Inner l r n).
Proof.
  intros (Hl & hl & El) (Hr & hr & Er) Hn.
  assert (Fn : fits ct any_bits (SerPrim UInt64) (VPrim (PyInt n))) by (constructor; unfold UInt64; cbn; lia). split.
  - cbn [node]. apply Ho_full; [unfold declared; rewrite (mm_kinds _ _ _ I) by (left; reflexivity); cbn; auto|]. rewrite (mm_inner _ _ _ I).
    constructor; [exact Hl|]. constructor; [exact Hr|]. constructor; [|constructor]. apply Ho_leaf; [reflexivity|exact Fn].
  - destruct (mvariant_tag (m_inner M)) as (t & E); [cbn; auto|]. unfold phash in *. cbn [node hashes snd]. rewrite E. unfold tagged. rewrite E, (mm_inner _ _ _ I).
    rewrite El. cbn [bind]. rewrite Er. cbn [bind]. destruct (leaf_ser_ok ct (SerPrim UInt64) (VPrim (PyInt n)) Fn) as (x & ->). cbn [bind]. eauto.
Qed.
Lemma mgood_leaf v : fine_value ct sr v -> mgood (Leaf v).
Proof.
  intros (Hv & Av). split.
  - cbn [node]. apply Ho_full; [unfold declared; rewrite (mm_kinds _ _ _ I) by (left; reflexivity); cbn; auto|]. rewrite (mm_leaf _ _ _ I).
    constructor; [exact Hv|constructor].
  - destruct (mvariant_tag (m_leaf M)) as (t & E); [cbn; auto|].
    assert (P : exists x, match sr with SerProof _ | SerUnion _ => snd (hashes ct v) | _ => ser_leaf sr v end = Ok x).
    { clear I T. destruct sr; try (apply holds_leaf in Hv; [exact (leaf_ser_ok ct _ v Hv)|exact Logic.I]).
      - destruct (holds_class _ _ _ Hv) as (? & X & _). apply Av. unfold is_proof. rewrite X. reflexivity.
      - destruct (holds_proof _ _ _ Hv) as (? & Hv'). destruct (holds_class _ _ _ Hv') as (? & X & _). apply Av. unfold is_proof. rewrite X. reflexivity. }
    unfold phash. cbn [node hashes snd]. rewrite E. unfold tagged. rewrite E, (mm_leaf _ _ _ I). destruct P as (x & ->). cbn [bind]. eauto.
Qed.
Lemma mgood_empty : mgood Empty.
Proof.
  split; [cbn [node]; apply Ho_full; [unfold declared; rewrite (mm_kinds _ _ _ I) by (left; reflexivity); cbn; auto|rewrite (mm_empty _ _ _ I); constructor]|].
  destruct (mvariant_tag (m_empty M)) as (t & Et); [cbn; auto|]. unfold phash. cbn [node hashes snd]. rewrite Et. unfold tagged. rewrite Et, (mm_empty _ _ _ I). cbn [bind]. eauto.
Qed.
Lemma mgood_parts l r n : mgood (Inner l r n) -> mgood l /\ mgood r /\ 0 <= n < 2 ^ 64.
Proof.
  intros (H & h & E). cbn [node] in H. inversion H as [|? ? ? D F| |]; subst; [discriminate|]. rewrite (mm_inner _ _ _ I) in F.
  inversion F as [|? ? ? ? ? Hl F1]; subst. inversion F1 as [|? ? ? ? ? Hr F2]; subst. inversion F2 as [|? ? ? ? ? Hn _]; subst.
  assert (0 <= n < 2 ^ 64). { apply holds_leaf in Hn; [|exact Logic.I]. inversion Hn as [? ? P| | | | | |]; subst. unfold UInt64 in P. cbn in P. lia. }
  destruct (mvariant_tag (m_inner M)) as (t & Et); [cbn; auto|]. unfold phash in E. cbn [node hashes snd] in E. rewrite Et in E. unfold tagged in E. rewrite (mm_inner _ _ _ I) in E.
  destruct (snd (hashes ct (node M l))) as [hl|] eqn:El; [|discriminate]. cbn [bind] in E. destruct (snd (hashes ct (node M r))) as [hr|] eqn:Er; [|discriminate].
  split; [split; [assumption|]; unfold phash; eauto|]. split; [split; [assumption|]; unfold phash; eauto|assumption].
Qed.
Lemma mgood_value v : mgood (Leaf v) -> fine_value ct sr v.
Proof.
  intros (H & h & E). cbn [node] in H. inversion H as [|? ? ? D F| |]; subst; [discriminate|]. rewrite (mm_leaf _ _ _ I) in F. inversion F as [|? ? ? ? ? Hv _]; subst.
  split; [exact Hv|]. intros P.
  destruct (mvariant_tag (m_leaf M)) as (t & Et); [cbn; auto|]. unfold phash in E. cbn [node hashes snd] in E. rewrite Et in E. unfold tagged in E. rewrite (mm_leaf _ _ _ I) in E.
  clear I. destruct sr; try (apply holds_leaf in Hv; [inversion Hv; subst; discriminate P|exact Logic.I]); unfold phash; destruct (snd (hashes ct v)) as [hv|]; eauto; discriminate.
Qed.

Inductive mtwin : mmr -> mmr -> Prop :=
| Mt_empty : mtwin Empty Empty
| Mt_leaf v w : agree ct v w -> mtwin (Leaf v) (Leaf w)
| Mt_inner l r l' r' n : msame l l' -> msame r r' -> mtwin (Inner l r n) (Inner l' r' n)
| Mt_left k dh t : kind_of t = k -> mtwin (Pruned k dh) t
| Mt_right k dh t : kind_of t = k -> mtwin t (Pruned k dh).

Lemma msame_twin t1 t2 : msame t1 t2 -> mtwin t1 t2.
Proof.
  intros A. pose proof (agree_kind ct M sr _ _ I A) as EK. unfold msame in A.
  destruct t1 as [|v|l r n|k dh], t2 as [|v2|l2 r2 n2|k2 dh2]; cbn [kind_of] in EK; try discriminate EK; try (first [apply Mt_empty|apply Mt_left; cbn; congruence|apply Mt_right; cbn; congruence]).
  - cbn [node] in A. apply Mt_leaf. inversion A as [? E|? ? ? F E E2| |]; subst; [apply A_refl|]. inversion F; subst. assumption.
  - cbn [node] in A. inversion A as [? E|? ? ? F E E2| |]; subst.
    + match goal with H : node M l = node M l2 |- _ => assert (msame l l2) by (unfold msame; rewrite H; apply A_refl) end.
      match goal with H : node M r = node M r2 |- _ => assert (msame r r2) by (unfold msame; rewrite H; apply A_refl) end.
      apply Mt_inner; assumption.
    + inversion F as [|? ? ? ? F1 F']; subst. inversion F' as [|? ? ? ? F2 F'']; subst. inversion F'' as [|? ? ? ? F3 _]; subst.
      apply agree_prim in F3. inversion F3; subst. apply Mt_inner; assumption.
Qed.
Lemma msame_kind t1 t2 : msame t1 t2 -> kind_of t1 = kind_of t2.
Proof. exact (agree_kind ct M sr t1 t2 I). Qed.

Definition mboth (t1 t2 : mmr) : Prop := mgood t1 /\ mgood t2 /\ msame t1 t2.
Definition vboth (v w : val) : Prop := fine_value ct sr v /\ fine_value ct sr w /\ agree ct v w.

Lemma mboth_parts l r n l' r' : mboth (Inner l r n) (Inner l' r' n) -> mboth l l' /\ mboth r r'.
Proof.
  intros (G1 & G2 & S). destruct (mgood_parts _ _ _ G1) as (A & B & _), (mgood_parts _ _ _ G2) as (A' & B' & _).
  pose proof (msame_twin _ _ S) as TW. inversion TW; subst. split; split; auto.
Qed.
Lemma mboth_inner l r n l' r' : mboth l l' -> mboth r r' -> 0 <= n < 2 ^ 64 -> mboth (Inner l r n) (Inner l' r' n).
Proof.
  intros (A & A' & S) (B & B' & S') Hn. split; [apply mgood_inner; assumption|]. split; [apply mgood_inner; assumption|].
  unfold msame. cbn [node]. apply A_full. constructor; [exact S|]. constructor; [exact S'|]. constructor; [apply A_refl|constructor].
Qed.
Lemma mboth_leaf v w : vboth v w -> mboth (Leaf v) (Leaf w).
Proof. intros (A & B & S). split; [apply mgood_leaf, A|]. split; [apply mgood_leaf, B|]. unfold msame. cbn [node]. apply A_full. constructor; [exact S|constructor]. Qed.
Lemma mboth_empty : mboth Empty Empty.
Proof. split; [exact mgood_empty|]. split; [exact mgood_empty|apply A_refl]. Qed.

(** The result of the same operation on another object. *)
Definition follows (r1 r2 : result mmr) : Prop := forall u, r1 = Ok u -> r2 = Err PrunedError \/ exists u', r2 = Ok u' /\ mboth u u'.

Lemma len_same t1 t2 n : mboth t1 t2 -> mlen t1 = Ok n -> mlen t2 = Ok n \/ mlen t2 = Err PrunedError.
Proof.
  intros (G1 & G2 & S) E. pose proof (mgood_kind _ G1) as B1. pose proof (mgood_kind _ G2) as B2.
  destruct (msame_twin _ _ S) as [|v w A|l r l' r' m _ _|k dh t K|k dh t K]; cbn [mlen] in *; auto.
  - destruct k; try discriminate E; destruct t as [| | |[] ?]; try discriminate K; cbn; auto.
  - destruct k; cbn in B2; try congruence; auto; destruct t as [| | |[] ?]; try discriminate K; cbn in *; auto.
Qed.

Lemma inner_new_range l r u : inner_new ct M l r = Ok u -> exists n, u = Inner l r n /\ 0 <= n < 2 ^ 64 /\ exists a b, mlen l = Ok a /\ mlen r = Ok b /\ n = a + b.
Proof.
  unfold inner_new. intros E. destruct (mlen l) as [a|] eqn:El; [|discriminate]. cbn [bind] in E. destruct (mlen r) as [b|] eqn:Er; [|discriminate]. cbn [bind] in E.
  destruct (construct _ _ _) as [p|] eqn:C; [|discriminate]. cbn [bind] in E. inversion E; subst. eexists. split; [reflexivity|]. split; [|eauto].
  unfold construct in C. rewrite (mm_inner _ _ _ I) in C. cbn [construct_loop assoc] in C. change (String.eqb "left" "left") with true in C. change (String.eqb "left" "right") with false in C.
  change (String.eqb "right" "right") with true in C. change (String.eqb "left" "length") with false in C. change (String.eqb "right" "length") with false in C.
  change (String.eqb "length" "length") with true in C. cbn [bind] in C.
  destruct (check ct (SerProof (m_base M)) (node M l)); [|discriminate]. cbn [bind] in C. destruct (is_proof (node M l)); [|discriminate]. cbn [bind] in C.
  destruct (check ct (SerProof (m_base M)) (node M r)); [|discriminate]. cbn [bind] in C. destruct (is_proof (node M r)); [|discriminate]. cbn [bind] in C.
  destruct (check ct (SerPrim UInt64) (VPrim (PyInt (a + b)))) eqn:X; [|discriminate]. unfold check, UInt64 in X. cbn in X.
  destruct (Z.leb_spec 0 (a + b)); [|discriminate]. destruct (Z.leb_spec (a + b) 18446744073709551615); [lia|discriminate].
Qed.
Lemma inner_new_kinds l r a b : kind_of l <> KBase -> kind_of r <> KBase -> mlen l = Ok a -> mlen r = Ok b -> 0 <= a + b < 2 ^ 64 -> inner_new ct M l r = Ok (Inner l r (a + b)).
Proof.
  assert (C : forall t, kind_of t <> KBase -> In (kind_class M (kind_of t)) [m_empty M; m_leaf M; m_inner M]) by (intros t N; destruct (kind_of t); cbn; auto; congruence).
  intros Nl Nr El Er Hn. unfold inner_new. rewrite El, Er. cbn [bind].
  rewrite (construct_inner ct M sr l r _ _ _ W I (class_kind M l) (C l Nl) (class_kind M r) (C r Nr)) by lia. reflexivity.
Qed.

Lemma inner_follows l r l' r' : mboth l l' -> mboth r r' -> follows (inner_new ct M l r) (inner_new ct M l' r').
Proof.
  intros Bl Br u E. destruct (inner_new_range _ _ _ E) as (n & -> & Hn & a & b & El & Er & ->).
  destruct (len_same _ _ _ Bl El) as [El'|El']; [|left; unfold inner_new; rewrite El'; reflexivity].
  destruct (len_same _ _ _ Br Er) as [Er'|Er']; [|left; unfold inner_new; rewrite El'; cbn [bind]; rewrite Er'; reflexivity].
  right. eexists. split; [apply inner_new_kinds; [destruct Bl as (_ & X & _); exact (mgood_kind _ X)|destruct Br as (_ & X & _); exact (mgood_kind _ X)|exact El'|exact Er'|exact Hn]|].
  apply mboth_inner; assumption.
Qed.

Lemma check_same v w : vboth v w -> check ct sr v = check ct sr w /\ is_proof v = is_proof w.
Proof.
  intros ((H1 & _) & (H2 & _) & A). pose proof (agree_proof _ _ _ A) as EP. split; [|exact EP].
  destruct (is_proof v) eqn:P; [|rewrite (agree_leaf _ _ _ A P); reflexivity].
  assert (C : class_of v = class_of w) by (destruct A as [x|c fs1 fs2 F|c dh x E1 E2|c dh x E1 E2]; try reflexivity; rewrite E1; reflexivity).
  clear I. assert (X : forall c, isinst ct v c = isinst ct w c) by (intros c; unfold isinst; rewrite C; reflexivity).
  assert (Y : forall u, existsb (isinst ct v) u = existsb (isinst ct w) u) by (induction u as [|c u IH]; cbn; [reflexivity|]; rewrite X, IH; reflexivity).
  destruct sr; try (apply holds_leaf in H1; [inversion H1; subst; discriminate P|exact Logic.I]); cbn [check]; [destruct (c_kind (ct c)); [reflexivity|]|]; rewrite Y; reflexivity.
Qed.
Lemma leaf_follows v w : vboth v w -> follows (leaf_new ct M v) (leaf_new ct M w).
Proof.
  intros B u E. right. exists (Leaf w). unfold leaf_new, construct in *. rewrite (mm_leaf _ _ _ I) in *. cbn [construct_loop assoc] in *. change (String.eqb "value" "value") with true in *. cbn [bind] in *.
  destruct (check_same v w B) as (<- & <-). destruct (check ct sr v); [|discriminate]. cbn [bind] in *.
  destruct (match sr with SerProof _ => if is_proof v then Ok tt else Err AttributeError | _ => Ok tt end); [|discriminate]. cbn [bind] in *. inversion E; subst. split; [reflexivity|]. apply mboth_leaf, B.
Qed.

Lemma merge_follows : forall t1 t2 a b, mboth t1 t2 -> mboth a b -> follows (merge_trees ct M t1 a) (merge_trees ct M t2 b).
Proof.
  induction t1 as [|v|l IHl r IHr n|k dh]; intros t2 a b B Ba u E; cbn [merge_trees] in E; try discriminate E; [|destruct k; discriminate E].
  pose proof B as (G1 & G2 & S). pose proof (msame_twin _ _ S) as TW. inversion TW as [| |? ? l' r' ? Sl Sr| |k dh ? K]; subst; [|left; reflexivity].
  destruct (mboth_parts _ _ _ _ _ B) as (Bl & Br). cbn [merge_trees].
  destruct (py_len n) as [m|] eqn:En; [|discriminate]. cbn [bind] in *.
  destruct (mlen a) as [na|] eqn:Ea; [|discriminate]. cbn [bind] in E. destruct (len_same _ _ _ Ba Ea) as [-> | ->]; [|left; reflexivity]. cbn [bind].
  destruct (assert (na <=? m)); [|discriminate]. cbn [bind] in *.
  destruct (Z.land m na =? 0); [exact (inner_follows _ _ _ _ B Ba u E)|].
  destruct (m =? na).
  - unfold is_perfect_tree in *. cbn [mlen] in *. rewrite En in *. cbn [bind] in *. destruct (assert (perfect m)); [|discriminate]. cbn [bind] in *. exact (inner_follows _ _ _ _ B Ba u E).
  - destruct (mlen r) as [nr|] eqn:Er; [|discriminate]. cbn [bind] in E. destruct (len_same _ _ _ Br Er) as [-> | ->]; [|left; reflexivity]. cbn [bind].
    destruct (assert (negb (Z.land nr na =? 0))); [|discriminate]. cbn [bind] in *.
    destruct (merge_trees ct M r a) as [x|] eqn:Ex; [|discriminate]. cbn [bind] in E. destruct (IHr r' a b Br Ba x Ex) as [-> |(y & -> & Bx)]; [left; reflexivity|]. cbn [bind].
    exact (IHl l' x y Bl Bx u E).
Qed.

Lemma append_follows v w : vboth v w -> forall t1 t2, mboth t1 t2 -> follows (append ct M t1 v) (append ct M t2 w).
Proof.
  intros V.
  assert (K1 : forall t1 t2, mboth t1 t2 -> follows (do new <- leaf_new ct M v; inner_new ct M t1 new) (do new <- leaf_new ct M w; inner_new ct M t2 new)).
  { intros t1 t2 B u E. destruct (leaf_new ct M v) as [x|] eqn:Ex; [|discriminate]. cbn [bind] in E. destruct (leaf_follows v w V x Ex) as [-> |(y & -> & By)]; [left; reflexivity|]. cbn [bind].
    exact (inner_follows _ _ _ _ B By u E). }
  induction t1 as [|x|l IHl r IHr n|k dh]; intros t2 B u E; pose proof B as (G1 & G2 & S); pose proof (msame_kind _ _ S) as K; cbn [append kind_of] in *.
  - assert (append ct M t2 w = leaf_new ct M w) as -> by (destruct t2 as [| | |[] ?]; try discriminate K; reflexivity). exact (leaf_follows v w V u E).
  - assert (append ct M t2 w = (do new <- leaf_new ct M w; inner_new ct M t2 new)) as -> by (destruct t2 as [| | |[] ?]; try discriminate K; reflexivity). exact (K1 _ _ B u E).
  - pose proof (msame_twin _ _ S) as TW. inversion TW as [| |? ? l' r' ? Sl Sr| |kk dh ? KK]; subst; [|left; reflexivity].
    destruct (mboth_parts _ _ _ _ _ B) as (Bl & Br). cbn [append]. destruct (py_len n) as [m|]; [|discriminate]. cbn [bind] in *.
    destruct (Z.land m 1 =? 0); [exact (K1 _ _ B u E)|].
    destruct (append ct M r v) as [x|] eqn:Ex; [|discriminate]. cbn [bind] in E. destruct (IHr r' Br x eq_refl) as [-> |(y & -> & By)]; [left; reflexivity|]. cbn [bind].
    exact (merge_follows l l' x y Bl By u E).
  - pose proof (mgood_kind _ G1) as NB. cbn in NB. destruct k; [congruence| | |discriminate].
    + assert (append ct M t2 w = leaf_new ct M w) as -> by (destruct t2 as [| | |[] ?]; try discriminate K; reflexivity). exact (leaf_follows v w V u E).
    + assert (append ct M t2 w = (do new <- leaf_new ct M w; inner_new ct M t2 new)) as -> by (destruct t2 as [| | |[] ?]; try discriminate K; reflexivity). exact (K1 _ _ B u E).
Qed.

Lemma extend_follows : forall vs ws t1 t2, Forall2 vboth vs ws -> mboth t1 t2 -> follows (extend ct M t1 vs) (extend ct M t2 ws).
Proof.
  induction vs as [|v vs IH]; intros ws t1 t2 F B u E; inversion F as [|? w ? ws' V F']; subst; cbn [extend] in *.
  - inversion E; subst. right. eauto.
  - destruct (append ct M t1 v) as [x|] eqn:Ex; [|discriminate]. cbn [bind] in E. destruct (append_follows v w V t1 t2 B x Ex) as [-> |(y & -> & By)]; [left; reflexivity|]. cbn [bind].
    exact (IH ws' x y F' By u E).
Qed.

Lemma items_same : forall t1 t2 l1, mboth t1 t2 -> items t1 = Ok l1 -> items t2 = Err PrunedError \/ exists l2, items t2 = Ok l2 /\ Forall2 vboth l1 l2.
Proof.
  induction t1 as [|v|l IHl r IHr n|k dh]; intros t2 l1 B E; pose proof B as (G1 & G2 & S); pose proof (msame_kind _ _ S) as K; cbn [items kind_of] in *.
  - inversion E; subst. right. exists []. split; [|constructor]. destruct t2 as [| | |[] ?]; try discriminate K; reflexivity.
  - inversion E; subst. pose proof (msame_twin _ _ S) as TW. inversion TW as [|? w A| | |kk dh ? KK]; subst; [|left; reflexivity].
    right. exists [w]. split; [reflexivity|]. constructor; [|constructor]. split; [apply mgood_value, G1|split; [apply mgood_value, G2|exact A]].
  - pose proof (msame_twin _ _ S) as TW. inversion TW as [| |? ? l' r' ? Sl Sr| |kk dh ? KK]; subst; [|left; reflexivity].
    destruct (mboth_parts _ _ _ _ _ B) as (Bl & Br). cbn [items]. destruct (items l) as [x|] eqn:Ex; [|discriminate]. cbn [bind] in E. destruct (items r) as [y|] eqn:Ey; [|discriminate]. cbn [bind] in E. inversion E; subst.
    destruct (IHl l' x Bl eq_refl) as [-> |(x' & -> & Fx)]; [left; reflexivity|]. cbn [bind]. destruct (IHr r' y Br eq_refl) as [-> |(y' & -> & Fy)]; [left; reflexivity|]. cbn [bind].
    right. eexists. split; [reflexivity|]. apply Forall2_app; assumption.
  - destruct k; try discriminate E. inversion E; subst. right. exists []. split; [|constructor]. destruct t2 as [| | |[] ?]; try discriminate K; reflexivity.
Qed.

Lemma slice_follows : forall t1 t2 s, mboth t1 t2 -> follows (getslice ct M t1 s) (getslice ct M t2 s).
Proof.
  assert (KE : forall t1 t2 s, mboth t1 t2 -> follows (do _ <- slice_indices s 0; Ok t1) (do _ <- slice_indices s 0; Ok t2)).
  { intros t1 t2 s B u E. destruct (slice_indices s 0); [|discriminate]. cbn [bind] in *. inversion E; subst. right. eauto. }
  assert (KL : forall t1 t2 s, mboth t1 t2 ->
    follows (do (start, stop, step) <- slice_indices s 1; if negb (step =? 1) then Err NotImplementedError else if (start <=? 0) && (1 <=? stop) then Ok t1 else Ok empty_new)
            (do (start, stop, step) <- slice_indices s 1; if negb (step =? 1) then Err NotImplementedError else if (start <=? 0) && (1 <=? stop) then Ok t2 else Ok empty_new)).
  { intros t1 t2 s B u E. destruct (slice_indices s 1) as [[[start stop] step]|]; [|discriminate]. cbn [bind] in *. destruct (negb (step =? 1)); [discriminate|].
    right. destruct (_ && _); inversion E; subst; eexists; (split; [reflexivity|]); [exact B|exact mboth_empty]. }
  induction t1 as [|v|l IHl r IHr n|k dh]; intros t2 s B u E; pose proof B as (G1 & G2 & S); pose proof (msame_kind _ _ S) as K; cbn [kind_of] in *.
  - assert (getslice ct M t2 s = (do _ <- slice_indices s 0; Ok t2)) as -> by (destruct t2 as [| | |[] ?]; try discriminate K; reflexivity). exact (KE _ _ _ B u E).
  - match goal with |- getslice ct M t2 s = _ \/ _ => assert (getslice ct M t2 s = (do (start, stop, step) <- slice_indices s 1; if negb (step =? 1) then Err NotImplementedError else if (start <=? 0) && (1 <=? stop) then Ok t2 else Ok empty_new)) as -> by (destruct t2 as [| | |[] ?]; try discriminate K; reflexivity) end.
    exact (KL _ _ _ B u E).
  - pose proof (msame_twin _ _ S) as TW. inversion TW as [| |? ? l' r' ? Sl Sr| |kk dh ? KK]; subst; [|left; reflexivity].
    destruct (mboth_parts _ _ _ _ _ B) as (Bl & Br). cbn [getslice] in *. destruct (py_len n) as [m|]; [|discriminate]. cbn [bind] in *.
    destruct (slice_indices s m) as [[[start stop] step]|]; [|discriminate]. cbn [bind] in *. destruct (negb (step =? 1)); [discriminate|].
    destruct ((start <=? 0) && (m <=? stop)); [inversion E; subst; right; eexists; split; [reflexivity|exact B]|].
    destruct (mlen l) as [nl|] eqn:El; [|discriminate]. cbn [bind] in E. destruct (len_same _ _ _ Bl El) as [-> | ->]; [|left; reflexivity]. cbn [bind].
    destruct (start <? nl).
    + destruct (getslice ct M l _) as [a|] eqn:Ea; [|discriminate]. cbn [bind] in E. destruct (IHl l' _ Bl a Ea) as [-> |(a' & -> & Ba)]; [left; reflexivity|]. cbn [bind].
      destruct (nl <? stop); [|inversion E; subst; right; eauto].
      destruct (getslice ct M r _) as [b|] eqn:Eb; [|discriminate]. cbn [bind] in E. destruct (IHr r' _ Br b Eb) as [-> |(b' & -> & Bb)]; [left; reflexivity|]. cbn [bind].
      destruct (items b) as [vs|] eqn:Ei; [|discriminate]. cbn [bind] in E. destruct (items_same _ _ _ Bb Ei) as [-> |(ws & -> & F)]; [left; reflexivity|]. cbn [bind].
      exact (extend_follows vs ws a a' F Ba u E).
    + destruct ((nl <=? start) && (start <? m)); [exact (IHr r' _ Br u E)|]. inversion E; subst. right. eexists. split; [reflexivity|exact mboth_empty].
  - pose proof (mgood_kind _ G1) as NB. cbn in NB. cbn [getslice] in E. destruct k; [congruence| | |discriminate].
    + assert (getslice ct M t2 s = (do _ <- slice_indices s 0; Ok t2)) as -> by (destruct t2 as [| | |[] ?]; try discriminate K; reflexivity). exact (KE _ _ _ B u E).
    + match goal with |- getslice ct M t2 s = _ \/ _ => assert (getslice ct M t2 s = (do (start, stop, step) <- slice_indices s 1; if negb (step =? 1) then Err NotImplementedError else if (start <=? 0) && (1 <=? stop) then Ok t2 else Ok empty_new)) as -> by (destruct t2 as [| | |[] ?]; try discriminate K; reflexivity) end.
      exact (KL _ _ _ B u E).
Qed.

Lemma run_follows : forall os t1 t2, Forall (fine_mop ct sr) os -> mboth t1 t2 -> follows (mrun ct M t1 os) (mrun ct M t2 os).
Proof.
  induction os as [|[vs|s] os IH]; intros t1 t2 F B u E; inversion F as [|? ? F1 F2]; subst; cbn [mrun] in *.
  - inversion E; subst. right. eauto.
  - destruct (extend ct M t1 vs) as [x|] eqn:Ex; [|discriminate]. cbn [bind] in E.
    assert (FV : Forall2 vboth vs vs) by (clear - F1; induction F1 as [|v vs H _ IH]; constructor; [split; [exact H|split; [exact H|apply A_refl]]|exact IH]).
    destruct (extend_follows vs vs t1 t2 FV B x Ex) as [-> |(y & -> & By)]; [left; reflexivity|]. cbn [bind]. exact (IH x y F2 By u E).
  - destruct (getslice ct M t1 s) as [x|] eqn:Ex; [|discriminate]. cbn [bind] in E.
    destruct (slice_follows t1 t2 s B x Ex) as [-> |(y & -> & By)]; [left; reflexivity|]. cbn [bind]. exact (IH x y F2 By u E).
Qed.

Theorem runs_agree os t1 t2 h u1 : Forall (fine_mop ct sr) os -> holds ct (SerProof (m_base M)) (node M t1) -> holds ct (SerProof (m_base M)) (node M t2) ->
  phash ct (node M t1) = Ok h -> phash ct (node M t2) = Ok h -> mrun ct M t1 os = Ok u1 ->
  mrun ct M t2 os = Err PrunedError \/
  (exists u2 h', mrun ct M t2 os = Ok u2 /\ phash ct (node M u1) = Ok h' /\ phash ct (node M u2) = Ok h') \/
  hash_collision ct (node M t1) (node M t2).
Proof.
  intros F A1 A2 H1 H2 E. destruct (holds_class _ _ _ A1) as (k1 & K1 & S1), (holds_class _ _ _ A2) as (k2 & K2 & S2).
  destruct (hash_binding ct W T _ _ _ _ k1 k2 h A1 A2 K1 K2) as [A|C]; [|exact H1|exact H2| |right; right; exact C].
  { eapply (tag_distinct ct T (m_inner M) "left" (SerProof (m_base M))); [rewrite (mm_inner _ _ _ I); left; reflexivity|exact S1|exact S2]. }
  assert (B : mboth t1 t2) by (split; [split; eauto|split; [split; eauto|exact A]]).
  destruct (run_follows os t1 t2 F B u1 E) as [X|(u2 & X & G1 & G2 & S)]; [left; exact X|].
  right. left. exists u2. pose proof G1 as (_ & x & Ex). pose proof G2 as (_ & y & Ey). exists x. split; [exact X|]. split; [exact Ex|]. rewrite Ey. f_equal. symmetry.
  destruct G1 as (A1' & _), G2 as (A2' & _). exact (agree_hash ct W _ _ _ _ x y A1' A2' S Ex Ey).
Qed.

(** The complete MMR of a list. *)
Lemma run_documented : forall os l l' t, list_after l os l' -> documented l t -> Forall (item ct M) l -> fine (List.length l) ->
  (forall vs, In (Extend vs) os -> Forall (item ct M) vs) -> exists u, mrun ct M t os = Ok u /\ documented l' u.
Proof.
  induction os as [|o os IH]; intros l l' t A D IV F IO; inversion A as [|? vs ? ? F' A'|? s a b ? c ? E LE PS A']; subst; cbn [mrun] in *.
  - eauto.
  - rewrite app_length in F'. destruct (extend_ok ct M sr W I vs l t D (IO vs (or_introl eq_refl)) F') as (u & -> & Du). cbn [bind].
    apply (IH (l ++ vs)); auto; [apply Forall_app; split; [exact IV|apply IO; left; reflexivity]|rewrite app_length; exact F'|intros; apply IO; right; assumption].
  - destruct (getslice_ok ct M sr W I t l D IV F s a b E LE) as (u & -> & Du). cbn [bind]. rewrite (py_slice_unit l s a b E) in PS. injection PS as <-. set (c := firstn _ _) in *.
    assert (LC : (List.length c <= List.length l)%nat) by (unfold c; rewrite firstn_length, skipn_length; lia).
    apply (IH c); auto; [|unfold fine in *; lia|intros; apply IO; right; assumption].
    apply Forall_forall. intros x Hx. rewrite Forall_forall in IV. apply IV. unfold c in Hx.
    rewrite <- (firstn_skipn (Z.to_nat a) l). apply in_or_app. right. rewrite <- (firstn_skipn (Z.to_nat (b - a)) (skipn (Z.to_nat a) l)). apply in_or_app. left. exact Hx.
Qed.

Lemma documented_good : forall t l, documented l t -> Forall (fine_value ct sr) l -> fine (List.length l) -> mgood t.
Proof.
  induction t as [|v|a IHa b IHb n|k dh]; intros l D F L; inversion D as [|? E1 E2|? kk vs ? ? En Hn K D1 D2]; subst.
  - exact mgood_empty.
  - inversion F; subst. apply mgood_leaf; assumption.
  - apply mgood_inner; [| |unfold fine in L; lia].
    + apply (IHa _ D1); [|unfold fine in *; rewrite firstn_length; lia]. rewrite <- (firstn_skipn (Z.to_nat (Z.of_nat (List.length l) - kk)) l) in F. apply Forall_app in F. apply F.
    + apply (IHb _ D2); [|unfold fine in *; rewrite skipn_length; lia]. rewrite <- (firstn_skipn (Z.to_nat (Z.of_nat (List.length l) - kk)) l) in F. apply Forall_app in F. apply F.
Qed.

Theorem runs_documented os l l' t t' h : built ct M l (Ok t) -> Forall (item ct M) l -> Forall (fine_value ct sr) l -> fine (List.length l) ->
  list_after l os l' -> Forall (fine_mop ct sr) os -> (forall vs, In (Extend vs) os -> Forall (item ct M) vs) ->
  holds ct (SerProof (m_base M)) (node M t') -> phash ct (node M t) = Ok h -> phash ct (node M t') = Ok h ->
  mrun ct M t' os = Err PrunedError \/
  (exists u u' h', documented l' u /\ mrun ct M t' os = Ok u' /\ phash ct (node M u) = Ok h' /\ phash ct (node M u') = Ok h') \/
  hash_collision ct (node M t) (node M t').
Proof.
  intros B IV FV L A FO IO G' H H'. destruct (built_ok ct M sr l (Ok t) W I B IV L) as (x & E & D). injection E as <-.
  destruct (run_documented os l l' t A D IV L IO) as (u & Eu & Du). destruct (documented_good t l D FV L) as (G & _).
  destruct (runs_agree os t t' h u FO G G' H H' Eu) as [X|[(u' & h' & X & Y & Z)|X]]; [left; exact X|right; left; exists u, u', h'; auto|right; right; exact X].
Qed.
End Change.
