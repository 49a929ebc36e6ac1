From Coq Require Import ZifyBool ZifyNat ZifyN.
From Verif Require Import Base Sha256 Serialize_Model Serialize_Spec Serialize_Proofs Tx_Model Tx_Spec Tx_Proofs Proof_Model Proof_Spec Proof_Proofs ProofHash_Proofs Merbinner_Model Merbinner_Spec Merbinner_Proofs.

(** ** Hashing a well-formed value *)

Lemma holds_proof ct cs v : holds ct (SerUnion cs) v -> exists c, holds ct (SerProof c) v.
Proof.
  intros H. inversion H as [? ? N L| | |? c ? Hc Hv]; subst; [|eauto].
  inversion L; subst. match goal with X : fits _ _ (SerProof _) v |- _ => destruct (fits_class _ _ _ _ X) as (? & Y & _); unfold is_proof in N; rewrite Y in N; discriminate end.
Qed.

(** The only way hashing fails: a class without hash tag. *)
Lemma phash_holds ct : wf_table ct -> forall v c, holds ct (SerProof c) v -> (exists h, phash ct v = Ok h) \/ phash ct v = Err TypeError.
Proof.
  intros W. induction v as [| | | |k fs IH|k dh|] using val_ind'; intros d Hv;
    try (destruct (holds_class _ _ _ Hv) as (? & X & _); discriminate X); try (exfalso; exact (holds_not_view _ _ _ Hv)).
  - assert (FA : holds_all ct (c_attrs (ct k)) fs) by (inversion Hv; subst; [discriminate|assumption]).
    unfold phash. rewrite hashes_full. cbn [snd]. destruct (c_hash (ct k)) as [o|] eqn:E.
    + unfold tagged. rewrite E. 
      enough ((exists m, hash_fields ct (c_attrs (ct k)) fs = Ok m) \/ hash_fields ct (c_attrs (ct k)) fs = Err TypeError) as [(m & ->)| ->]; [destruct o as [t|]; [left; eexists; reflexivity|right; reflexivity]|right; reflexivity|].
      clear Hv E. revert fs IH FA. generalize (c_attrs (ct k)) as attrs.
      induction attrs as [|[name sr] attrs IHa]; intros fs IH FA; inversion FA as [|? ? ? f fs' G G']; subst; [left; eexists; reflexivity|].
      inversion IH as [|? ? IHf IHfs]; subst. cbn [hash_fields].
      assert (X : (exists x, match sr with SerProof _ | SerUnion _ => phash ct f | _ => ser_leaf sr f end = Ok x) \/
                  match sr with SerProof _ | SerUnion _ => phash ct f | _ => ser_leaf sr f end = Err TypeError).
      { destruct sr; try (left; apply holds_leaf in G; [exact (leaf_ser_ok ct _ f G)|exact Logic.I]); [exact (IHf _ G)|].
        destruct (holds_proof _ _ _ G) as (c' & G''). exact (IHf _ G''). }
      destruct X as [(x & ->)| ->]; cbn [bind]; [|right; reflexivity].
      destruct (IHa fs' IHfs G') as [(m & ->)| ->]; cbn [bind]; [left; eexists; reflexivity|right; reflexivity].
    + destruct (wf_tx_class ct W k E) as (_ & name & Ea). rewrite Ea in FA. inversion FA as [|? ? ? f fs' G G']; subst. inversion G'; subst.
      apply holds_leaf in G; [|exact Logic.I]. inversion G as [| |t Wt| | | |]; subst. left.
      pose proof (leaf_ser_ok ct SerTx (VTx t) G) as (e & Ee). cbn in Ee. unfold tx_GetHash. destruct (tx_ser t); [eexists; reflexivity|discriminate].
  - unfold phash. cbn [hashes snd]. unfold tagged. destruct (c_hash (ct k)) as [[t|]|]; [left; eexists; reflexivity|right; reflexivity|right; reflexivity].
Qed.

Lemma agree_leaf ct v w : agree ct v w -> is_proof v = false -> v = w.
Proof.
  intros A N. destruct A as [v|c fs1 fs2 F|c dh w E1 E2|c dh w E1 E2]; try reflexivity; try discriminate N. unfold is_proof in N. rewrite E1 in N. discriminate.
Qed.
Lemma agree_proof ct v w : agree ct v w -> is_proof v = is_proof w.
Proof. intros A. destruct A as [v|c fs1 fs2 F|c dh w E1 E2|c dh w E1 E2]; try reflexivity; unfold is_proof; rewrite E1; reflexivity. Qed.

Lemma hash_pruned ct k dh w c h1 h2 : holds ct (SerProof c) w -> class_of w = Some k -> data_hash ct w = Ok dh ->
  phash ct (PHash k dh) = Ok h1 -> phash ct w = Ok h2 -> h1 = h2.
Proof.
  intros H K D E1 E2. assert (T : exists t, c_hash (ct k) = HTag (Some t)).
  { unfold phash in E1. cbn [hashes snd] in E1. unfold tagged in E1. destruct (c_hash (ct k)) as [[t|]|]; try discriminate E1. eauto. }
  destruct T as (t & T). apply (phash_tag ct (PHash k dh) k t h1 eq_refl T Logic.I) in E1. apply (phash_tag ct w k t h2 K T (holds_not_view _ _ _ H)) in E2.
  destruct E1 as (d1 & D1 & ->), E2 as (d2 & D2 & ->). cbn in D1. congruence.
Qed.

(** Values equal up to pruning have the same hash. *)
Lemma agree_hash ct : wf_table ct -> forall v w c c' h1 h2, holds ct (SerProof c) v -> holds ct (SerProof c') w -> agree ct v w ->
  phash ct v = Ok h1 -> phash ct w = Ok h2 -> h1 = h2.
Proof.
  intros W. induction v as [| | | |k fs IH|k dh|] using val_ind'; intros w d d' h1 h2 H1 H2 A E1 E2;
    try (destruct (holds_class _ _ _ H1) as (? & X & _); discriminate X); try (exfalso; exact (holds_not_view _ _ _ H1)).
  - inversion A as [|? ? fs2 F| |? dh ? K D]; subst.
    + congruence.
    + assert (F1 : holds_all ct (c_attrs (ct k)) fs) by (inversion H1; subst; [discriminate|assumption]).
      assert (F2 : holds_all ct (c_attrs (ct k)) fs2) by (inversion H2; subst; [discriminate|assumption]).
      destruct (c_hash (ct k)) as [o|] eqn:E.
      * destruct o as [t|]; [|unfold phash in E1; rewrite hashes_full in E1; cbn [snd] in E1; rewrite E in E1; unfold tagged in E1; rewrite E in E1; destruct (hash_fields _ _ _); discriminate].
        apply (phash_tag ct (PFull k fs) k t h1 eq_refl E Logic.I) in E1. apply (phash_tag ct (PFull k fs2) k t h2 eq_refl E Logic.I) in E2.
        destruct E1 as (d1 & D1 & ->), E2 as (d2 & D2 & ->). apply data_hash_full in D1. apply data_hash_full in D2.
        destruct D1 as (p1 & P1 & ->), D2 as (p2 & P2 & ->). enough (p1 = p2) as -> by reflexivity.
        clear A H1 H2 E. revert fs2 p1 p2 F F1 F2 P1 P2. generalize (c_attrs (ct k)) as attrs. induction fs as [|f fs IHfs]; intros attrs fs2 p1 p2 F F1 F2 P1 P2.
        -- inversion F; subst. inversion P1; subst. inversion P2; reflexivity.
        -- inversion F as [|? g ? gs Af Afs]; subst. inversion IH as [|? ? IHf IHr]; subst.
           inversion F1 as [|name sr ? ? ? G1 G1']; subst. inversion F2 as [|? ? ? ? ? G2 G2']; subst.
           inversion P1 as [|? ? ? ? q1 ps1 Q1 Q1']; subst. inversion P2 as [|? ? ? ? q2 ps2 Q2 Q2']; subst.
           assert (q1 = q2) as ->; [|f_equal; eapply IHfs; eassumption].
           unfold part in Q1, Q2. cbn [snd] in Q1, Q2.
           destruct sr; try (assert (f = g) as <- by (apply (agree_leaf ct); [exact Af|]; apply holds_leaf in G1; [inversion G1; reflexivity|exact Logic.I]); congruence).
           ++ eapply IHf; [exact G1|exact G2|exact Af|exact Q1|exact Q2].
           ++ destruct (holds_proof _ _ _ G1) as (? & G1''), (holds_proof _ _ _ G2) as (? & G2''). eapply IHf; [exact G1''|exact G2''|exact Af|exact Q1|exact Q2].
      * destruct (wf_tx_class ct W k E) as (_ & name & Ea). rewrite Ea in F1, F2.
        inversion F1 as [|? ? ? f ? G1 G1']; subst. inversion G1'; subst. inversion F2 as [|? ? ? g ? G2 G2']; subst. inversion G2'; subst.
        inversion F as [|? ? ? ? Af _]; subst. assert (f = g) as <- by (apply (agree_leaf ct); [exact Af|]; apply holds_leaf in G1; [inversion G1; reflexivity|exact Logic.I]). congruence.
    + symmetry. eapply hash_pruned; [exact H1|exact K|exact D|exact E2|exact E1].
  - inversion A as [|? ? fs2 F|? ? ? K D|? dh' ? K D]; subst.
    + congruence.
    + eapply hash_pruned; [exact H2|exact K|exact D|exact E1|exact E2].
    + symmetry. eapply hash_pruned; [exact H1|exact K|exact D|exact E2|exact E1].
Qed.

(** ** [==] on attribute values *)

Lemma py_eq_proofs ct a b : is_proof a = true -> is_proof b = true -> py_eq ct a b = proof_eq ct a b.
Proof. intros Ha Hb. unfold is_proof in *. destruct a, b; try discriminate; reflexivity. Qed.

Lemma holds_sort ct sr v : holds ct sr v -> (exists c, holds ct (SerProof c) v /\ is_proof v = true) \/ (is_proof v = false /\ fits ct any_bits sr v).
Proof.
  intros H. destruct (is_proof v) eqn:P; [left|right; split; [reflexivity|]].
  - destruct sr; try (apply holds_leaf in H; [inversion H; subst; discriminate|exact Logic.I]); [eauto|]. destruct (holds_proof _ _ _ H) as (c & Hc). eauto.
  - inversion H; subst; try assumption; try discriminate P.
    match goal with X : holds _ (SerProof _) v |- _ => destruct (holds_class _ _ _ X) as (? & Y & _); unfold is_proof in P; rewrite Y in P; discriminate end.
Qed.

Lemma tx_ser_ok t : wf_tx t -> exists e, tx_ser t = Ok e.
Proof.
  intros Wt. pose proof (leaf_ser_ok (fun _ => mkClass [] Plain (HTag None) []) SerTx (VTx t) (F_tx _ _ t Wt)) as (e & Ee). cbn in Ee.
  destruct (tx_ser t); [eauto|discriminate].
Qed.
Lemma out_ser_ok o : wf_outpoint o -> exists e, outpoint_ser o = Ok e.
Proof.
  intros Wt. pose proof (leaf_ser_ok (fun _ => mkClass [] Plain (HTag None) []) SerOut (VOut o) (F_out _ _ o Wt)) as (e & Ee). cbn in Ee.
  destruct (outpoint_ser o); [eauto|discriminate].
Qed.
Lemma prim_eq_refl v : prim_eq v v = true \/ match v with PyBool _ | PyInt _ | PyBytes _ => False | _ => True end.
Proof. destruct v; cbn; auto; left; first [apply eqb_reflx|apply bytes_eqb_refl|apply Z.eqb_refl]. Qed.

(** Comparing two values declared alike never raises. *)
Lemma py_eq_total ct sr v w : holds ct sr v -> holds ct sr w -> hashable ct v -> hashable ct w -> exists b, py_eq ct v w = Ok b.
Proof.
  intros H1 H2 A1 A2. destruct (holds_sort _ _ _ H1) as [(c1 & G1 & P1)|(P1 & G1)], (holds_sort _ _ _ H2) as [(c2 & G2 & P2)|(P2 & G2)].
  - rewrite py_eq_proofs by assumption. unfold proof_eq. destruct (A1 P1) as (h1 & ->), (A2 P2) as (h2 & ->). eexists. reflexivity.
  - unfold is_proof in *. destruct v, w; try discriminate; eexists; reflexivity.
  - unfold is_proof in *. destruct v, w; try discriminate; eexists; reflexivity.
  - inversion G1; subst; inversion G2; subst; try discriminate; cbn [py_eq].
    + eexists. reflexivity.
    + eexists. reflexivity.
    + repeat match goal with X : wf_tx ?t |- _ => destruct (tx_ser_ok t X) as (? & ->); clear X end. eexists. reflexivity.
    + repeat match goal with X : wf_outpoint ?t |- _ => destruct (out_ser_ok t X) as (? & ->); clear X end. eexists. reflexivity.
    + match goal with X : fits _ _ (SerProof _) v |- _ => destruct (fits_class _ _ _ _ X) as (? & Y & _); unfold is_proof in P1; rewrite Y in P1; discriminate end.
Qed.

(** Values equal up to pruning are [==]. *)
Lemma agree_eq ct sr v w : wf_table ct -> holds ct sr v -> holds ct sr w -> hashable ct v -> hashable ct w -> agree ct v w -> py_eq ct v w = Ok true.
Proof.
  intros W H1 H2 A1 A2 A. pose proof (agree_proof _ _ _ A) as EP. destruct (holds_sort _ _ _ H1) as [(c1 & G1 & P1)|(P1 & G1)], (holds_sort _ _ _ H2) as [(c2 & G2 & P2)|(P2 & G2)]; try congruence.
  - rewrite py_eq_proofs by assumption. unfold proof_eq. destruct (A1 P1) as (h1 & E1), (A2 P2) as (h2 & E2). rewrite E1, E2. cbn [bind].
    rewrite (agree_hash ct W v w c1 c2 h1 h2 G1 G2 A E1 E2), bytes_eqb_refl. reflexivity.
  - assert (v = w) as <- by (eapply agree_leaf; eassumption). inversion G1; subst; try discriminate; cbn [py_eq].
    + match goal with |- Ok (prim_eq ?x ?x) = _ => destruct (prim_eq_refl x) as [->|N] end; [reflexivity|].
      exfalso. match goal with X : prim_ok ?s ?x |- _ => destruct s, x; cbn in X; contradiction end.
    + f_equal. apply bools_eqb_spec. reflexivity.
    + repeat match goal with X : wf_tx ?t |- _ => destruct (tx_ser_ok t X) as (? & ->); clear X end. cbn [bind]. rewrite bytes_eqb_refl. reflexivity.
    + repeat match goal with X : wf_outpoint ?t |- _ => destruct (out_ser_ok t X) as (? & ->); clear X end. cbn [bind]. rewrite bytes_eqb_refl. reflexivity.
    + match goal with X : fits _ _ (SerProof _) v |- _ => destruct (fits_class _ _ _ _ X) as (? & Y & _); unfold is_proof in P1; rewrite Y in P1; discriminate end.
Qed.

(** ** Equal hashes *)

Inductive bmirror (ct : ctable) : mbt -> mbt -> Prop :=
| BM_empty : bmirror ct TEmpty TEmpty
| BM_leaf k v k' v' : agree ct k k' -> agree ct v v' -> bmirror ct (TLeaf k v) (TLeaf k' v')
| BM_inner p l r l' r' : bmirror ct l l' -> bmirror ct r r' -> bmirror ct (TInner p l r) (TInner p l' r')
| BM_left k dh t : bkind_of t = k -> bmirror ct (TPruned k dh) t
| BM_right k dh t : bkind_of t = k -> bmirror ct t (TPruned k dh).

Lemma bclass_kind M t : class_of (bnode M t) = Some (bkind_class M (bkind_of t)).
Proof. destruct t; reflexivity. Qed.

Section Bind.
Context (ct : ctable) (M : mbt_classes) (ks vs : ser) (W : wf_table ct) (T : wf_tags ct) (I : is_mbt ct M ks vs).

Lemma bkind_class_inj k k' : bkind_class M k = bkind_class M k' -> k = k'.
Proof.
  intros E. pose proof (mb_distinct _ _ _ _ I) as ND. inversion ND as [|? ? N1 ND1]; subst. inversion ND1 as [|? ? N2 ND2]; subst. inversion ND2 as [|? ? N3 _]; subst.
  cbn [In] in *. destruct k, k'; cbn in E; try reflexivity; exfalso; try rewrite <- E in *; try rewrite E in *; intuition congruence.
Qed.

Lemma bagree_kind t1 t2 : agree ct (bnode M t1) (bnode M t2) -> bkind_of t1 = bkind_of t2.
Proof.
  intros A. apply bkind_class_inj.
  assert (X : class_of (bnode M t1) = class_of (bnode M t2)).
  { destruct A as [v|c fs1 fs2 F|c dh w E1 E2|c dh w E1 E2]; try reflexivity; rewrite E1; reflexivity. }
  rewrite !bclass_kind in X. congruence.
Qed.

Lemma bagree_mirror : forall t1 t2, agree ct (bnode M t1) (bnode M t2) -> bmirror ct t1 t2.
Proof.
  induction t1 as [|k v|p l IHl r IHr|k dh]; intros t2 A.
  all: pose proof (bagree_kind _ _ A) as EK; destruct t2 as [|k2 v2|p2 l2 r2|k2 dh2]; cbn [bkind_of] in EK; try discriminate EK; try (first [apply BM_empty|apply BM_left; cbn; congruence|apply BM_right; cbn; congruence]).
  - cbn [bnode] in A. inversion A as [? E|? ? ? F E E2| |]; subst; [apply BM_leaf; apply A_refl|].
    inversion F as [|? ? ? ? F1 F']; subst. inversion F' as [|? ? ? ? F2 _]; subst. apply BM_leaf; assumption.
  - cbn [bnode] in A. inversion A as [? E|? ? ? F E E2| |]; subst.
    + match goal with H : bnode M l = bnode M l2 |- _ => assert (agree ct (bnode M l) (bnode M l2)) by (rewrite H; apply A_refl) end.
      match goal with H : bnode M r = bnode M r2 |- _ => assert (agree ct (bnode M r) (bnode M r2)) by (rewrite H; apply A_refl) end.
      apply BM_inner; auto.
    + inversion F as [|? ? ? ? F1 F']; subst. inversion F' as [|? ? ? ? F2 F'']; subst. inversion F'' as [|? ? ? ? F3 _]; subst.
      assert (p = p2) as -> by (inversion F1; congruence). apply BM_inner; auto.
Qed.

Lemma mbt_binding t1 t2 h : holds ct (SerProof (b_base M)) (bnode M t1) -> holds ct (SerProof (b_base M)) (bnode M t2) ->
  phash ct (bnode M t1) = Ok h -> phash ct (bnode M t2) = Ok h -> bmirror ct t1 t2 \/ hash_collision ct (bnode M t1) (bnode M t2).
Proof.
  intros H1 H2 P1 P2. destruct (holds_class _ _ _ H1) as (k1 & K1 & S1), (holds_class _ _ _ H2) as (k2 & K2 & S2).
  destruct (hash_binding ct W T _ _ _ _ k1 k2 h H1 H2 K1 K2) as [A|C]; [|exact P1|exact P2|left; apply bagree_mirror, A|right; exact C].
  eapply (tag_distinct ct T (b_inner M) "left" (SerProof (b_base M))); [rewrite (mb_inner _ _ _ _ I); right; left; reflexivity|exact S1|exact S2].
Qed.

(** ** Lookups in arbitrary objects *)

Lemma descend_some t q s : descend t q = Ok s -> exists c rest, s = c :: rest.
Proof.
  revert s. induction t as [|k v|p l IHl r IHr|k dh]; intros s; cbn [descend]; try (intros E; inversion E; subst; eauto; fail).
  - destruct (_ && _); [|intros E; inversion E; eauto]. destruct (bit q (List.length p)) as [[]|]; cbn [bind]; [| |discriminate].
    + destruct (descend r q) as [x|]; cbn [bind]; [|discriminate]. intros E. inversion E; subst. destruct (IHr x eq_refl) as (c & rest & ->). cbn. eauto.
    + destruct (descend l q) as [x|]; cbn [bind]; [|discriminate]. intros E. inversion E; subst. destruct (IHl x eq_refl) as (c & rest & ->). cbn. eauto.
  - destruct k; intros E; inversion E; subst; eauto.
Qed.

Lemma mirror_descend t1 t2 : bmirror ct t1 t2 -> forall q c1 s1 c2 s2, descend t1 q = Ok (c1 :: s1) -> descend t2 q = Ok (c2 :: s2) -> bmirror ct c1 c2.
Proof.
  induction 1 as [|k v k' v' A B|p l r l' r' Ml IHl Mr IHr|k dh t E|k dh t E]; intros q c1 s1 c2 s2 E1 E2.
  - cbn in *. inversion E1; inversion E2; subst. constructor.
  - cbn in *. inversion E1; inversion E2; subst. constructor; assumption.
  - cbn [descend] in *. destruct (_ && _); [|inversion E1; inversion E2; subst; constructor; assumption].
    destruct (bit q (List.length p)) as [[]|]; cbn [bind] in *; [| |discriminate].
    + destruct (descend r q) as [x|] eqn:D1; cbn [bind] in E1; [|discriminate]. destruct (descend r' q) as [y|] eqn:D2; cbn [bind] in E2; [|discriminate].
      destruct (descend_some _ _ _ D1) as (a & x' & ->), (descend_some _ _ _ D2) as (b & y' & ->). cbn in *. inversion E1; inversion E2; subst. eapply IHr; eassumption.
    + destruct (descend l q) as [x|] eqn:D1; cbn [bind] in E1; [|discriminate]. destruct (descend l' q) as [y|] eqn:D2; cbn [bind] in E2; [|discriminate].
      destruct (descend_some _ _ _ D1) as (a & x' & ->), (descend_some _ _ _ D2) as (b & y' & ->). cbn in *. inversion E1; inversion E2; subst. eapply IHl; eassumption.
  - assert (c1 = TPruned k dh) as -> by (cbn in E1; destruct k; congruence).
    assert (c2 = t) as ->; [|apply BM_left; exact E]. subst k. destruct t as [|a b|a b c|[] d]; cbn in *; congruence.
  - assert (c2 = TPruned k dh) as -> by (cbn in E2; destruct k; congruence).
    assert (c1 = t) as ->; [|apply BM_right; exact E]. subst k. destruct t as [|a b|a b c|[] d]; cbn in *; congruence.
Qed.

Lemma inner_holds_parts p l r : holds ct (SerProof (b_base M)) (bnode M (TInner p l r)) -> holds ct (SerProof (b_base M)) (bnode M l) /\ holds ct (SerProof (b_base M)) (bnode M r).
Proof.
  intros H. cbn [bnode] in H. inversion H as [|? ? ? D F| |]; subst; [discriminate|]. rewrite (mb_inner _ _ _ _ I) in F.
  inversion F as [|? ? ? ? ? _ F1]; subst. inversion F1 as [|? ? ? ? ? A F2]; subst. inversion F2 as [|? ? ? ? ? B _]; subst. split; assumption.
Qed.
Lemma leaf_holds_parts k v : holds ct (SerProof (b_base M)) (bnode M (TLeaf k v)) -> holds ct ks k /\ holds ct vs v.
Proof.
  intros H. cbn [bnode] in H. inversion H as [|? ? ? D F| |]; subst; [discriminate|]. rewrite (mb_leaf _ _ _ _ I) in F.
  inversion F as [|? ? ? ? ? A F1]; subst. inversion F1 as [|? ? ? ? ? B F2]; subst. split; assumption.
Qed.

Lemma descend_holds t : holds ct (SerProof (b_base M)) (bnode M t) -> forall q c s, descend t q = Ok (c :: s) -> holds ct (SerProof (b_base M)) (bnode M c).
Proof.
  induction t as [|k v|p l IHl r IHr|k dh]; intros H q c s E; cbn [descend] in E.
  - inversion E; subst. exact H.
  - inversion E; subst. exact H.
  - destruct (inner_holds_parts _ _ _ H) as (Hl & Hr). destruct (_ && _); [|inversion E; subst; exact H].
    destruct (bit q (List.length p)) as [[]|]; cbn [bind] in E; [| |discriminate].
    + destruct (descend r q) as [x|] eqn:D; cbn [bind] in E; [|discriminate]. destruct (descend_some _ _ _ D) as (a & x' & ->). cbn in E. inversion E; subst. eapply IHr; eassumption.
    + destruct (descend l q) as [x|] eqn:D; cbn [bind] in E; [|discriminate]. destruct (descend_some _ _ _ D) as (a & x' & ->). cbn in E. inversion E; subst. eapply IHl; eassumption.
  - assert (c = TPruned k dh) as -> by (destruct k; congruence). exact H.
Qed.

Lemma getitem_leaf k2p t key v : tgetitem ct k2p t key = Ok v -> exists k s, descend t (k2p key) = Ok (TLeaf k v :: s) /\ py_eq ct k key = Ok true.
Proof.
  unfold tgetitem. destruct (descend t (k2p key)) as [s|] eqn:D; cbn [bind]; [|discriminate]. destruct (descend_some _ _ _ D) as (c & rest & ->).
  destruct c as [|k w|p l r|kd dh]; cbn [key_of bind]; try discriminate.
  - destruct (py_eq ct k key) as [[]|e] eqn:PE; cbn [bind value_of]; [intros E; inversion E; subst; eauto|discriminate|destruct e; discriminate].
  - destruct kd; discriminate.
Qed.

Lemma getitem_keyerror k2p t key : tgetitem ct k2p t key = Err KeyError -> exists c s, descend t (k2p key) = Ok (c :: s) /\
  match c with
  | TLeaf k _ => py_eq ct k key = Ok false \/ py_eq ct k key = Err AttributeError \/ py_eq ct k key = Err KeyError
  | TPruned BLeaf _ => False
  | _ => True
  end.
Proof.
  unfold tgetitem. destruct (descend t (k2p key)) as [s|e] eqn:D; cbn [bind].
  - destruct (descend_some _ _ _ D) as (c & rest & ->). intros E. exists c, rest. split; [reflexivity|].
    destruct c as [|k w|p l r|kd dh]; try exact Logic.I.
    + cbn [key_of bind] in E. destruct (py_eq ct k key) as [[]|e]; cbn [bind value_of] in E; auto; [discriminate|]. destruct e; try discriminate E; auto.
    + destruct kd; try exact Logic.I. discriminate E.
  - intros E. exfalso. inversion E; subst. revert D. clear E. induction t as [|k v|p l IHl r IHr|k dh]; cbn [descend]; try discriminate.
    + destruct (_ && _); [|discriminate]. unfold bit. destruct (nth_error _ _) as [[]|]; cbn [bind]; [| |discriminate].
      * destruct (descend r (k2p key)); cbn [bind]; [discriminate|]. intros E. apply IHr. congruence.
      * destruct (descend l (k2p key)); cbn [bind]; [discriminate|]. intros E. apply IHl. congruence.
    + destruct k; discriminate.
Qed.

Lemma lookups_agree k2p t1 t2 h : any_tree ct M t1 -> any_tree ct M t2 -> phash ct (bnode M t1) = Ok h -> phash ct (bnode M t2) = Ok h ->
  ((forall key v1 v2, tgetitem ct k2p t1 key = Ok v1 -> tgetitem ct k2p t2 key = Ok v2 -> agree ct v1 v2) /\
   (forall key v1, tgetitem ct k2p t1 key = Ok v1 -> tgetitem ct k2p t2 key <> Err KeyError)) \/ hash_collision ct (bnode M t1) (bnode M t2).
Proof.
  intros [H1|(dh1 & ->)] A2 P1 P2; [destruct A2 as [H2|(dh2 & ->)]|]; try (left; split; intros; discriminate).
  destruct (mbt_binding t1 t2 h H1 H2 P1 P2) as [A|C]; [left|right; exact C]. split.
  - intros key v1 v2 G1 G2. apply getitem_leaf in G1. apply getitem_leaf in G2. destruct G1 as (k1 & s1 & D1 & _), G2 as (k2 & s2 & D2 & _).
    pose proof (mirror_descend _ _ A _ _ _ _ _ D1 D2) as X. inversion X; subst. assumption.
  - intros key v1 G1 G2. apply getitem_leaf in G1. apply getitem_keyerror in G2. destruct G1 as (k1 & s1 & D1 & E1), G2 as (c & s2 & D2 & E2).
    pose proof (mirror_descend _ _ A _ _ _ _ _ D1 D2) as X. inversion X as [|? ? k2 v2 Ak Av| | |kd dh t EK]; subst; [|cbn [bkind_of] in E2; exact E2].
    destruct (leaf_holds_parts _ _ (descend_holds _ H1 _ _ _ D1)) as (Hk1 & _). destruct (leaf_holds_parts _ _ (descend_holds _ H2 _ _ _ D2)) as (Hk2 & _).
    destruct (holds_sort _ _ _ Hk1) as [(c1 & G1 & Q1)|(Q1 & G1)].
    + pose proof (agree_proof _ _ _ Ak) as Q2. rewrite Q1 in Q2. symmetry in Q2.
      destruct (holds_sort _ _ _ Hk2) as [(c2 & G2 & _)|(Q2' & _)]; [|congruence].
      destruct (is_proof key) eqn:QK; [|unfold is_proof in Q1, QK; destruct k1, key; discriminate].
      rewrite py_eq_proofs in E1, E2 by assumption. unfold proof_eq in E1, E2.
      destruct (phash ct k1) as [h1|] eqn:HK1; cbn [bind] in E1; [|discriminate]. destruct (phash ct key) as [hk|] eqn:HK; cbn [bind] in E1; [|discriminate].
      destruct (phash_holds ct W _ _ G2) as [(h2 & HK2)|HK2]; rewrite HK2 in E2; cbn [bind] in E2; [|intuition discriminate].
      rewrite <- (agree_hash ct W _ _ _ _ _ _ G1 G2 Ak HK1 HK2) in E2. destruct E2 as [E2|[E2|E2]]; congruence.
    + assert (k1 = k2) as <- by (eapply agree_leaf; eassumption). rewrite E1 in E2. intuition discriminate.
Qed.
End Bind.
