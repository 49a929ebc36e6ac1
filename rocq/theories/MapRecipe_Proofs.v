From Verif Require Import Base Sha256 Bits_Spec Serialize_Model Serialize_Spec Proof_Model Proof_Spec Proof_Proofs ProofHash_Proofs Tx_Model Tx_Spec Chain_Model Chain_Spec Gumap_Model Gumap_Spec Gumap_Proofs
  Declare_Model Declare_Spec Declare_Proofs DeclareUse_Proofs Recipe_Spec Recipe_Proofs TreeRecipe_Spec TreeRecipe_Proofs MapRecipe_Spec.
Local Open Scope string_scope.
Local Open Scope list_scope.

Section Gumap.
Context (ct : ctable) (P : chain) (G : gumap) (C : is_chain ct P) (D : is_gumap ct P G) (Wt : wf_table ct) (t : bytes)
  (Hu : c_hash (ct (g_unused G)) = HTag (Some (marked_with unused_mark t))) (Hl : c_hash (ct (g_leaf G)) = HTag (Some (marked_with closed_leaf_mark t)))
  (Hi : c_hash (ct (g_inner G)) = HTag (Some (marked_with closed_inner_mark t)))
  (sub : val -> bytes -> Prop) (S : forall s h, is_seal ct P G s \/ is_witness ct P G s -> (phash ct s = Ok h <-> sub s h)).
Local Notation by_hand := (gumap_hash sub (part ct ("key", g_key G)) (part ct ("value", g_value G)) G t).

Lemma unused_iff p s h : is_seal ct P G s -> (phash ct (Unused G p s) = Ok h <-> by_hand (Unused G p s) h).
Proof.
  intros O. unfold Unused at 1. rewrite (full_iff _ _ _ _ _ Hu), (gd_unused _ _ _ D). split.
  - intros (ps & Q & ->). inversion Q as [|? ? ? ? p1 q1 P1 Q1]; subst. inversion Q1 as [|? ? ? ? p2 q2 P2 Q2]; subst. inversion Q2; subst. cbn [List.concat]. rewrite app_nil_r.
    apply gh_unused; [apply packed_ser, P1|]. apply S; [left; exact O|exact P2].
  - intros H. inversion H as [p' s' bp hs B H1 E1| |]; subst.
    exists [bp; hs]. split; [|cbn [List.concat]; rewrite app_nil_r; reflexivity]. constructor; [apply packed_ser, B|]. constructor; [|constructor]. apply S; [left; exact O|exact H1].
Qed.
Lemma leaf_iff w k x h : is_witness ct P G w -> (phash ct (Leaf G w k x) = Ok h <-> by_hand (Leaf G w k x) h).
Proof.
  intros O. unfold Leaf at 1. rewrite (full_iff _ _ _ _ _ Hl), (gd_leaf _ _ _ D). split.
  - intros (ps & Q & ->). inversion Q as [|? ? ? ? p1 q1 P1 Q1]; subst. inversion Q1 as [|? ? ? ? p2 q2 P2 Q2]; subst. inversion Q2 as [|? ? ? ? p3 q3 P3 Q3]; subst. inversion Q3; subst. cbn [List.concat]. rewrite app_nil_r.
    apply gh_leaf; [|exact P2|exact P3]. apply S; [right; exact O|exact P1].
  - intros H. inversion H as [|w' k' x' hw kb xb H1 H2 H3|]; subst.
    exists [hw; kb; xb]. split; [|cbn [List.concat]; rewrite app_nil_r; reflexivity]. constructor; [|constructor; [exact H2|constructor; [exact H3|constructor]]]. apply S; [right; exact O|exact H1].
Qed.
Lemma inner_iff p w l r h : is_witness ct P G w -> (forall h, phash ct l = Ok h <-> by_hand l h) -> (forall h, phash ct r = Ok h <-> by_hand r h) ->
  (phash ct (Inner G p w l r) = Ok h <-> by_hand (Inner G p w l r) h).
Proof.
  intros O Il Ir. unfold Inner at 1. rewrite (full_iff _ _ _ _ _ Hi), (gd_inner _ _ _ D). split.
  - intros (ps & Q & ->). inversion Q as [|? ? ? ? p1 q1 P1 Q1]; subst. inversion Q1 as [|? ? ? ? p2 q2 P2 Q2]; subst. inversion Q2 as [|? ? ? ? p3 q3 P3 Q3]; subst. inversion Q3 as [|? ? ? ? p4 q4 P4 Q4]; subst. inversion Q4; subst.
    cbn [List.concat]. rewrite app_nil_r. apply gh_inner; [apply packed_ser, P1| |apply Il, P3|apply Ir, P4]. apply S; [right; exact O|exact P2].
  - intros H. inversion H as [| |p' w' l' r' bp hw hl hr B H1 H2 H3]; subst.
    exists [bp; hw; hl; hr]. split; [|cbn [List.concat]; rewrite app_nil_r; reflexivity]. constructor; [apply packed_ser, B|]. constructor; [apply S; [right; exact O|exact H1]|].
      constructor; [apply Il, H2|constructor; [apply Ir, H3|constructor]].
Qed.
Lemma gumap_hash_iff : forall v, object ct (g_base G) v -> forall h, phash ct v = Ok h <-> by_hand v h.
Proof.
  induction v as [pv|bl|t0|o0|c fs IH|c dh|c0 o0 st0 IHo0 IHst0] using val_ind'; intros O h; apply (node_shape ct P G D) in O;
    destruct O as [(p & s & E & O1)|[(w & k & x & E & O1 & _)|(p & w & l & r & E & O1 & O2 & O3)]]; try discriminate E; rewrite E.
  - apply unused_iff, O1.
  - apply leaf_iff, O1.
  - unfold Inner in E. injection E as _ ->. inversion IH as [|? ? _ IH1]; subst. inversion IH1 as [|? ? _ IH2]; subst. inversion IH2 as [|? ? Il IH3]; subst. inversion IH3 as [|? ? Ir _]; subst.
    apply inner_iff; [exact O1|apply Il, O2|apply Ir, O3].
Qed.

Lemma seal_id_sub v h : object ct (g_base G) v -> (seal_id ct G v h <-> exists s, has_seal ct G v s /\ sub s h).
Proof.
  intros O. unfold seal_id. split; intros (s & H & Q); exists s; (split; [exact H|]); (apply S; [left; exact (has_seal_ok ct P G C D Wt v s O H)|exact Q]).
Qed.
Lemma digest_iff v w h : object ct (g_base G) v ->
  ((exists m, sealed ct G v w m /\ h = sha256 m) <-> contents_digest sub (part ct ("key", g_key G)) (part ct ("value", g_value G)) ct G t v w h).
Proof.
  intros O. apply (node_shape ct P G D) in O. split.
  - intros (m & H & ->). inversion H as [w' k x t' kb xb T K X|p w' l r t' hl hr T L R]; subst.
    + rewrite Hl in T. injection T as <-. apply cd_leaf; assumption.
    + rewrite Hi in T. injection T as <-. destruct O as [(? & ? & E & _)|[(? & ? & ? & E & _)|(p' & w' & l' & r' & E & _ & O2 & O3)]];
        [discriminate E..|].
      unfold Inner in E. injection E as <- <- <- <-. apply (seal_id_sub _ _ O2) in L. apply (seal_id_sub _ _ O3) in R. destruct L as (sl & L & Sl), R as (sr & R & Sr). exact (cd_inner _ _ _ _ _ _ p w l r sl sr hl hr L R Sl Sr).
  - intros H. inversion H as [w' k x kb xb K X|p w' l r sl sr hl hr L R SL SR]; subst.
    + eexists. split; [exact (SM_leaf ct G w k x _ kb xb Hl K X)|reflexivity].
    + destruct O as [(? & ? & E & _)|[(? & ? & ? & E & _)|(p' & w' & l' & r' & E & _ & O2 & O3)]];
        [discriminate E..|].
      unfold Inner in E. injection E as <- <- <- <-. eexists. split; [apply (SM_inner ct G p w l r _ hl hr Hi); apply seal_id_sub; eauto|reflexivity].
Qed.
End Gumap.

(** What the declaration of a map class gives. *)
Lemma program_gumap ds w b t P seal wit key value : declared_by ds w -> In (DGumap b (Some t) (p_fseal P) (p_fwit P) seal wit key value) ds ->
  In ("seal", SerProof seal) (c_attrs (table_of w wit)) ->
  marked_with leaf_contents_mark (marked_with closed_leaf_mark t) <> marked_with inner_contents_mark (marked_with closed_inner_mark t) ->
  exists n, (c_hash (table_of w n) = HTag (Some t) /\
    c_hash (table_of w (n + 1)) = HTag (Some (marked_with unused_mark t)) /\ c_hash (table_of w (n + 2)) = HTag (Some (marked_with closed_leaf_mark t)) /\
    c_hash (table_of w (n + 3)) = HTag (Some (marked_with closed_inner_mark t))) /\
    forall pre ver, is_gumap (table_of w) P (Gumap n (n + 1) (n + 2) (n + 3) key value seal wit pre ver).
Proof.
  intros D I Sl TD. destruct (made_in ds w D _ I Logic.I) as (n & _ & (t' & Et & F) & Ks & Kw & Q). injection Et as <-. exists n.
  pose proof F as (X0 & X1 & X2 & X3). split; [rewrite X0, X1, X2, X3; cbn [c_hash]; repeat split|]. intros pre ver.
  constructor; cbn [g_base g_unused g_leaf g_inner g_key g_value g_seal g_wit].
  - rewrite X1. reflexivity.
  - rewrite X2. reflexivity.
  - rewrite X3. reflexivity.
  - exact (fam_kinds _ _ _ _ _ _ _ _ _ _ F).
  - split; [apply kin_distinct|exact Q].
  - exact Ks.
  - split; [exact Kw|exact Sl].
  - eexists _, _. split; [rewrite X2; reflexivity|]. split; [rewrite X3; reflexivity|exact TD].
Qed.

Lemma by_hand_maps ds w b t P key value : declared_by ds w -> is_chain (table_of w) P -> In (DGumap b (Some t) (p_fseal P) (p_fwit P) (p_bseal P) (p_bwit P) key value) ds ->
  marked_with leaf_contents_mark (marked_with closed_leaf_mark t) <> marked_with inner_contents_mark (marked_with closed_inner_mark t) ->
  exists n, c_hash (table_of w n) = HTag (Some t) /\ forall pre ver, let G := Gumap n (n + 1) (n + 2) (n + 3) key value (p_bseal P) (p_bwit P) pre ver in
    is_gumap (table_of w) P G /\ forall v, object (table_of w) n v ->
    (forall h, phash (table_of w) v = Ok h <-> gumap_hash (recipe P) (part (table_of w) ("key", key)) (part (table_of w) ("value", value)) G t v h) /\
    (outcome (table_of w) (node_verify (table_of w) P G) v = Ok tt <->
     (exists p s, v = Unused G p s) \/
     exists x h, contents_digest (recipe P) (part (table_of w) ("key", key)) (part (table_of w) ("value", value)) (table_of w) G t v x h /\ vouches (table_of w) P G x h).
Proof.
  intros D C I TD. pose proof (proj1 (declared_tables ds w D)) as Wt.
  destruct (program_gumap ds w b t P (p_bseal P) (p_bwit P) key value D I) as (n & (H0 & Hu & Hl & Hi) & IG).
  { destruct (d_bwit _ _ C) as (A & _). rewrite A. left. reflexivity. }
  { exact TD. }
  exists n. split; [exact H0|]. intros pre ver G. specialize (IG pre ver). fold G in IG. split; [exact IG|]. intros v O.
  assert (S : forall s h, is_seal (table_of w) P G s \/ is_witness (table_of w) P G s -> (phash (table_of w) s = Ok h <-> recipe P s h)).
  { intros s h [[Q|Q]|[Q|Q]].
    - exact (hash_recipe (table_of w) P C s (p_fseal P) h (or_intror (or_intror (or_intror (or_intror (or_introl eq_refl))))) Q).
    - exact (hash_recipe (table_of w) P C s (p_bseal P) h (or_intror (or_intror (or_intror (or_intror (or_intror (or_intror (or_introl eq_refl))))))) Q).
    - exact (hash_recipe (table_of w) P C s (p_fwit P) h (or_intror (or_intror (or_intror (or_intror (or_intror (or_introl eq_refl)))))) Q).
    - exact (hash_recipe (table_of w) P C s (p_bwit P) h (or_intror (or_intror (or_intror (or_intror (or_intror (or_intror (or_intror (or_introl eq_refl)))))))) Q). }
  split; [exact (gumap_hash_iff (table_of w) P G IG t Hu Hl Hi (recipe P) S v O)|].
  rewrite (verify_exact (table_of w) P G C IG Wt v O). split; (intros [U|H]; [left; exact U|right]).
  - destruct H as (x & m & Q & V). exists x, (sha256 m). split; [|exact V]. apply (digest_iff (table_of w) P G C IG Wt t Hl Hi (recipe P) S v x _ O). exists m. split; [exact Q|reflexivity].
  - destruct H as (x & h & Q & V). apply (digest_iff (table_of w) P G C IG Wt t Hl Hi (recipe P) S v x _ O) in Q. destruct Q as (m & Q & ->). exists x, m. split; [exact Q|exact V].
Qed.
