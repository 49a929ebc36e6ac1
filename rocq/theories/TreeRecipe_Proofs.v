From Verif Require Import Base Sha256 Bits_Model Bits_Spec Bits_Proofs Serialize_Model Serialize_Spec Serialize_Proofs Proof_Model Proof_Spec Proof_Proofs ProofHash_Proofs Mmr_Model Mmr_Spec Mmr_Proofs
  Merbinner_Model Merbinner_Spec Merbinner_Proofs MerbinnerSubset_Proofs Declare_Model Declare_Spec Declare_Proofs DeclareUse_Proofs Grammar_Proofs Recipe_Spec Recipe_Proofs TreeRecipe_Spec.
From Coq Require Import ZifyBool ZifyNat ZifyN Permutation.
Local Open Scope string_scope.
Local Open Scope list_scope.

Lemma packed_ser l b : packed l b <-> ser_leaf SerBits (VBits l) = Ok b.
Proof.
  destruct (bits_new_spec l) as (x & E & Bo & Ex). pose proof (bits_of_length x Bo) as Lx. rewrite Ex in Lx.
  destruct (bits_ser_spec x Bo) as (p & S & Lp & Bp). rewrite Ex in Bp. rewrite <- Lx in S, Lp, Bp.
  assert (L7 : List.length p = (List.length l + 7) / 8) by (destruct (Nat.eqb_spec (List.length l mod 8) 0); lia).
  cbn [ser_leaf]. rewrite E. cbn [bind]. rewrite S. split.
  - intros (h & q & -> & G & Lq & Bq). apply groups_iff in G. destruct G as (_ & ->). do 2 f_equal. apply bytes_bits_inj. rewrite Bp, Bq. rewrite L7, Lq. reflexivity.
  - intros Q. injection Q as <-. exists (write_varuint (Z.of_nat (List.length l))), p. split; [reflexivity|]. split; [apply groups_iff; split; [lia|reflexivity]|]. split; [exact L7|exact Bp].
Qed.

Lemma full_iff ct c t fs h : c_hash (ct c) = HTag (Some t) -> (phash ct (PFull c fs) = Ok h <-> exists ps, parts ct (c_attrs (ct c)) fs ps /\ h = sha256 (t ++ sha256 (List.concat ps))).
Proof.
  intros H. unfold phash. rewrite hashes_full. cbn [snd]. rewrite H. unfold tagged. rewrite H. split.
  - destruct (hash_fields ct (c_attrs (ct c)) fs) as [m|] eqn:E; cbn [bind]; [|discriminate]. intros Q. injection Q as <-. apply hash_fields_parts in E. destruct E as (ps & P & ->). exists ps. split; [exact P|reflexivity].
  - intros (ps & P & ->). assert (E : hash_fields ct (c_attrs (ct c)) fs = Ok (List.concat ps)) by (apply hash_fields_parts; exists ps; split; [exact P|reflexivity]). rewrite E. reflexivity.
Qed.

Section Mmr.
Context (ct : ctable) (M : mmr_classes) (sr : ser) (W : is_mmr ct M sr) (t : bytes)
  (He : c_hash (ct (m_empty M)) = HTag (Some (marked_with mmr_empty_mark t))) (Hl : c_hash (ct (m_leaf M)) = HTag (Some (marked_with mmr_leaf_mark t)))
  (Hi : c_hash (ct (m_inner M)) = HTag (Some (marked_with mmr_inner_mark t))).

Lemma doc_hash vs tr : documented vs tr -> forall h, phash ct (node M tr) = Ok h -> mmr_hash (part ct ("value", sr)) t vs h.
Proof.
  induction 1 as [|v|n k vs t1 t2 En L Sp D1 IH1 D2 IH2]; intros h H; cbn [node] in H.
  - apply (full_iff _ _ _ _ _ He) in H. rewrite (mm_empty _ _ _ W) in H. destruct H as (ps & P & ->). inversion P; subst. apply mh_empty.
  - apply (full_iff _ _ _ _ _ Hl) in H. rewrite (mm_leaf _ _ _ W) in H. destruct H as (ps & P & ->). inversion P as [|? ? ? ? p ps' P1 P2]; subst. inversion P2; subst. cbn [List.concat]. rewrite app_nil_r. apply mh_leaf, P1.
  - apply (full_iff _ _ _ _ _ Hi) in H. rewrite (mm_inner _ _ _ W) in H. destruct H as (ps & P & ->). inversion P as [|? ? ? ? p1 q1 P1 Q1]; subst. inversion Q1 as [|? ? ? ? p2 q2 P2 Q2]; subst. inversion Q2 as [|? ? ? ? p3 q3 P3 Q3]; subst. inversion Q3; subst.
    cbn [List.concat]. rewrite app_nil_r. unfold part in P3. cbn in P3. injection P3 as <-. eapply mh_inner; [reflexivity|exact L|exact Sp|apply IH1, P1|apply IH2, P2|apply groups_iff; split; [lia|reflexivity]].
Qed.
Lemma hash_doc vs h : mmr_hash (part ct ("value", sr)) t vs h -> exists tr, documented vs tr /\ phash ct (node M tr) = Ok h.
Proof.
  induction 1 as [|v e E|n k vs hl hr bn En L Sp H1 (t1 & D1 & P1) H2 (t2 & D2 & P2) G].
  - exists Empty. split; [constructor|]. apply (full_iff _ _ _ _ _ He). rewrite (mm_empty _ _ _ W). exists []. split; [constructor|reflexivity].
  - exists (Leaf v). split; [constructor|]. apply (full_iff _ _ _ _ _ Hl). rewrite (mm_leaf _ _ _ W). exists [e]. split; [constructor; [exact E|constructor]|cbn [List.concat]; rewrite app_nil_r; reflexivity].
  - exists (Inner t1 t2 n). split; [econstructor; eassumption|]. apply groups_iff in G. destruct G as (_ & ->). cbn [node]. apply (full_iff _ _ _ _ _ Hi). rewrite (mm_inner _ _ _ W). exists [hl; hr; write_varuint n].
    split; [constructor; [exact P1|constructor; [exact P2|constructor; [reflexivity|constructor]]]|]. cbn [List.concat]. rewrite app_nil_r. reflexivity.
Qed.
Lemma mmr_hash_iff vs tr h : documented vs tr -> (phash ct (node M tr) = Ok h <-> mmr_hash (part ct ("value", sr)) t vs h).
Proof.
  intros D. split; [apply doc_hash, D|]. intros H. destruct (hash_doc vs h H) as (tr' & D' & P). rewrite (doc_unique vs tr D tr' D'). exact P.
Qed.
End Mmr.

Section Mbt.
Context (ct : ctable) (M : mbt_classes) (ks vs : ser) (W : is_mbt ct M ks vs) (k2p : val -> list bool) (t : bytes)
  (He : c_hash (ct (b_empty M)) = HTag (Some (marked_with mbt_empty_mark t))) (Hl : c_hash (ct (b_leaf M)) = HTag (Some (marked_with mbt_leaf_mark t)))
  (Hi : c_hash (ct (b_inner M)) = HTag (Some (marked_with mbt_inner_mark t))).

Lemma radix_hash D tr : radix_tree k2p D tr -> forall h, phash ct (bnode M tr) = Ok h -> mbt_hash (part ct ("key", ks)) (part ct ("value", vs)) k2p t D h.
Proof.
  induction 1 as [|k v|D p l r L Lp D1 IH1 D2 IH2]; intros h H; cbn [bnode] in H.
  - apply (full_iff _ _ _ _ _ He) in H. rewrite (mb_empty _ _ _ _ W) in H. destruct H as (ps & P & ->). inversion P; subst. apply bh_empty.
  - apply (full_iff _ _ _ _ _ Hl) in H. rewrite (mb_leaf _ _ _ _ W) in H. destruct H as (ps & P & ->). inversion P as [|? ? ? ? p1 q1 P1 Q1]; subst. inversion Q1 as [|? ? ? ? p2 q2 P2 Q2]; subst. inversion Q2; subst.
    cbn [List.concat]. rewrite app_nil_r. apply bh_leaf; assumption.
  - apply (full_iff _ _ _ _ _ Hi) in H. rewrite (mb_inner _ _ _ _ W) in H. destruct H as (ps & P & ->). inversion P as [|? ? ? ? p1 q1 P1 Q1]; subst. inversion Q1 as [|? ? ? ? p2 q2 P2 Q2]; subst. inversion Q2 as [|? ? ? ? p3 q3 P3 Q3]; subst. inversion Q3; subst.
    cbn [List.concat]. rewrite app_nil_r. apply (bh_inner _ _ _ _ D p); [exact L|exact Lp|apply packed_ser, P1|apply IH1, P2|apply IH2, P3].
Qed.
Lemma hash_radix D h : mbt_hash (part ct ("key", ks)) (part ct ("value", vs)) k2p t D h -> exists tr, radix_tree k2p D tr /\ phash ct (bnode M tr) = Ok h.
Proof.
  induction 1 as [|k v kb vb Ek Ev|D p bp hl hr L Lp Bp H1 (t1 & D1 & P1) H2 (t2 & D2 & P2)].
  - exists TEmpty. split; [constructor|]. apply (full_iff _ _ _ _ _ He). rewrite (mb_empty _ _ _ _ W). exists []. split; [constructor|reflexivity].
  - exists (TLeaf k v). split; [constructor|]. apply (full_iff _ _ _ _ _ Hl). rewrite (mb_leaf _ _ _ _ W). exists [kb; vb]. split; [constructor; [exact Ek|constructor; [exact Ev|constructor]]|cbn [List.concat]; rewrite app_nil_r; reflexivity].
  - exists (TInner p t1 t2). split; [constructor; assumption|]. apply packed_ser in Bp. cbn [bnode]. apply (full_iff _ _ _ _ _ Hi). rewrite (mb_inner _ _ _ _ W). exists [bp; hl; hr].
    split; [constructor; [exact Bp|constructor; [exact P1|constructor; [exact P2|constructor]]]|]. cbn [List.concat]. rewrite app_nil_r. reflexivity.
Qed.
Lemma mbt_hash_iff D tr h : radix_tree k2p D tr -> (phash ct (bnode M tr) = Ok h <-> mbt_hash (part ct ("key", ks)) (part ct ("value", vs)) k2p t D h).
Proof.
  intros R. split; [apply radix_hash, R|]. intros H. destruct (hash_radix D h H) as (tr' & R' & P). rewrite (radix_tree_unique k2p D tr R D tr' (Permutation_refl D) R'). exact P.
Qed.
End Mbt.

(** ** In every program *)
Lemma program_mmr ds w b t value : declared_by ds w -> In (DMmr b (Some t) value) ds ->
  exists M, is_mmr (table_of w) M value /\ c_hash (table_of w (m_base M)) = HTag (Some t) /\
    forall vs r, built (table_of w) M vs r -> Forall (item (table_of w) M) vs -> fine (List.length vs) ->
    exists tr, r = Ok tr /\ forall h, phash (table_of w) (node M tr) = Ok h <-> mmr_hash (part (table_of w) ("value", value)) t vs h.
Proof.
  intros D I. destruct (declared_mmr ds w b _ value D I) as (t' & M & Et & W & _ & Hb & He & Hl & Hi). injection Et as <-. exists M. split; [exact W|]. split; [exact Hb|].
  intros vs r B It F. destruct (built_ok _ M value vs r (proj1 (declared_tables ds w D)) W B It F) as (tr & -> & Dc). exists tr. split; [reflexivity|]. intros h.
  apply (mmr_hash_iff (table_of w) M value W t); assumption.
Qed.
Lemma program_mbt ds w b t key value : declared_by ds w -> In (DMbt b (Some t) key value) ds ->
  exists M, is_mbt (table_of w) M key value /\ c_hash (table_of w (b_base M)) = HTag (Some t) /\
    forall k2p K n D r, good_keys (table_of w) k2p K n -> history (table_of w) M k2p K D r ->
    exists tr, r = Ok tr /\ forall h, phash (table_of w) (bnode M tr) = Ok h <-> mbt_hash (part (table_of w) ("key", key)) (part (table_of w) ("value", value)) k2p t D h.
Proof.
  intros D I. destruct (declared_mbt ds w b _ key value D I) as (t' & M & Et & W & _ & Hb & He & Hl & Hi). injection Et as <-. exists M. split; [exact W|]. split; [exact Hb|].
  intros k2p K n Dm r G Hy. destruct (history_documented _ M key value k2p K n Dm r (proj1 (declared_tables ds w D)) W G Hy) as (tr & -> & R). exists tr. split; [reflexivity|]. intros h.
  apply (mbt_hash_iff (table_of w) M key value W k2p t); assumption.
Qed.
