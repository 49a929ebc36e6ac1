(** Proofs about Gumap_Model.v. *)
From Verif Require Import Base Bits_Spec Sha256 Ripemd160 Serialize_Model Serialize_Spec Serialize_Proofs Tx_Model Tx_Spec Tx_Proofs
  Proof_Model Proof_Spec Proof_Proofs ProofHash_Proofs ProofView_Proofs ProofReplay_Proofs ProofMain_Proofs Construct_Spec Construct_Proofs
  Merbinner_Model MerbinnerBits_Proofs Chain_Model Chain_Spec Chain_Proofs ChainPipe_Proofs Gumap_Model Gumap_Spec.
From Coq Require Import ZifyBool ZifyNat ZifyN.
Ltac Zify.zify_post_hook ::= Z.div_mod_to_equations.
Local Open Scope string_scope.
Local Open Scope list_scope.
Local Open Scope nat_scope.

Lemma look_app ct p : forall v x q, look ct v p = Ok x -> look ct v (p ++ q) = look ct x q.
Proof.
  induction p as [|a p IH]; intros v x q H; cbn [look app] in *; [injection H as ->; reflexivity|].
  destruct (peek ct v a) as [y|e]; cbn [bind] in *; [|discriminate]. apply IH, H.
Qed.

Lemma eval_under {R} ct path (p : prog R) v x : look ct v path = Ok x -> eval ct (under path p) v = eval ct p x.
Proof.
  intros L. induction p as [r|q k IH|q k IH]; cbn [under eval]; [reflexivity| |]; rewrite (look_app _ _ _ _ q L); apply IH.
Qed.

Lemma fits_accepts ct Q name sr c v : wf_table ct -> In (name, sr) (c_attrs (ct c)) -> fits ct Q sr v -> accepts ct sr v.
Proof.
  intros W I F. assert (K : forall c k, declared ct c k -> match c_kind (ct c) with Plain => subclass ct k c | Variant u => exists m, In m u /\ subclass ct k m end).
  { intros d k D. unfold declared in D. destruct (c_kind (ct d)) eqn:E; [subst; apply (wf_self ct W)|]. exists k. split; [exact D|apply (wf_self ct W)]. }
  inversion F as [s pv HP|bl HQ|tv HT|ov HO|c0 k0 fs D HF|c0 dh D HL|cs c0 u HI HF]; subst; cbn [accepts]; eauto.
  - exists k0. split; [reflexivity|apply K, D].
  - exists c0. split; [reflexivity|apply K, D].
  - destruct (In_nth_error _ _ HI) as (i & Hi).
    inversion HF as [| | | |c1 k0 fs D HF'|c1 dh D HL|]; subst; eexists _, c0; (split; [reflexivity|]); (split; [exact HI|]);
      eapply (wf_unions ct W); eassumption.
Qed.

Section Gumap.
Context (ct : ctable) (P : chain) (G : gumap) (C : is_chain ct P) (D : is_gumap ct P G).

Lemma distinct : g_base G <> g_unused G /\ g_base G <> g_leaf G /\ g_base G <> g_inner G /\ g_unused G <> g_leaf G /\ g_unused G <> g_inner G /\ g_leaf G <> g_inner G.
Proof.
  destruct (gd_distinct _ _ _ D) as (N & _). inversion N as [|? ? N1 N2]; subst. inversion N2 as [|? ? N3 N4]; subst.
  inversion N4 as [|? ? N5 N6]; subst. cbn in *. intuition.
Qed.

Local Notation witness_ok := (is_witness ct P G).
Local Notation seal_ok := (is_seal ct P G).

Lemma union_two a b v : fits ct any_bits (SerUnion [a; b]) v <-> object ct a v \/ object ct b v.
Proof.
  split.
  - intros F. inversion F as [| | | | | |cs c u I H]; subst. destruct I as [I|[I|[]]]; subst; [left|right]; exact H.
  - intros [H|H]; eapply F_union; try exact H; cbn; auto.
Qed.

(** The nodes that can exist. *)
Lemma node_shape v : object ct (g_base G) v <->
  (exists p s, v = Unused G p s /\ seal_ok s) \/
  (exists w k x, v = Leaf G w k x /\ witness_ok w /\ fits ct any_bits (g_key G) k /\ fits ct any_bits (g_value G) x) \/
  (exists p w l r, v = Inner G p w l r /\ witness_ok w /\ object ct (g_base G) l /\ object ct (g_base G) r).
Proof.
  pose proof distinct as (N1 & N2 & N3 & _). pose proof (gd_variants _ _ _ D (g_base G) (or_introl eq_refl)) as K. split.
  - intros O. inversion O as [| | | |c k fs DE F|c dh DE L|]; subst; unfold declared in DE; rewrite K in DE; cbn in DE; [|intuition congruence].
    destruct DE as [E|[E|[E|[]]]]; subst k.
    + left. rewrite (gd_unused _ _ _ D) in F. inversion F as [|? ? ? f ? H1 H2]; subst. inversion H2 as [|? ? ? g ? H3 H4]; subst. inversion H4; subst.
      inversion H1; subst. eexists _, g. split; [reflexivity|]. apply union_two, H3.
    + right; left. rewrite (gd_leaf _ _ _ D) in F. inversion F as [|? ? ? f ? H1 H2]; subst. inversion H2 as [|? ? ? g ? H3 H4]; subst. inversion H4 as [|? ? ? h ? H5 H6]; subst. inversion H6; subst.
      exists f, g, h. split; [reflexivity|]. apply union_two in H1. auto.
    + right; right. rewrite (gd_inner _ _ _ D) in F. inversion F as [|? ? ? f ? H1 H2]; subst. inversion H2 as [|? ? ? g ? H3 H4]; subst. inversion H4 as [|? ? ? h ? H5 H6]; subst.
      inversion H6 as [|? ? ? i ? H7 H8]; subst. inversion H8; subst. inversion H1; subst.
      eexists _, g, h, i. split; [reflexivity|]. apply union_two in H3. auto.
  - intros [(p & s & -> & S)|[(w & k & x & -> & S & F1 & F2)|(p & w & l & r & -> & S & F1 & F2)]]; apply F_full; try (unfold declared; rewrite K; cbn; auto);
      [rewrite (gd_unused _ _ _ D)|rewrite (gd_leaf _ _ _ D)|rewrite (gd_inner _ _ _ D)]; repeat constructor; try assumption; apply union_two, S.
Qed.

Lemma plain_class c v : c_kind (ct c) = Plain -> object ct c v -> class_of v = Some c.
Proof. intros K O. inversion O as [| | | |? k ? DE| |]; subst; [|reflexivity]. unfold declared in DE. rewrite K in DE. subst. reflexivity. Qed.

Lemma fwit_class w : object ct (p_fwit P) w -> class_of w = Some (p_fwit P).
Proof. apply plain_class, (d_fwit ct P C). Qed.
Lemma gwit_class w : object ct (g_wit G) w -> class_of w = Some (g_wit G).
Proof. apply plain_class, (gd_wit _ _ _ D). Qed.

(** The class of a witness decides which method runs. *)
Lemma witness_class w : witness_ok w -> exists c, class_of w = Some c /\ forall h, eval ct (witness_verify_hash P G c h) w = Ok tt <-> vouches ct P G w h.
Proof.
  pose proof (proj2 (gd_distinct _ _ _ D)) as N. intros [O|O].
  - exists (p_fwit P). split; [apply fwit_class, O|]. intros h. unfold witness_verify_hash, vouches. rewrite Nat.eqb_refl.
    rewrite <- (outcome_eval ct any_bits _ _ _ O), (fake_verify_exact ct P C w h O). split; [auto|]. intros [E|(E & _)]; [exact E|].
    rewrite (fwit_class _ O) in E. congruence.
  - exists (g_wit G). split; [apply gwit_class, O|]. intros h. unfold witness_verify_hash, vouches. rewrite Nat.eqb_refl.
    destruct (Nat.eqb_spec (g_wit G) (p_fwit P)) as [E|_]; [congruence|]. rewrite <- (outcome_eval ct any_bits _ _ _ O), (gwit_class _ O). split; [auto|].
    intros [E|(_ & E)]; [|exact E]. exfalso. subst w. pose proof (gwit_class _ O) as X. cbn in X. congruence.
Qed.

Lemma class_observe v c : class_of v = Some c -> observe (Ok v) = OProof c.
Proof. destruct v; cbn; congruence. Qed.

(** Reading a part. *)
Lemma part_of_part name sr v b : part_of ct sr v = Ok b <-> part ct (name, sr) v b.
Proof. unfold part_of, part. cbn [snd]. destruct sr; reflexivity. Qed.

Lemma fits_observe sr v : fits ct any_bits sr v -> match sr with SerProof _ | SerUnion _ => exists c, class_of v = Some c | _ => observe (Ok v) = OVal v end.
Proof.
  intros F. inversion F as [| | | | | |cs c0 u HI HF]; subst; cbn; eauto. inversion HF; subst; cbn; eauto.
Qed.

Lemma eval_part {R} sr path (k : bytes -> prog (result R)) v x : look ct v path = Ok x -> fits ct any_bits sr x ->
  eval ct (part_at sr path k) v = match part_of ct sr x with Ok b => eval ct (k b) v | Err e => Err e end.
Proof.
  intros L F. pose proof (fits_observe _ _ F) as O. unfold part_at, part_of. destruct sr; unfold value_at, proof_at, hash_at, then_do.
  1-4: cbn [eval]; rewrite L, O; destruct (ser_leaf _ x); reflexivity.
  all: destruct O as (c' & O); cbn [eval]; rewrite L, (class_observe _ _ O); cbn [eval]; rewrite L; cbn [hash_of]; destruct (phash ct _); reflexivity.
Qed.

(** ** Seals *)

Lemma node_class v c : object ct (g_base G) v -> class_of v = Some c -> c = g_unused G \/ c = g_leaf G \/ c = g_inner G.
Proof.
  intros O E. apply node_shape in O. destruct O as [(p & s & -> & _)|[(w & k & x & -> & _)|(p & w & l & r & -> & _)]]; cbn in E; injection E as <-; auto.
Qed.

Context (W : wf_table ct).

Lemma declared_attr c v name sr x : object ct c v -> c_kind (ct c) = Plain -> In (name, sr) (c_attrs (ct c)) -> peek ct v name = Ok x -> fits ct any_bits sr x.
Proof.
  intros O K I E. destruct (In_nth_error _ _ I) as (i & Hi). pose proof (attr_index_complete _ _ _ _ (wf_names ct W c) Hi) as A.
  inversion O as [| | | |? k fs DE F|? dh DE L|]; subst.
  - unfold declared in DE. rewrite K in DE. subst k. rewrite (peek_full _ _ _ _ _ eq_refl), A in E.
    destruct (fits_all_nth _ _ _ _ _ _ _ F Hi) as (f & Hf & Ff). rewrite Hf in E. injection E as <-. exact Ff.
  - rewrite (peek_hash _ _ _ _ _ eq_refl), A in E. discriminate.
Qed.

Lemma witness_seal w s : witness_ok w -> peek ct w "seal" = Ok s -> seal_ok s.
Proof.
  intros [O|O] E.
  - left. apply (declared_attr _ _ _ _ _ O (proj1 (proj2 (d_fwit ct P C))) ltac:(rewrite (A_fwit ct P C); left; reflexivity) E).
  - right. destruct (gd_wit _ _ _ D) as (K & I). apply (declared_attr _ _ _ _ _ O K I E).
Qed.

Lemma seal_class s : seal_ok s -> exists c, class_of s = Some c.
Proof.
  intros [O|O]; [exists (p_fseal P)|exists (g_seal G)]; (eapply plain_class; [|exact O]); [apply (d_fseal ct P C)|apply (gd_seal _ _ _ D)].
Qed.

Lemma node_seal_has v s : object ct (g_base G) v -> (node_seal ct G v = Ok s <-> has_seal ct G v s).
Proof.
  pose proof distinct as (_ & _ & _ & N1 & N2 & N3). intros O. apply node_shape in O.
  destruct O as [(p & s' & -> & S)|[(w & k & x & -> & S & F1 & F2)|(p & w & l & r & -> & S & F1 & F2)]]; unfold node_seal, Unused, Leaf, Inner; cbn [class_of].
  - rewrite Nat.eqb_refl, (peek_full _ _ _ _ _ (gd_unused _ _ _ D)). cbn. split; [intros E; injection E as <-; constructor|].
    intros H. inversion H; subst; congruence.
  - rewrite Nat.eqb_refl. destruct (Nat.eqb_spec (g_leaf G) (g_unused G)) as [E|_]; [congruence|]. cbn [orb].
    rewrite (peek_full _ _ _ _ _ (gd_leaf _ _ _ D)). cbn. split; [intros E; apply HS_leaf, E|].
    intros H. inversion H; subst; try congruence; assumption.
  - rewrite Nat.eqb_refl. destruct (Nat.eqb_spec (g_inner G) (g_unused G)) as [E|_]; [congruence|]. rewrite orb_true_r.
    rewrite (peek_full _ _ _ _ _ (gd_inner _ _ _ D)). cbn. split; [intros E; apply HS_inner, E|].
    intros H. inversion H; subst; try congruence; assumption.
Qed.

Lemma has_seal_ok v s : object ct (g_base G) v -> has_seal ct G v s -> seal_ok s.
Proof.
  pose proof distinct as (_ & _ & _ & N1 & N2 & N3). intros O H. apply node_shape in O.
  destruct O as [(p & s' & -> & S)|[(w & k & x & -> & S & F1 & F2)|(p & w & l & r & -> & S & F1 & F2)]]; inversion H; subst; try congruence.
  all: eapply witness_seal; eassumption.
Qed.

Lemma eval_seal {R} path (k : bytes -> prog (result R)) v n : look ct v path = Ok n -> object ct (g_base G) n ->
  eval ct (seal_hash_at G path k) v = match (do s <- node_seal ct G n; phash ct s) with Ok h => eval ct (k h) v | Err e => Err e end.
Proof.
  pose proof distinct as (_ & _ & _ & N1 & N2 & N3). intros L O. unfold seal_hash_at, proof_at. cbn [eval]. rewrite L.
  assert (E : exists c sp, class_of n = Some c /\ seal_path G c = Some sp /\ look ct n sp = node_seal ct G n).
  { destruct (proj1 (node_shape n) O) as [(p & s' & -> & S)|[(w & ? & x & -> & S & F1 & F2)|(p & w & l & r & -> & S & F1 & F2)]].
    - eexists _, _. split; [reflexivity|]. unfold seal_path, node_seal. unfold Unused, Leaf, Inner; cbn [class_of]. rewrite Nat.eqb_refl. split; [reflexivity|]. cbn [look].
      destruct (peek ct _ "seal"); reflexivity.
    - eexists _, _. split; [reflexivity|]. unfold seal_path, node_seal. unfold Unused, Leaf, Inner; cbn [class_of]. rewrite Nat.eqb_refl.
      destruct (Nat.eqb_spec (g_leaf G) (g_unused G)) as [E|_]; [congruence|]. split; [reflexivity|]. cbn [look].
      destruct (peek ct _ "witness"); cbn [bind orb]; [|reflexivity]. destruct (peek ct _ "seal"); reflexivity.
    - eexists _, _. split; [reflexivity|]. unfold seal_path, node_seal. unfold Unused, Leaf, Inner; cbn [class_of]. rewrite Nat.eqb_refl, orb_true_r.
      destruct (Nat.eqb_spec (g_inner G) (g_unused G)) as [E|_]; [congruence|]. split; [reflexivity|]. cbn [look].
      destruct (peek ct _ "witness"); cbn [bind]; [|reflexivity]. destruct (peek ct _ "seal"); reflexivity. }
  destruct E as (c & sp & E1 & E2 & E3). rewrite (class_observe _ _ E1), E2. cbn [eval]. rewrite (look_app _ _ _ _ sp L), E3.
  destruct (node_seal ct G n) as [s|e] eqn:E; cbn [bind observe eval]; [|reflexivity].
  destruct (seal_class s) as (cs & Cs); [eapply has_seal_ok; [exact O|apply node_seal_has; [exact O|exact E]]|].
  fold (observe (Ok s)). rewrite (class_observe _ _ Cs). unfold hash_at. cbn [eval]. rewrite (look_app _ _ _ _ sp L), E3. cbn [hash_of].
  destruct (phash ct s); reflexivity.
Qed.

(** ** C44 *)

Lemma seal_id_eval n h : object ct (g_base G) n -> ((do s <- node_seal ct G n; phash ct s) = Ok h <-> seal_id ct G n h).
Proof.
  intros O. unfold seal_id. destruct (node_seal ct G n) as [s|e] eqn:E; cbn [bind].
  - split; [intros H; exists s; split; [apply node_seal_has; assumption|exact H]|]. intros (s' & H1 & H2). apply node_seal_has in H1; [|exact O]. congruence.
  - split; [discriminate|]. intros (s' & H1 & H2). apply node_seal_has in H1; [|exact O]. congruence.
Qed.

Lemma verify_exact v : object ct (g_base G) v ->
  (verified ct P G v <-> (exists p s, v = Unused G p s) \/ (exists w m, sealed ct G v w m /\ vouches ct P G w (sha256 m))).
Proof.
  pose proof distinct as (_ & _ & _ & N1 & N2 & N3). destruct (gd_tags _ _ _ D) as (tl & ti & T1 & T2 & _).
  intros O. unfold verified. rewrite (outcome_eval ct any_bits _ _ _ O). unfold node_verify, proof_at.
  destruct (proj1 (node_shape v) O) as [(p & s & -> & S)|[(w & k & x & -> & S & F1 & F2)|(p & w & l & r & -> & S & F1 & F2)]]; unfold Unused, Leaf, Inner; cbn [eval look observe class_of].
  - rewrite Nat.eqb_refl. cbn [eval]. split; [eauto|reflexivity].
  - rewrite Nat.eqb_refl. destruct (Nat.eqb_spec (g_leaf G) (g_unused G)) as [E|_]; [congruence|].
    fold (Leaf G w k x). destruct (witness_class w S) as (c & Cw & V).
    assert (LW : look ct (Leaf G w k x) ["witness"] = Ok w) by (unfold look, Leaf; rewrite (peek_full _ _ _ _ _ (gd_leaf _ _ _ D)); reflexivity).
    assert (LK : look ct (Leaf G w k x) ["key"] = Ok k) by (unfold look, Leaf; rewrite (peek_full _ _ _ _ _ (gd_leaf _ _ _ D)); reflexivity).
    assert (LX : look ct (Leaf G w k x) ["value"] = Ok x) by (unfold look, Leaf; rewrite (peek_full _ _ _ _ _ (gd_leaf _ _ _ D)); reflexivity).
    unfold leaf_verify, proof_at. cbn [eval]. rewrite LW, (class_observe _ _ Cw), (eval_part _ _ _ _ _ LK F1).
    destruct (part_of ct (g_key G) k) as [kb|e] eqn:EK.
    2:{ split; [discriminate|]. intros [(? & ? & E)|(w' & m & H & _)]; [discriminate E|]. inversion H; subst.
        match goal with H : part ct ("key", _) _ _ |- _ => apply part_of_part in H; congruence end. }
    rewrite (eval_part _ _ _ _ _ LX F2). destruct (part_of ct (g_value G) x) as [xb|e] eqn:EX.
    2:{ split; [discriminate|]. intros [(? & ? & E)|(w' & m & H & _)]; [discriminate E|]. inversion H; subst.
        match goal with H : part ct ("value", _) _ _ |- _ => apply part_of_part in H; congruence end. }
    unfold leaf_contents, contents_tag. rewrite T1. cbn [then_do]. rewrite (eval_under _ _ _ _ _ LW), V. unfold tag_hash. split.
    + intros H. right. eexists w, _. split; [apply (SM_leaf ct G w k x tl kb xb T1); [apply part_of_part, EK|apply part_of_part, EX]|exact H].
    + intros [(? & ? & E)|(w' & m & H & Vm)]; [discriminate E|]. inversion H; subst.
      repeat match goal with H : part ct _ _ _ |- _ => apply part_of_part in H end.
      assert (t = tl) by congruence. assert (kb0 = kb) by congruence. assert (xb0 = xb) by congruence. subst. exact Vm.
  - rewrite Nat.eqb_refl. destruct (Nat.eqb_spec (g_inner G) (g_unused G)) as [E|_]; [congruence|]. destruct (Nat.eqb_spec (g_inner G) (g_leaf G)) as [E|_]; [congruence|].
    fold (Inner G p w l r). destruct (witness_class w S) as (c & Cw & V).
    assert (LW : look ct (Inner G p w l r) ["witness"] = Ok w) by (unfold look, Inner; rewrite (peek_full _ _ _ _ _ (gd_inner _ _ _ D)); reflexivity).
    assert (LK : look ct (Inner G p w l r) ["left"] = Ok l) by (unfold look, Inner; rewrite (peek_full _ _ _ _ _ (gd_inner _ _ _ D)); reflexivity).
    assert (LX : look ct (Inner G p w l r) ["right"] = Ok r) by (unfold look, Inner; rewrite (peek_full _ _ _ _ _ (gd_inner _ _ _ D)); reflexivity).
    unfold inner_verify, proof_at. cbn [eval]. rewrite LW, (class_observe _ _ Cw).
    unfold inner_contents, contents_tag. rewrite T2. cbn [then_do]. rewrite (eval_seal _ _ _ _ LK F1).
    destruct (do s <- node_seal ct G l; phash ct s) as [hl|e] eqn:EL.
    2:{ split; [discriminate|]. intros [(? & ? & E)|(w' & m & H & _)]; [discriminate E|]. inversion H; subst.
        match goal with H : seal_id ct G l _ |- _ => apply (seal_id_eval _ _ F1) in H; congruence end. }
    rewrite (eval_seal _ _ _ _ LX F2). destruct (do s <- node_seal ct G r; phash ct s) as [hr|e] eqn:ER.
    2:{ split; [discriminate|]. intros [(? & ? & E)|(w' & m & H & _)]; [discriminate E|]. inversion H; subst.
        match goal with H : seal_id ct G r _ |- _ => apply (seal_id_eval _ _ F2) in H; congruence end. }
    rewrite (eval_under _ _ _ _ _ LW), V. unfold tag_hash. split.
    + intros H. right. eexists w, _. split; [apply (SM_inner ct G p w l r ti hl hr T2); apply seal_id_eval; assumption|exact H].
    + intros [(? & ? & E)|(w' & m & H & Vm)]; [discriminate E|]. inversion H; subst.
      match goal with H : seal_id ct G l _ |- _ => apply (seal_id_eval _ _ F1) in H end.
      match goal with H : seal_id ct G r _ |- _ => apply (seal_id_eval _ _ F2) in H end.
      assert (t = ti) by congruence. assert (hl0 = hl) by congruence. assert (hr0 = hr) by congruence. subst. exact Vm.
Qed.

Lemma leaf_construct w k x : witness_ok w -> fits ct any_bits (g_key G) k -> fits ct any_bits (g_value G) x ->
  construct ct (g_leaf G) [("witness", w); ("key", k); ("value", x)] = Ok (Leaf G w k x).
Proof.
  intros S F1 F2. apply construct_ok_supplied. pose proof (gd_leaf _ _ _ D) as A.
  assert (H : forall name sr v, In (name, sr) (c_attrs (ct (g_leaf G))) -> fits ct any_bits sr v -> accepts ct sr v) by (intros; eapply fits_accepts; eassumption).
  rewrite A in *. repeat (constructor; [reflexivity|eapply H; [cbn; auto 6|try assumption]|]); [apply union_two, S|constructor].
Qed.

Lemma inner_construct p w l r : witness_ok w -> object ct (g_base G) l -> object ct (g_base G) r ->
  construct ct (g_inner G) [("prefix", VBits p); ("witness", w); ("left", l); ("right", r)] = Ok (Inner G p w l r).
Proof.
  intros S F1 F2. apply construct_ok_supplied. pose proof (gd_inner _ _ _ D) as A.
  assert (H : forall name sr v, In (name, sr) (c_attrs (ct (g_inner G))) -> fits ct any_bits sr v -> accepts ct sr v) by (intros; eapply fits_accepts; eassumption).
  rewrite A in *. repeat (constructor; [reflexivity|eapply H; [cbn; auto 6|try assumption]|]); [constructor; exact I|apply union_two, S|constructor].
Qed.

Lemma leaf_hash_exact k x kb xb t : c_hash (ct (g_leaf G)) = HTag (Some t) -> part ct ("key", g_key G) k kb -> part ct ("value", g_value G) x xb ->
  leaf_hash ct G k x = Ok (sha256 (leaf_tag t ++ kb ++ xb)).
Proof.
  intros T K X. apply part_of_part in K, X. unfold leaf_hash, leaf_contents, contents_tag. rewrite K, X, T. reflexivity.
Qed.

Lemma inner_hash_exact l r hl hr t : object ct (g_base G) l -> object ct (g_base G) r -> c_hash (ct (g_inner G)) = HTag (Some t) ->
  seal_id ct G l hl -> seal_id ct G r hr -> inner_hash ct G l r = Ok (sha256 (inner_tag t ++ hl ++ hr)).
Proof.
  intros O1 O2 T (s1 & H1 & E1) (s2 & H2 & E2). apply node_seal_has in H1, H2; [|assumption|assumption].
  unfold inner_hash, inner_contents, contents_tag. rewrite T, H1, H2. cbn [bind]. rewrite E1. cbn [bind]. rewrite E2. reflexivity.
Qed.

Lemma leaf_from_unused_verifies p s k x kb xb make : object ct (g_base G) (Unused G p s) -> fits ct any_bits (g_key G) k -> fits ct any_bits (g_value G) x ->
  part ct ("key", g_key G) k kb -> part ct ("value", g_value G) x xb -> honest ct P G make s ->
  exists w, leaf_from_unused ct G (Unused G p s) k x make = Ok (Leaf G w k x) /\ object ct (g_base G) (Leaf G w k x) /\
    has_seal ct G (Leaf G w k x) s /\ verified ct P G (Leaf G w k x).
Proof.
  destruct (gd_tags _ _ _ D) as (tl & ti & T1 & T2 & _). intros O F1 F2 K X H.
  destruct (H (sha256 (leaf_tag tl ++ kb ++ xb)) (sha256_length _)) as (w & M & Ow & A & V). exists w.
  assert (ON : object ct (g_base G) (Leaf G w k x)) by (apply node_shape; right; left; exists w, k, x; auto).
  split; [|split; [exact ON|split; [apply HS_leaf, A|]]].
  - unfold leaf_from_unused. rewrite (proj2 (node_seal_has _ s O) (HS_unused ct G p s)). cbn [bind].
    rewrite (leaf_hash_exact _ _ _ _ _ T1 K X). cbn [bind]. rewrite M. cbn [bind]. apply leaf_construct; assumption.
  - apply verify_exact; [exact ON|]. right. eexists w, _. split; [apply (SM_leaf ct G w k x tl kb xb); assumption|exact V].
Qed.

Lemma inner_from_unused_verifies p s l r hl hr make : object ct (g_base G) (Unused G p s) -> object ct (g_base G) l -> object ct (g_base G) r ->
  seal_id ct G l hl -> seal_id ct G r hr -> honest ct P G make s ->
  exists w, inner_from_unused ct G (Unused G p s) l r make = Ok (Inner G p w l r) /\ object ct (g_base G) (Inner G p w l r) /\
    has_seal ct G (Inner G p w l r) s /\ verified ct P G (Inner G p w l r).
Proof.
  destruct (gd_tags _ _ _ D) as (tl & ti & T1 & T2 & _). intros O F1 F2 K X H.
  destruct (H (sha256 (inner_tag ti ++ hl ++ hr)) (sha256_length _)) as (w & M & Ow & A & V). exists w.
  assert (ON : object ct (g_base G) (Inner G p w l r)) by (apply node_shape; right; right; exists p, w, l, r; auto).
  split; [|split; [exact ON|split; [apply HS_inner, A|]]].
  - unfold inner_from_unused. rewrite (proj2 (node_seal_has _ s O) (HS_unused ct G p s)). cbn [bind].
    rewrite (inner_hash_exact _ _ _ _ _ F1 F2 T2 K X). cbn [bind]. rewrite M. cbn [bind]. unfold node_prefix, Unused. cbn [class_of]. rewrite Nat.eqb_refl. cbn [orb].
    rewrite (peek_full _ _ _ _ _ (gd_unused _ _ _ D)). cbn [attr_index String.eqb Ascii.eqb Bool.eqb nth_error bind]. apply inner_construct; assumption.
  - apply verify_exact; [exact ON|]. right. eexists w, _. split; [apply (SM_inner ct G p w l r ti hl hr); assumption|exact V].
Qed.

Lemma node_prefix_has v p : object ct (g_base G) v -> has_prefix G v p -> node_prefix ct G v = Ok p.
Proof.
  pose proof distinct as (_ & _ & _ & N1 & N2 & N3). intros O H. unfold node_prefix. inversion H; subst; unfold Unused, Leaf, Inner; cbn [class_of]; rewrite Nat.eqb_refl; cbn [orb].
  - rewrite (peek_full _ _ _ _ _ (gd_unused _ _ _ D)). reflexivity.
  - rewrite orb_true_r. rewrite (peek_full _ _ _ _ _ (gd_inner _ _ _ D)). reflexivity.
  - destruct (Nat.eqb_spec (g_leaf G) (g_unused G)) as [E|_]; [congruence|]. destruct (Nat.eqb_spec (g_leaf G) (g_inner G)) as [E|_]; [congruence|]. cbn [orb].
    rewrite (peek_full _ _ _ _ _ (gd_leaf _ _ _ D)). assumption.
Qed.

Lemma from_children_verifies l r pl pr hl hr : object ct (g_base G) l -> object ct (g_base G) r -> has_prefix G l pl -> has_prefix G r pr ->
  seal_id ct G l hl -> seal_id ct G r hr ->
  exists p h, from_children ct P G l r = Ok (Inner G p (FakeWitness P (FakeSeal P h)) l r) /\ longest_common_prefix p pl pr /\
    object ct (g_base G) (Inner G p (FakeWitness P (FakeSeal P h)) l r) /\ verified ct P G (Inner G p (FakeWitness P (FakeSeal P h)) l r).
Proof.
  destruct (gd_tags _ _ _ D) as (tl & ti & T1 & T2 & _). intros O1 O2 P1 P2 K X.
  exists (common_prefix pl pr), (sha256 (inner_tag ti ++ hl ++ hr)). set (h := sha256 _). assert (L : List.length h = 32) by apply sha256_length.
  assert (Ow : witness_ok (FakeWitness P (FakeSeal P h))) by (left; apply (fwit_object ct P C), (fseal_object ct P C), L).
  assert (ON : object ct (g_base G) (Inner G (common_prefix pl pr) (FakeWitness P (FakeSeal P h)) l r)) by (apply node_shape; right; right; eexists _, _, l, r; split; [reflexivity|auto]).
  split; [|split; [apply common_prefix_longest|split; [exact ON|]]].
  - unfold from_children. rewrite (node_prefix_has _ _ O1 P1), (node_prefix_has _ _ O2 P2). cbn [bind].
    rewrite (inner_hash_exact _ _ _ _ _ O1 O2 T2 K X). cbn [bind]. fold h. rewrite (fake_from_hash_exact ct P C). unfold blen.
    replace (N.of_nat (List.length h) =? 32)%N with true by (rewrite L; reflexivity). cbn [bind]. apply inner_construct; assumption.
  - apply verify_exact; [exact ON|]. right. eexists _, _. split; [apply (SM_inner ct G _ _ l r ti hl hr); assumption|]. left. reflexivity.
Qed.

(** ** C45 *)

Lemma parts_split sr k1 k2 b1 b2 r1 r2 name : fits ct any_bits sr k1 -> fits ct any_bits sr k2 -> part ct (name, sr) k1 b1 -> part ct (name, sr) k2 b2 ->
  b1 ++ r1 = b2 ++ r2 -> same ct sr k1 k2 /\ r1 = r2.
Proof.
  intros F1 F2 P1 P2 E. unfold part in P1, P2. cbn [snd] in P1, P2. unfold same. destruct sr.
  1-4: eapply transports_inj; try eassumption; exact I.
  all: apply app_inj_len in E; [destruct E as (-> & ->); split; [eauto|reflexivity]|rewrite (phash_length _ _ _ P1), (phash_length _ _ _ P2); reflexivity].
Qed.

Lemma tag_derive_length a b : List.length (tag_derive a b) = 16.
Proof. unfold tag_derive. rewrite firstn_length. unfold tag_hash. rewrite sha256_length. reflexivity. Qed.

Lemma sealed_same n1 n2 w1 w2 m1 m2 : object ct (g_base G) n1 -> object ct (g_base G) n2 -> sealed ct G n1 w1 m1 -> sealed ct G n2 w2 m2 ->
  sha256 m1 = sha256 m2 -> same_contents ct G n1 n2 \/ sealed_collision ct G n1 n2.
Proof.
  destruct (gd_tags _ _ _ D) as (tl & ti & T1 & T2 & TN).
  intros O1 O2 S1 S2 E. destruct (list_eq_dec Byte.byte_eq_dec m1 m2) as [EM|NM].
  2:{ right. exists w1, w2, m1, m2. split; [exact S1|]. split; [exact S2|]. split; assumption. }
  left. destruct S1 as [w k x t kb xb Tt K X|p w l r t hl hr Tt K X], S2 as [w' k' x' t' kb' xb' Tt' K' X'|p' w' l' r' t' hl' hr' Tt' K' X'];
    apply app_inj_len in EM; try (unfold leaf_tag, inner_tag; rewrite !tag_derive_length; reflexivity); destruct EM as (ET & EM); try (exfalso; congruence).
  - left. exists w, w', k, k', x, x'. split; [reflexivity|]. split; [reflexivity|].
    apply node_shape in O1, O2. destruct O1 as [(? & ? & H & _)|[(? & ? & ? & H & _ & F1 & F2)|(? & ? & ? & ? & H & _)]]; try discriminate H.
    destruct O2 as [(? & ? & H' & _)|[(? & ? & ? & H' & _ & F1' & F2')|(? & ? & ? & ? & H' & _)]]; try discriminate H'.
    injection H as <- <- <-. injection H' as <- <- <-.
    destruct (parts_split _ _ _ _ _ _ _ _ F1 F1' K K' EM) as (HK & EX). split; [exact HK|].
    eapply (parts_split _ _ _ _ _ [] [] _ F2 F2' X X'). rewrite EX. reflexivity.
  - right. apply app_inj_len in EM; [destruct EM as (-> & ->); exists p, p', w, w', l, l', r, r', hl', hr'; auto 8|].
    destruct K as (? & _ & K), K' as (? & _ & K'). rewrite (phash_length _ _ _ K), (phash_length _ _ _ K'). reflexivity.
Qed.

Lemma closed_sealed n w m w' : closed_with G n w -> sealed ct G n w' m -> w' = w.
Proof. intros [(k & x & ->)|(p & l & r & ->)] H; inversion H; reflexivity. Qed.

Lemma closed_not_unused n w p s : closed_with G n w -> n <> Unused G p s.
Proof. intros [(k & x & ->)|(q & l & r & ->)]; discriminate. Qed.

Lemma verified_closed n w : object ct (g_base G) n -> verified ct P G n -> closed_with G n w -> exists m, sealed ct G n w m /\ vouches ct P G w (sha256 m).
Proof.
  intros O V Cl. apply verify_exact in V; [|exact O]. destruct V as [(p & s & E)|(w' & m & S & V)]; [exfalso; eapply closed_not_unused; eassumption|].
  pose proof (closed_sealed _ _ _ _ Cl S). subst w'. eauto.
Qed.

Lemma fake_vouches s h : vouches ct P G (FakeWitness P s) h -> s = FakeSeal P h.
Proof. pose proof (proj2 (gd_distinct _ _ _ D)). intros [E|(E & _)]; [injection E as ->; reflexivity|]. cbn in E. congruence. Qed.

Lemma fake_binds_contents n1 n2 s1 s2 h : wf_tags ct -> object ct (g_base G) n1 -> object ct (g_base G) n2 -> verified ct P G n1 -> verified ct P G n2 ->
  closed_with G n1 (FakeWitness P s1) -> closed_with G n2 (FakeWitness P s2) -> phash ct s1 = Ok h -> phash ct s2 = Ok h ->
  same_contents ct G n1 n2 \/ sealed_collision ct G n1 n2 \/ hash_collision ct s1 s2.
Proof.
  intros T O1 O2 V1 V2 C1 C2 H1 H2. destruct (verified_closed _ _ O1 V1 C1) as (m1 & S1 & F1), (verified_closed _ _ O2 V2 C2) as (m2 & S2 & F2).
  apply fake_vouches in F1, F2. rewrite F1 in H1. rewrite F2 in H2.
  destruct (fake_binds ct P C _ _ _ W T (sha256_length _) (sha256_length _) H1 H2) as [E|K]; [|right; right; rewrite F1, F2; exact K].
  destruct (sealed_same _ _ _ _ _ _ O1 O2 S1 S2 E); auto.
Qed.

Lemma witness_vouches w h : object ct (p_bwit P) w -> g_wit G = p_bwit P -> g_verify G = btc_verify_hash -> vouches ct P G w h -> outcome ct (btc_verify_hash h) w = Ok tt.
Proof.
  intros O EW EV [E|(_ & H)]; [|rewrite EV in H; exact H]. exfalso. subst w.
  pose proof (plain_class _ _ (proj1 (proj2 (d_bwit ct P C))) O) as K. cbn in K. pose proof (proj2 (gd_distinct _ _ _ D)). congruence.
Qed.

Lemma closed_witness n w : object ct (g_base G) n -> closed_with G n w -> witness_ok w.
Proof.
  intros O K. apply node_shape in O. destruct K as [(k & x & ->)|(p & l & r & ->)];
    destruct O as [(? & ? & E & _)|[(? & ? & ? & E & S & _)|(? & ? & ? & ? & E & S & _)]]; try discriminate E; [injection E as <- <- <-|injection E as <- <- <- <-]; exact S.
Qed.

Lemma closed_btc n s a b : object ct (g_base G) n -> g_wit G = p_bwit P -> closed_with G n (Witness P s a b) -> object ct (p_bwit P) (Witness P s a b).
Proof.
  intros O EW K. destruct (closed_witness _ _ O K) as [H|H]; [|rewrite <- EW; exact H].
  apply fwit_class in H. cbn in H. pose proof (proj2 (gd_distinct _ _ _ D)). congruence.
Qed.

Lemma output_binds_contents n1 n2 s1 s2 a1 a2 j t : g_wit G = p_bwit P -> g_verify G = btc_verify_hash ->
  let w1 := Witness P s1 a1 (TxOutProof P j (TxProof P t)) in let w2 := Witness P s2 a2 (TxOutProof P j (TxProof P t)) in
  object ct (g_base G) n1 -> object ct (g_base G) n2 -> verified ct P G n1 -> verified ct P G n2 -> closed_with G n1 w1 -> closed_with G n2 w2 ->
  same_contents ct G n1 n2 \/ sealed_collision ct G n1 n2 \/
  exists m1 m2, sealed ct G n1 w1 m1 /\ sealed ct G n2 w2 m2 /\ collision Hash160 (sha256 m1) (sha256 m2).
Proof.
  intros EW EV w1 w2 O1 O2 V1 V2 C1 C2. pose proof (closed_btc _ _ _ _ O1 EW C1) as B1. pose proof (closed_btc _ _ _ _ O2 EW C2) as B2.
  destruct (verified_closed _ _ O1 V1 C1) as (m1 & S1 & F1), (verified_closed _ _ O2 V2 C2) as (m2 & S2 & F2).
  apply (witness_vouches _ _ B1 EW EV), (btc_verify_hash_exact ct P C _ _ B1) in F1. apply (witness_vouches _ _ B2 EW EV), (btc_verify_hash_exact ct P C _ _ B2) in F2.
  destruct F1 as (L1 & ? & ? & ? & ? & x & E1 & (_ & X1) & K1), F2 as (L2 & ? & ? & ? & ? & y & E2 & (_ & X2) & K2).
  injection E1 as <- <- <- <-. injection E2 as <- <- <- <-. rewrite X1 in X2. injection X2 as <-.
  destruct (commitment_binds _ _ _ L1 L2 K1 K2) as [E|K]; [|right; right; eauto 6].
  destruct (sealed_same _ _ _ _ _ _ O1 O2 S1 S2 E); auto.
Qed.

Lemma closed_seal n w : g_wit G = p_bwit P -> g_verify G = btc_verify_hash -> object ct (g_base G) n -> object ct (p_bwit P) w ->
  closed_with G n w -> verified ct P G n -> outcome ct btc_verify w = Ok tt ->
  exists o nonce i t j t' x y m, w = Witness P (Seal P o nonce) (TxInProof P i (TxProof P t)) (TxOutProof P j (TxProof P t')) /\
    input t i x /\ i_prevout x = o /\ same_txid t t' /\ has_seal ct G n (Seal P o nonce) /\
    sealed ct G n w m /\ output t' j y /\ commitment (sha256 m) (o_scriptPubKey y).
Proof.
  intros EW EV O B Cl V H. destruct (verified_closed _ _ O V Cl) as (m & S & F).
  apply (btc_verify_exact ct P C _ B) in H. destruct H as (o & nn & i & t & j & t' & x & E & I & Ex & ST).
  apply (witness_vouches _ _ B EW EV), (btc_verify_hash_exact ct P C _ _ B) in F. destruct F as (_ & ? & ? & ? & ? & y & E2 & Y & K).
  rewrite E in E2. injection E2 as <- <- <- <-. exists o, nn, i, t, j, t', x, y, m. repeat (split; [assumption|]). split; [|auto].
  assert (A : attr ct w "seal" (Seal P o nn)) by (rewrite E; unfold attr, Witness; rewrite (peek_full _ _ _ _ _ (A_bwit ct P C)); reflexivity).
  destruct Cl as [(k & v & ->)|(p & l & r & ->)]; constructor; exact A.
Qed.

(** ** C58 *)

Lemma seal_id_fun n h h' : object ct (g_base G) n -> seal_id ct G n h -> seal_id ct G n h' -> h = h'.
Proof. intros O H H'. apply (seal_id_eval n _ O) in H, H'. congruence. Qed.

Lemma child_replaced p w l r l' r' hl hr : object ct (g_base G) (Inner G p w l r) -> object ct (g_base G) l' -> object ct (g_base G) r' ->
  seal_id ct G l hl -> seal_id ct G l' hl -> seal_id ct G r hr -> seal_id ct G r' hr ->
  object ct (g_base G) (Inner G p w l' r') /\
  (verified ct P G (Inner G p w l' r') <-> verified ct P G (Inner G p w l r)) /\
  (forall s, has_seal ct G (Inner G p w l' r') s <-> has_seal ct G (Inner G p w l r) s).
Proof.
  intros O Ol' Or' L L' R R'. assert (OS : witness_ok w /\ object ct (g_base G) l /\ object ct (g_base G) r).
  { apply node_shape in O. destruct O as [(? & ? & E & _)|[(? & ? & ? & E & _)|(? & ? & ? & ? & E & S & ? & ?)]]; try discriminate E. injection E as <- <- <- <-. auto. }
  destruct OS as (Ow & Ol & Or). assert (O' : object ct (g_base G) (Inner G p w l' r')) by (apply node_shape; right; right; eexists _, _, _, _; split; [reflexivity|auto]).
  split; [exact O'|]. split.
  - rewrite (verify_exact _ O), (verify_exact _ O').
    assert (H : forall l r l' r', object ct (g_base G) l -> object ct (g_base G) r -> seal_id ct G l hl -> seal_id ct G l' hl -> seal_id ct G r hr -> seal_id ct G r' hr ->
      (exists p0 s, Inner G p w l r = Unused G p0 s) \/ (exists w0 m, sealed ct G (Inner G p w l r) w0 m /\ vouches ct P G w0 (sha256 m)) ->
      (exists p0 s, Inner G p w l' r' = Unused G p0 s) \/ (exists w0 m, sealed ct G (Inner G p w l' r') w0 m /\ vouches ct P G w0 (sha256 m))).
    { clear l r l' r' O Ol' Or' L L' R R' Ol Or O'. intros l r l' r' Ol Or L L' R R' [(? & ? & E)|(w0 & m & S & V)]; [discriminate E|]. right. inversion S as [|? ? ? ? t hl0 hr0 T HL HR]; subst.
      pose proof (seal_id_fun _ _ _ Ol L HL). pose proof (seal_id_fun _ _ _ Or R HR). subst hl0 hr0. eexists _, _. split; [apply SM_inner; eassumption|exact V]. }
    split; apply H; assumption.
  - intros s. split; intros H; inversion H; subst; constructor; assumption.
Qed.

(** ** C46 *)

Lemma node_object m p n : object ct (g_base G) m -> node G m p n -> object ct (g_base G) n.
Proof.
  intros O H. induction H as [v|pfx w l r p n H IH|pfx w l r p n H IH]; [exact O| |]; apply IH; apply node_shape in O;
    destruct O as [(? & ? & E & _)|[(? & ? & ? & E & _)|(? & ? & ? & ? & E & _ & O1 & O2)]]; try discriminate E; injection E as <- <- <- <-; assumption.
Qed.

Lemma node_app m p q n : node G m (p ++ q) n -> exists n', node G m p n' /\ node G n' q n.
Proof.
  revert m. induction p as [|b p IH]; intros m H; [exists m; split; [constructor|exact H]|].
  cbn [app] in H. inversion H; subst; (edestruct IH as (n' & H1 & H2); [eassumption|]); exists n'; (split; [constructor; exact H1|exact H2]).
Qed.

Lemma node_unique m p n n' : node G m p n -> node G m p n' -> n = n'.
Proof. intros H. induction H; intros H'; inversion H'; subst; auto. Qed.

(** [closed_once], up to [X]. *)
Definition closed_once_or (X : Prop) (m1 m2 : val) : Prop :=
  forall p1 p2 n1 n2 h w1 w2 d1 d2, node G m1 p1 n1 -> node G m2 p2 n2 -> seal_id ct G n1 h -> seal_id ct G n2 h ->
    sealed ct G n1 w1 d1 -> sealed ct G n2 w2 d2 ->
    vouches ct P G w1 (sha256 d1) -> vouches ct P G w2 (sha256 d2) -> sha256 d1 = sha256 d2 \/ X.

Lemma same_digest X m1 m2 p1 p2 n1 n2 w1 w2 h : object ct (g_base G) m1 -> object ct (g_base G) m2 -> all_verified ct P G m1 -> all_verified ct P G m2 ->
  closed_once_or X m1 m2 -> node G m1 p1 n1 -> node G m2 p2 n2 -> seal_id ct G n1 h -> seal_id ct G n2 h -> closed_with G n1 w1 -> closed_with G n2 w2 ->
  same_contents ct G n1 n2 \/ sealed_collision ct G n1 n2 \/ X.
Proof.
  intros O1 O2 V1 V2 CO N1 N2 I1 I2 C1 C2. pose proof (node_object _ _ _ O1 N1) as OO1. pose proof (node_object _ _ _ O2 N2) as OO2.
  destruct (verified_closed _ _ OO1 (V1 _ _ N1) C1) as (m & S & F), (verified_closed _ _ OO2 (V2 _ _ N2) C2) as (m' & S' & F').
  destruct (CO _ _ _ _ _ _ _ _ _ N1 N2 I1 I2 S S' F F') as [E|x]; [|auto].
  destruct (sealed_same _ _ _ _ _ _ OO1 OO2 S S' E); auto.
Qed.

Lemma same_place X m1 m2 p : object ct (g_base G) m1 -> object ct (g_base G) m2 -> all_verified ct P G m1 -> all_verified ct P G m2 ->
  closed_once_or X m1 m2 -> (exists h, seal_id ct G m1 h /\ seal_id ct G m2 h) -> forall n1 n2, node G m1 p n1 -> node G m2 p n2 ->
  (exists h, seal_id ct G n1 h /\ seal_id ct G n2 h) \/ map_collision ct G m1 m2 \/ X.
Proof.
  intros O1 O2 V1 V2 CO HR. induction p as [|b p IH] using rev_ind; intros n1 n2 N1 N2.
  - inversion N1; subst. inversion N2; subst. auto.
  - destruct (node_app _ _ _ _ N1) as (a1 & A1 & B1), (node_app _ _ _ _ N2) as (a2 & A2 & B2).
    destruct (IH _ _ A1 A2) as [(h & I1 & I2)|K]; [|auto].
    assert (E1 : exists p w l r, a1 = Inner G p w l r /\ n1 = if b then r else l) by (inversion B1 as [|? ? ? ? ? ? B|? ? ? ? ? ? B]; subst; inversion B; subst; do 4 eexists; split; reflexivity).
    assert (E2 : exists p w l r, a2 = Inner G p w l r /\ n2 = if b then r else l) by (inversion B2 as [|? ? ? ? ? ? B|? ? ? ? ? ? B]; subst; inversion B; subst; do 4 eexists; split; reflexivity).
    destruct E1 as (q1 & w1 & l1 & r1 & -> & ->), E2 as (q2 & w2 & l2 & r2 & -> & ->).
    destruct (same_digest X m1 m2 p p _ _ w1 w2 h O1 O2 V1 V2 CO A1 A2 I1 I2) as [K|[K|K]].
    + right. exists q1, l1, r1. reflexivity.
    + right. exists q2, l2, r2. reflexivity.
    + left. destruct K as [(? & ? & ? & ? & ? & ? & E & _)|(? & ? & ? & ? & ? & ? & ? & ? & hl & hr & E1 & E2 & H1 & H2 & H3 & H4)]; [discriminate E|].
      injection E1 as <- <- <- <-. injection E2 as <- <- <- <-. destruct b; eauto.
    + right; left. exists p, (Inner G q1 w1 l1 r1), (Inner G q2 w2 l2 r2). auto.
    + auto.
Qed.

Lemma map_collision_sym m1 m2 : map_collision ct G m1 m2 -> map_collision ct G m2 m1.
Proof.
  intros (p & n1 & n2 & N1 & N2 & w1 & w2 & d1 & d2 & S1 & S2 & NE & E). exists p, n2, n1. split; [exact N2|]. split; [exact N1|].
  exists w2, w1, d2, d1. split; [exact S2|]. split; [exact S1|]. split; [congruence|symmetry; exact E].
Qed.

Lemma closed_once_or_sym X m1 m2 : closed_once_or X m1 m2 -> closed_once_or X m2 m1.
Proof.
  intros H p1 p2 n1 n2 h w1 w2 d1 d2 A1 A2 A3 A4 A5 A6 A7 A8. destruct (H _ _ _ _ _ _ _ _ _ A2 A1 A4 A3 A6 A5 A8 A7) as [E|x]; auto.
Qed.

Lemma same_sym sr a b : same ct sr a b -> same ct sr b a.
Proof. destruct sr; cbn; try congruence; intros (h & H1 & H2); eauto. Qed.

Lemma unique_le X m1 m2 p q w1 w2 k x1 x2 : object ct (g_base G) m1 -> object ct (g_base G) m2 -> all_verified ct P G m1 -> all_verified ct P G m2 ->
  closed_once_or X m1 m2 -> (exists h, seal_id ct G m1 h /\ seal_id ct G m2 h) -> node G m1 p (Leaf G w1 k x1) -> node G m2 (p ++ q) (Leaf G w2 k x2) ->
  same ct (g_value G) x1 x2 \/ map_collision ct G m1 m2 \/ X.
Proof.
  intros O1 O2 V1 V2 CO HR N1 N2. destruct (node_app _ _ _ _ N2) as (a & A & B).
  destruct (same_place X m1 m2 p O1 O2 V1 V2 CO HR _ _ N1 A) as [(h & I1 & I2)|K]; [|auto].
  assert (CA : exists w, closed_with G a w).
  { inversion B; subst; [exists w2; left; eauto|eexists; right; eauto..]. }
  destruct CA as (w & CA). destruct (same_digest X m1 m2 p p _ _ w1 w h O1 O2 V1 V2 CO N1 A I1 I2) as [K|[K|K]]; [left; eauto|exact CA| | |auto].
  - destruct K as [(? & ? & ? & ? & ? & ? & E1 & E2 & _ & SX)|(? & ? & ? & ? & ? & ? & ? & ? & ? & ? & E1 & _)]; [|discriminate E1].
    injection E1 as <- <- <-. subst a. inversion B; subst. left. exact SX.
  - right; left. exists p, (Leaf G w1 k x1), a. auto.
Qed.

Lemma unique_or X m1 m2 k x1 x2 : object ct (g_base G) m1 -> object ct (g_base G) m2 -> all_verified ct P G m1 -> all_verified ct P G m2 ->
  placed G m1 -> placed G m2 -> closed_once_or X m1 m2 -> (exists h, seal_id ct G m1 h /\ seal_id ct G m2 h) -> contains G m1 k x1 -> contains G m2 k x2 ->
  same ct (g_value G) x1 x2 \/ map_collision ct G m1 m2 \/ X.
Proof.
  intros O1 O2 V1 V2 P1 P2 CO HR (p1 & w1 & N1) (p2 & w2 & N2).
  destruct (P1 _ _ _ _ N1) as (b & E & (r1 & B1)), (P2 _ _ _ _ N2) as (b' & E' & (r2 & B2)). rewrite E in E'. injection E' as <-.
  rewrite B1 in B2. destruct (le_ge_dec (List.length p1) (List.length p2)) as [L|L].
  - assert (exists q, p2 = p1 ++ q) as (q & ->).
    { exists (skipn (List.length p1) p2). rewrite <- (firstn_skipn (List.length p1) p2) at 1. f_equal.
      assert (H : firstn (List.length p1) (p1 ++ r1) = firstn (List.length p1) (p2 ++ r2)) by congruence.
      rewrite !firstn_app, firstn_all, Nat.sub_diag in H. replace (List.length p1 - List.length p2) with 0 in H by lia. cbn [firstn] in H. rewrite !app_nil_r in H. congruence. }
    eapply unique_le; eassumption.
  - assert (exists q, p1 = p2 ++ q) as (q & ->).
    { exists (skipn (List.length p2) p1). rewrite <- (firstn_skipn (List.length p2) p1) at 1. f_equal.
      assert (H : firstn (List.length p2) (p1 ++ r1) = firstn (List.length p2) (p2 ++ r2)) by congruence.
      rewrite !firstn_app, firstn_all, Nat.sub_diag in H. replace (List.length p2 - List.length p1) with 0 in H by lia. cbn [firstn] in H. rewrite !app_nil_r in H. congruence. }
    destruct (unique_le X m2 m1 p2 q w2 w1 k x2 x1 O2 O1 V2 V1 (closed_once_or_sym _ _ _ CO)) as [K|[K|K]]; try assumption.
    + destruct HR as (h & ? & ?); eauto.
    + left. apply same_sym, K.
    + right; left. apply map_collision_sym, K.
    + auto.
Qed.

Lemma unique_closed_once m1 m2 k x1 x2 : object ct (g_base G) m1 -> object ct (g_base G) m2 -> all_verified ct P G m1 -> all_verified ct P G m2 ->
  placed G m1 -> placed G m2 -> closed_once ct P G m1 m2 -> (exists h, seal_id ct G m1 h /\ seal_id ct G m2 h) -> contains G m1 k x1 -> contains G m2 k x2 ->
  same ct (g_value G) x1 x2 \/ map_collision ct G m1 m2.
Proof.
  intros O1 O2 V1 V2 P1 P2 CO HR K1 K2. destruct (unique_or False m1 m2 k x1 x2) as [H|[H|[]]]; auto.
  intros p1 p2 n1 n2 h w1 w2 d1 d2 A1 A2 A3 A4 A5 A6 A7 A8. left. eapply CO; eassumption.
Qed.

Lemma unique_fake m1 m2 k x1 x2 : wf_tags ct -> object ct (g_base G) m1 -> object ct (g_base G) m2 -> all_verified ct P G m1 -> all_verified ct P G m2 ->
  placed G m1 -> placed G m2 -> all_fake P G m1 -> all_fake P G m2 -> (exists h, seal_id ct G m1 h /\ seal_id ct G m2 h) -> contains G m1 k x1 -> contains G m2 k x2 ->
  same ct (g_value G) x1 x2 \/ map_collision ct G m1 m2 \/ seal_collision ct G m1 m2.
Proof.
  intros T O1 O2 V1 V2 P1 P2 F1 F2 HR K1 K2. apply (unique_or _ m1 m2 k x1 x2); auto.
  intros p1 p2 n1 n2 h w1 w2 d1 d2 A1 A2 (s1 & A3 & H1) (s2 & A4 & H2) A5 A6 A7 A8.
  assert (FW : forall m p n w d, all_fake P G m -> node G m p n -> sealed ct G n w d -> exists s, w = FakeWitness P s).
  { intros m p n w d F N S. destruct (F _ _ N) as [(q & s & ->)|[(s & k' & x & ->)|(q & s & l & r & ->)]]; inversion S; subst; eauto. }
  assert (SW : forall n s d s' h', has_seal ct G n s -> sealed ct G n (FakeWitness P s') d -> s' = FakeSeal P h' -> s = s').
  { intros n s d s' h' HS S E. assert (A : attr ct (FakeWitness P s') "seal" s) by (inversion S; subst; inversion HS; subst; assumption).
    unfold attr, FakeWitness in A. rewrite (peek_full _ _ _ _ _ (A_fwit ct P C)) in A. cbn in A. congruence. }
  destruct (FW _ _ _ _ _ F1 A1 A5) as (s1' & ->), (FW _ _ _ _ _ F2 A2 A6) as (s2' & ->). apply fake_vouches in A7, A8.
  pose proof (SW _ _ _ _ _ A3 A5 A7) as ->. pose proof (SW _ _ _ _ _ A4 A6 A8) as ->. subst s1' s2'.
  destruct (fake_binds ct P C _ _ _ W T (sha256_length _) (sha256_length _) H1 H2) as [E|K]; [left; exact E|].
  right. exists p1, p2, n1, n2, (FakeSeal P (sha256 d1)), (FakeSeal P (sha256 d2)). auto 8.
Qed.
End Gumap.
