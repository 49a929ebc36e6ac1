(** Properties C160, C161: printed forms of merkle mountain ranges and of proofs. *)
From Verif Require Import Base Hex_Model Base58_Model Repr_Model PyText_Spec Serialize_Model Proof_Model Proof_Spec Proof_Proofs ProofHash_Proofs Mmr_Model Mmr_Spec Mmr_Proofs
  ProofView_Proofs ProofMain_Proofs Proof_Examples Tree_Examples MmrRepr_Model MmrRepr_Spec MmrRepr_Proofs Mmr_Props.
#[local] Open Scope list_scope.
#[local] Open Scope Z_scope.

(** C160: the text of an MMR of numbers, byte strings or truth values is read by Python as a call of its class with the list
    of the items; that call makes the same MMR. *)
Theorem C160_pasted_back : forall nm ct M sr vs r, wf_table ct -> is_mmr ct M sr -> built ct M vs r -> Forall (item ct M) vs -> fine (List.length vs) ->
  Forall simple vs -> identifier (n_qualname nm (m_base M)) ->
  exists t s, r = Ok t /\ mmr_repr nm ct M t = Ok s /\ reads_as (n_qualname nm (m_base M)) vs s /\ mmr_new ct M vs = Ok t.
Proof.
  intros nm ct M sr vs r W I B IV F S N. destruct (built_ok ct M sr vs r W I B IV F) as (t & -> & D).
  destruct (list_text nm ct _ vs N S) as (l & E & R). eexists t, _. split; [reflexivity|]. split.
  - rewrite repr_unfold by (destruct D; discriminate). rewrite (doc_len _ _ D F), (doc_items _ _ D). cbn [bind]. rewrite E. cbn [bind]. reflexivity.
  - split; [exact R|]. destruct (built_ok ct M sr vs _ W I (B_new ct M vs) IV F) as (t2 & E2 & D2). rewrite E2. f_equal. exact (doc_unique _ _ D2 _ D).
Qed.

(** Whatever object prints, the text tells its items, all of them and in order. *)
Theorem C160_text_tells_the_items : forall nm ct M t s, mmr_repr nm ct M t = Ok s -> identifier (n_qualname nm (m_base M)) ->
  exists vs, items t = Ok vs /\ (Forall simple vs -> reads_as (n_qualname nm (m_base M)) vs s).
Proof.
  intros nm ct M t s H N. destruct (mmr_text nm ct M t s H) as (n & vs & l & _ & I & E & ->). exists vs. split; [exact I|]. intros S.
  destruct (list_text nm ct _ vs N S) as (l' & E' & R). rewrite E in E'. injection E' as <-. exact R.
Qed.

(** An MMR with hidden parts prints as the whole one does, or raises PrunedError; it never prints a part of the list. *)
Theorem C160_pruned : forall nm ct M t t', hides ct M t t' -> mmr_repr nm ct M t' = mmr_repr nm ct M t \/ mmr_repr nm ct M t' = Err PrunedError.
Proof. exact hides_repr. Qed.

Definition wood_names : names := Names (fun _ => T "trees") (fun c => if Nat.eqb c 0 then T "IntMMR" else T "make_mmr_subclass.<locals>.MerkleMountainRangeNode").
Example C160_instance : exists t, mmr_new woods IntMMR (nums 5) = Ok t /\ mmr_repr wood_names woods IntMMR t = Ok (T "IntMMR([0, 1, 2, 3, 4])") /\
  Forall simple (nums 5) /\ identifier (T "IntMMR") /\ mmr_repr wood_names woods IntMMR Empty = Ok (T "IntMMR([])") /\
  exists t', hidden_half = Ok t' /\ mmr_repr wood_names woods IntMMR t' = Err PrunedError.
Proof.
  eexists. split; [vm_compute; reflexivity|]. split; [vm_compute; reflexivity|]. split.
  { apply nums_all; [|reflexivity]. intros z _. exists (PyInt z). split; [reflexivity|discriminate]. }
  split; [split; [do 2 eexists; split; reflexivity|reflexivity]|]. split; [vm_compute; reflexivity|]. eexists. split; [vm_compute; reflexivity|]. vm_compute. reflexivity.
Qed.
Print Assumptions C160_pasted_back.
Print Assumptions C160_text_tells_the_items.
Print Assumptions C160_pruned.

(** C161: two proofs with the same text are of classes with the same name and have the same hash, and so are equal for
    Python; if they are of one class they have the same contents (up to what is pruned), or there is a collision. *)
Theorem C161_same_text : forall nm ct v1 v2 s, proof_repr nm ct v1 = Ok s -> proof_repr nm ct v2 = Ok s ->
  proof_eq ct v1 v2 = Ok true /\ exists c1 c2, class_of v1 = Some c1 /\ class_of v2 = Some c2 /\ full_name nm c1 = full_name nm c2.
Proof.
  intros nm ct v1 v2 s H1 H2. destruct (same_text nm ct v1 v2 s H1 H2) as (c1 & c2 & h & C1 & C2 & N & P1 & P2).
  split; [|eauto 6]. unfold proof_eq. rewrite P1, P2. cbn [bind]. f_equal. apply bytes_eqb_eq. reflexivity.
Qed.
Theorem C161_text_binds : forall nm ct k1 k2 v1 v2 s, wf_table ct -> wf_tags ct -> (forall c c', full_name nm c = full_name nm c' -> c = c') ->
  holds ct (SerProof k1) v1 -> holds ct (SerProof k2) v2 -> proof_repr nm ct v1 = Ok s -> proof_repr nm ct v2 = Ok s ->
  (agree ct v1 v2 /\ (complete v1 -> complete v2 -> v1 = v2)) \/ hash_collision ct v1 v2.
Proof.
  intros nm ct k1 k2 v1 v2 s W T J H1 H2 R1 R2. destruct (same_text nm ct v1 v2 s R1 R2) as (c1 & c2 & h & C1 & C2 & N & P1 & P2).
  apply J in N. subst c2. exact (same_class_binding ct k1 k2 c1 v1 v2 h W T H1 H2 C1 C2 P1 P2).
Qed.
(** Pruning, reading and serializing never change the text. *)
Theorem C161_pruned : forall nm ct Q c o os, wf_table ct -> fits ct Q (SerProof c) o ->
  proof_repr nm ct (steps ct (prune ct o) os) = proof_repr nm ct o.
Proof.
  intros nm ct Q c o os W F. pose proof (view_hash ct Q c o os W F) as (_ & E & _). cbv zeta in E. unfold proof_repr. rewrite E.
  rewrite (shows_class _ _ _ (steps_shows ct Q W os _ o _ F (prune_shows _ _ _ _ F))). reflexivity.
Qed.

Definition shop_names : names := Names (fun _ => T "shop") (fun c => T "Class" ++ repeat "I"%char c).
Example C161_instance : (forall c c', full_name shop_names c = full_name shop_names c' -> c = c') /\ wf_table shop /\ wf_tags shop /\
  holds shop (SerProof BAR) (bar (foo 1) (foo 2) 3) /\ exists h, phash shop (bar (foo 1) (foo 2) 3) = Ok h /\
  proof_repr shop_names shop (bar (foo 1) (foo 2) 3) = Ok (T "shop.ClassI(<" ++ T (b2x h) ++ T ">)") /\
  proof_repr shop_names shop (bar (foo 2) (foo 1) 3) <> proof_repr shop_names shop (bar (foo 1) (foo 2) 3).
Proof.
  split. { intros c c' E. unfold full_name in E. cbn [shop_names n_module n_qualname] in E. apply app_inv_head, app_inv_head, app_inv_head in E.
    apply (f_equal (@List.length ascii)) in E. rewrite !repeat_length in E. exact E. }
  split; [exact shop_wf|]. split; [exact shop_tags|]. split; [apply fits_holds, bar_fits; lia|]. eexists. split; [vm_compute; reflexivity|].
  split; [vm_compute; reflexivity|]. intros E. vm_compute in E. congruence.
Qed.
Print Assumptions C161_same_text.
Print Assumptions C161_text_binds.
Print Assumptions C161_pruned.
