(** The statements of Proof_Props.v, assembled. *)
From Verif Require Import Base Sha256 Serialize_Model Serialize_Spec Serialize_Proofs Proof_Model Proof_Spec Proof_Proofs ProofHash_Proofs ProofView_Proofs
  ProofReplay_Proofs ProofReveal_Proofs ProofVariant_Proofs.

Lemma fits_weaken ct (Q Q' : list bool -> Prop) : (forall l, Q l -> Q' l) -> forall sr v, fits ct Q sr v -> fits ct Q' sr v.
Proof.
  intros H sr v F. apply (fits_mind ct Q (fun sr w _ => fits ct Q' sr w) (fun a fs _ => fits_all ct Q' a fs)) with (v := v); try (intros; econstructor; eauto; fail).
  exact F.
Qed.

Lemma fits_no_bits ct Q Q' : (forall c name, ~ In (name, SerBits) (c_attrs (ct c))) -> forall c v, fits ct Q (SerProof c) v -> fits ct Q' (SerProof c) v.
Proof.
  intros N c v F. assert (G : SerProof c <> SerBits -> fits ct Q' (SerProof c) v); [|apply G; discriminate].
  apply (fits_mind ct Q (fun sr w _ => sr <> SerBits -> fits ct Q' sr w)
    (fun a fs _ => (forall name, ~ In (name, SerBits) a) -> fits_all ct Q' a fs)) with (v := v); try (intros; econstructor; eauto; fail).
  - intros l _ H. congruence.
  - intros cs c0 v0 I0 H IH _. econstructor; [exact I0|]. apply IH. discriminate.
  - intros name sr attrs f fs Hf IHf Hfs IHfs NB. constructor.
    + apply IHf. intros ->. apply (NB name). left. reflexivity.
    + apply IHfs. intros n Hi. apply (NB n). right. exact Hi.
  - exact F.
Qed.

Lemma bytes_eqb_refl b : bytes_eqb b b = true.
Proof. apply bytes_eqb_eq. reflexivity. Qed.

Lemma view_hash ct Q c o os : wf_table ct -> fits ct Q (SerProof c) o -> let v := steps ct (prune ct o) os in
  data_hash ct v = data_hash ct o /\ phash ct v = phash ct o /\ (forall h, phash ct o = Ok h -> proof_eq ct v o = Ok true).
Proof.
  intros W H v. pose proof (steps_shows ct Q W os _ o _ H (prune_shows _ _ _ _ H)) as S. fold v in S.
  pose proof (shows_hashes _ _ _ S) as E. assert (P : phash ct v = phash ct o) by (unfold phash; congruence).
  split; [unfold data_hash; congruence|]. split; [exact P|]. intros h Hh. unfold proof_eq. rewrite P, Hh. cbn [bind]. rewrite bytes_eqb_refl. reflexivity.
Qed.

Lemma view_read ct Q c o os path : wf_table ct -> fits ct Q (SerProof c) o -> let v := steps ct (prune ct o) os in
  observe (fst (read ct v path)) = observe (fst (read ct o path)) /\ hash_of ct (fst (read ct v path)) = hash_of ct (fst (read ct o path)).
Proof.
  intros W H v. pose proof (steps_shows ct Q W os _ o _ H (prune_shows _ _ _ _ H)) as S. fold v in S.
  destruct (read_shows ct Q path W _ o v H S) as (_ & R). split; [eapply same_observe, R|eapply same_hash_of, R].
Qed.

Lemma same_class_binding ct c1 c2 k v1 v2 h : wf_table ct -> wf_tags ct -> holds ct (SerProof c1) v1 -> holds ct (SerProof c2) v2 ->
  class_of v1 = Some k -> class_of v2 = Some k -> phash ct v1 = Ok h -> phash ct v2 = Ok h ->
  (agree ct v1 v2 /\ (complete v1 -> complete v2 -> v1 = v2)) \/ hash_collision ct v1 v2.
Proof.
  intros W T F1 F2 K1 K2 H1 H2. destruct (hash_binding ct W T v1 v2 c1 c2 k k h F1 F2 K1 K2 (or_introl eq_refl) H1 H2) as [A|C]; [left|right; exact C].
  split; [exact A|]. exact (agree_complete ct v1 v2 A).
Qed.

Lemma serialize_again ct Q c o os : wf_table ct -> fits ct Q (SerProof c) o ->
  ser_proof ct (steps ct (prune ct o) (os ++ [Ser])) = ser_proof ct (steps ct (prune ct o) os).
Proof.
  intros W H. unfold steps at 1. rewrite fold_left_app. cbn [fold_left step]. eapply after_ser_same; [exact W|exact H|].
  eapply steps_shows; [exact W|exact H|]. eapply prune_shows, H.
Qed.

(** A hidden proof arrives with the class of the declaration; the variants' tags differ from it. *)
Lemma hidden_root_hash ct c k dh t t' : c_hash (ct c) = HTag (Some t) -> c_hash (ct k) = HTag (Some t') -> List.length t = List.length t' -> t <> t' ->
  phash ct (PHash c dh) = phash ct (PHash k dh) -> collision sha256 (t ++ dh) (t' ++ dh).
Proof.
  intros C K L N H. unfold phash in H. cbn [hashes snd] in H. unfold tagged in H. rewrite C, K in H. cbn [bind] in H. unfold tag_hash in H.
  assert (E : sha256 (t ++ dh) = sha256 (t' ++ dh)) by congruence. split; [|exact E]. intros A. apply N. exact (proj1 (app_inj_len _ _ _ _ L A)).
Qed.
