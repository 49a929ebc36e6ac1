(** Properties C12 and C15-C23: proofs, pruning, hashes.  The theorems hold for every table
    of class declarations; the examples use the table of Proof_Examples.v. *)
From Verif Require Import Base Sha256 Serialize_Model Serialize_Spec Tx_Model Tx_Spec Proof_Model Proof_Spec Proof_Proofs ProofHash_Proofs ProofView_Proofs
  ProofReplay_Proofs ProofReveal_Proofs ProofVariant_Proofs ProofMain_Proofs Cache_Model Construct_Spec Construct_Proofs Proof_Examples Tx_Props.

(** C12 for proofs: a proper initial segment of a serialization raises TruncationError. *)
Theorem C12_truncated_proof : forall ct c v enc p q, wf_table ct -> fits ct bits_survive (SerProof c) v ->
  ser_proof ct v = Ok enc -> enc = p ++ q -> q <> [] -> de_class ct c p = Err TruncationError.
Proof.
  intros ct c v enc p q W F E EQ Hq. destruct (proof_roundtrip ct c v W (fits_weaken ct _ _ (fun _ _ => I) _ _ F)) as (enc' & E' & _ & _ & T).
  rewrite E in E'. inversion E'; subst enc'. exact (T F p q EQ Hq).
Qed.
Print Assumptions C12_truncated_proof.

Example C12_proof_instance : ser_proof shop (inner empty (leaf 15)) = Ok (hex "0002000000010f") /\
  de_class shop VAR (hex "000200000001") = Err TruncationError.
Proof. split; vm_compute; reflexivity. Qed.

(** C15: the full claim is false of the code: some Bits do not survive. *)
Theorem C15_roundtrip_refuted : exists ct c v enc, wf_table ct /\ fits ct any_bits (SerProof c) v /\ complete v /\
  ser_proof ct v = Ok enc /\ de_class ct c enc = Err AssertionError.
Proof.
  exists shop, FLAGS, (flags [true; true; true; true; true; true; true; true]), (hex "0008ff"). split; [exact shop_wf|]. split; [|split; [|split; vm_compute; reflexivity]].
  - apply F_full; [reflexivity|]. repeat constructor.
  - repeat constructor.
Qed.
Print Assumptions C15_roundtrip_refuted.

(** Exactly the proofs all of whose Bits survive (C07) do; [v] may contain sub-proofs pruned
    to their data hash. *)
Theorem C15_roundtrip_partial : forall ct c v, wf_table ct -> fits ct any_bits (SerProof c) v -> exists enc, ser_proof ct v = Ok enc /\
  (fits ct bits_survive (SerProof c) v -> forall rest, de_class ct c (enc ++ rest) = Ok (v, rest)) /\
  (~ fits ct bits_survive (SerProof c) v -> exists e, (e = IndexError \/ e = AssertionError) /\ forall rest, de_class ct c (enc ++ rest) = Err e).
Proof. intros ct c v W F. destruct (proof_roundtrip ct c v W F) as (enc & E & A & B & _). exists enc. auto. Qed.
Print Assumptions C15_roundtrip_partial.

(** Where no class declares a Bits attribute the claim holds in full. *)
Theorem C15_roundtrip_no_bits_partial : forall ct c v, wf_table ct -> (forall k name, ~ In (name, SerBits) (c_attrs (ct k))) ->
  fits ct any_bits (SerProof c) v -> exists enc, ser_proof ct v = Ok enc /\ forall rest, de_class ct c (enc ++ rest) = Ok (v, rest).
Proof.
  intros ct c v W N F. destruct (proof_roundtrip ct c v W F) as (enc & E & A & _). exists enc. split; [exact E|].
  apply A. eapply fits_no_bits; eassumption.
Qed.
Print Assumptions C15_roundtrip_no_bits_partial.

Example C15_instance : fits shop any_bits (SerProof VAR) (inner (inner empty (leaf 7)) (leaf 15)) /\
  ser_proof shop (inner empty (leaf 15)) = Ok (hex "0002000000010f") /\
  de_class shop VAR (hex "0002000000010f99") = Ok (inner empty (leaf 15), [x99]).
Proof. split; [apply inner_fits|]. split; vm_compute; reflexivity. Qed.

(** C16: equal hashes: equal contents (up to what is pruned), or two byte strings hashed
    in the two computations collide. *)
Theorem C16_hash_binds : forall ct c1 c2 k v1 v2 h, wf_table ct -> wf_tags ct ->
  holds ct (SerProof c1) v1 -> holds ct (SerProof c2) v2 -> class_of v1 = Some k -> class_of v2 = Some k ->
  phash ct v1 = Ok h -> phash ct v2 = Ok h ->
  (agree ct v1 v2 /\ (complete v1 -> complete v2 -> v1 = v2)) \/ hash_collision ct v1 v2.
Proof. exact same_class_binding. Qed.
Print Assumptions C16_hash_binds.

Example C16_instance : wf_table shop /\ wf_tags shop /\ holds shop (SerProof BAR) (bar (foo 1) (foo 2) 3) /\
  exists h h', phash shop (bar (foo 1) (foo 2) 3) = Ok h /\ phash shop (bar (foo 2) (foo 1) 3) = Ok h' /\ h <> h'.
Proof.
  split; [exact shop_wf|]. split; [exact shop_tags|]. split; [apply fits_holds, bar_fits; lia|]. eexists _, _. split; [vm_compute; reflexivity|].
  split; [vm_compute; reflexivity|discriminate].
Qed.

(** C17: pruning, reading and serializing never change hash, data hash or equality. *)
Theorem C17_pruning_keeps_hash : forall ct Q c o os, wf_table ct -> fits ct Q (SerProof c) o ->
  let v := steps ct (prune ct o) os in
  data_hash ct v = data_hash ct o /\ phash ct v = phash ct o /\ (forall h, phash ct o = Ok h -> proof_eq ct v o = Ok true).
Proof. exact view_hash. Qed.
Print Assumptions C17_pruning_keeps_hash.

Example C17_instance : exists h, phash shop (inner (inner empty (leaf 7)) (leaf 15)) = Ok h /\
  phash shop (steps shop (prune shop (inner (inner empty (leaf 7)) (leaf 15))) [Read ["left"; "right"; "value"]; Ser]%string) = Ok h.
Proof. eexists. split; [vm_compute; reflexivity|vm_compute; reflexivity]. Qed.

(** C18: reads through a view give what they give on the original, whatever was read or
    serialized before. *)
Theorem C18_views_read_the_same : forall ct Q c o os path, wf_table ct -> fits ct Q (SerProof c) o ->
  let v := steps ct (prune ct o) os in
  observe (fst (read ct v path)) = observe (fst (read ct o path)) /\ hash_of ct (fst (read ct v path)) = hash_of ct (fst (read ct o path)).
Proof. exact view_read. Qed.
Print Assumptions C18_views_read_the_same.

Example C18_instance :
  let v := steps shop (prune shop (bar (foo 1) (foo 2) 3)) [Read ["nonproof_attr"]; Ser; Read ["left"]]%string in
  observe (fst (read shop v ["left"; "n"]%string)) = OVal (VPrim (PyInt 1)) /\ observe (fst (read shop v ["right"]%string)) = OProof FOO.
Proof. vm_compute. auto. Qed.

(** C19: the full claim is false of the code: TxProof has no hash tag, so the hash of a
    hidden one cannot be recomputed. *)
Theorem C19_replay_refuted : exists ct c o h (p : prog nat) enc w, wf_table ct /\ fits ct bits_survive (SerProof c) o /\ phash ct o = Ok h /\
  ser_proof ct (snd (run ct p (prune ct o))) = Ok enc /\ de_class ct c enc = Ok (w, []) /\ phash ct w = Err TypeError.
Proof.
  exists shop, OUTPOINT, (PFull OUTPOINT [PFull TXPROOF [VTx sample_tx]; VPrim (PyInt 1)]).
  eexists _, (Get ["n"]%string (fun _ => Ret 0)), _, _. split; [exact shop_wf|]. split; [|split; [vm_compute; reflexivity|]].
  - apply F_full; [reflexivity|]. apply FA_cons; [|apply FA_cons; [apply F_prim; cbn; lia|apply FA_nil]].
    apply F_full; [reflexivity|]. apply FA_cons; [|apply FA_nil]. apply F_tx. exact sample_tx_wf.
  - split; [vm_compute; reflexivity|]. split; [vm_compute; reflexivity|]. vm_compute. reflexivity.
Qed.
Print Assumptions C19_replay_refuted.

(** It holds for every computation whenever what is hidden at the end ([frozen]: the proofs
    of which nothing was read) is of the declared class and has a tag: the bytes arrive as a
    proof with the same hash, on which the computation gives the same result; in particular no
    read of it is an error that was not one on the original. *)
Theorem C19_replay_partial : forall R ct c o h (p : prog R), wf_table ct -> fits ct bits_survive (SerProof c) o -> phash ct o = Ok h ->
  let v := snd (run ct p (prune ct o)) in
  fits ct bits_survive (SerProof c) (frozen ct v) -> pruned_only (tagged_class ct) (frozen ct v) ->
  exists enc w, ser_proof ct v = Ok enc /\ (forall rest, de_class ct c (enc ++ rest) = Ok (w, rest)) /\
    phash ct w = Ok h /\ fst (run ct p (prune ct o)) = fst (run ct p o) /\ fst (run ct p w) = fst (run ct p o) /\ w = frozen ct v.
Proof. exact @view_transport. Qed.
Print Assumptions C19_replay_partial.

(** In particular for all classes without variants and with tags. *)
Theorem C19_replay_plain_partial : forall R ct c o h (p : prog R), wf_table ct -> plain_table ct -> plain_tagged ct c ->
  fits ct bits_survive (SerProof c) o -> phash ct o = Ok h ->
  exists enc w, ser_proof ct (snd (run ct p (prune ct o))) = Ok enc /\ (forall rest, de_class ct c (enc ++ rest) = Ok (w, rest)) /\
    phash ct w = Ok h /\ fst (run ct p (prune ct o)) = fst (run ct p o) /\ fst (run ct p w) = fst (run ct p o).
Proof. exact @replay_plain. Qed.
Print Assumptions C19_replay_plain_partial.

(** A computation that decides what to read from what it has read: left.n is 1, so it
    reads right.n; the third attribute is in the bytes because its proof was visited. *)
Definition sample_prog : prog obs :=
  Get ["left"; "n"]%string (fun o => match o with OVal (VPrim (PyInt 1)) => Get ["right"; "n"]%string Ret | _ => Ret o end).
Example C19_instance : let o := bar (foo 1) (foo 2) 3 in
  fst (run shop sample_prog o) = OVal (VPrim (PyInt 2)) /\ ser_proof shop (snd (run shop sample_prog (prune shop o))) = Ok (hex "000001000203") /\
  (exists w, de_class shop BAR (hex "000001000203") = Ok (w, []) /\ fst (run shop sample_prog w) = OVal (VPrim (PyInt 2))).
Proof. split; [vm_compute; reflexivity|]. split; [vm_compute; reflexivity|]. eexists. split; [vm_compute; reflexivity|]. vm_compute. reflexivity. Qed.

(** C20: the bytes of a view depend only on what was read and the data hashes of the rest. *)
Theorem C20_reveals_only_what_was_read : forall ct os o1 o2, wf_table ct -> looks_same ct (paths os) o1 o2 ->
  ser_proof ct (steps ct (prune ct o1) os) = ser_proof ct (steps ct (prune ct o2) os).
Proof. exact reveal. Qed.
Print Assumptions C20_reveals_only_what_was_read.

(** Serializing does not count as reading: serializing again gives the same bytes. *)
Theorem C20_serializing_reveals_nothing : forall ct Q c o os, wf_table ct -> fits ct Q (SerProof c) o ->
  ser_proof ct (steps ct (prune ct o) (os ++ [Ser])) = ser_proof ct (steps ct (prune ct o) os).
Proof. exact serialize_again. Qed.
Print Assumptions C20_serializing_reveals_nothing.

(** test_proof.py test_pruned_serialization: only n of the left sub-proof is revealed; a right
    sub-proof with that data hash but unknown contents gives the same bytes. *)
Example C20_instance : exists dh, data_hash shop (foo 2) = Ok dh /\
  looks_same shop (paths [Read ["left"; "n"]; Ser; Read ["right"]]%string) (bar (foo 1) (foo 2) 3) (bar (foo 1) (PHash FOO dh) 3) /\
  ser_proof shop (steps shop (prune shop (bar (foo 1) (foo 2) 3)) [Read ["left"; "n"]; Ser; Read ["right"]]%string) =
  Ok (hex "000001ff" ++ dh ++ [x03]).
Proof.
  eexists. split; [vm_compute; reflexivity|]. split; [|vm_compute; reflexivity].
  apply L_visited; [exists "left"%string, (SerProof FOO); split; [cbn; auto|reflexivity]|].
  apply LA_cons; [|apply LA_cons; [|apply LA_cons; [|apply LA_nil]]].
  - apply L_visited; [exists "n"%string, (SerPrim UInt8); split; [cbn; auto|reflexivity]|]. repeat constructor.
  - apply L_unvisited with (c := FOO); [reflexivity|reflexivity|vm_compute; reflexivity|]. intros (name & sr & [E|[]] & V). inversion E; subst. discriminate V.
  - apply L_leaf. reflexivity.
Qed.

(** C21: the full claim is false of the code: a hidden sub-proof with variants arrives as
    an instance of the base class, which its parent refuses. *)
Theorem C21_variant_transport_refuted : exists ct c o h os enc, wf_table ct /\ variant_table ct /\ fits ct bits_survive (SerProof c) o /\
  complete o /\ phash ct o = Ok h /\ ser_proof ct (steps ct (prune ct o) os) = Ok enc /\ de_class ct c enc = Err SerializerTypeError.
Proof.
  exists shop, VAR, (inner empty (leaf 15)). eexists _, [Read ["right"; "value"]]%string, _. split; [exact shop_wf|]. split; [exact shop_variants|].
  split; [unfold inner, empty, leaf; fit|]. split; [repeat constructor|]. split; [vm_compute; reflexivity|]. split; [vm_compute; reflexivity|]. vm_compute. reflexivity.
Qed.
Print Assumptions C21_variant_transport_refuted.

(** What happens in general: the view is always serialized.  It arrives unchanged exactly if
    every hidden proof is of the declared class; a wholly hidden variant arrives as the base
    class; in all other cases deserialization raises SerializerTypeError. *)
Theorem C21_variant_transport_partial : forall ct c o h os, wf_table ct -> variant_table ct -> fits ct bits_survive (SerProof c) o -> phash ct o = Ok h ->
  let v := steps ct (prune ct o) os in
  let w := frozen ct v in
  exists enc, ser_proof ct v = Ok enc /\
  ((fits ct bits_survive (SerProof c) w /\ forall rest, de_class ct c (enc ++ rest) = Ok (w, rest)) \/
   (~ fits ct bits_survive (SerProof c) w /\ (exists k dh, w = PHash k dh /\ k <> c /\ forall rest, de_class ct c (enc ++ rest) = Ok (PHash c dh, rest))) \/
   (~ fits ct bits_survive (SerProof c) w /\ (forall k dh, w <> PHash k dh) /\ forall rest, de_class ct c (enc ++ rest) = Err SerializerTypeError)).
Proof. exact view_arrival. Qed.
Print Assumptions C21_variant_transport_partial.

(** The wholly hidden variant that arrives as the base class has another hash, or SHA-256
    collides. *)
Theorem C21_hidden_root_changes_hash_partial : forall ct c k dh t t', c_hash (ct c) = HTag (Some t) -> c_hash (ct k) = HTag (Some t') ->
  List.length t = List.length t' -> t <> t' -> phash ct (PHash c dh) = phash ct (PHash k dh) -> collision sha256 (t ++ dh) (t' ++ dh).
Proof. exact hidden_root_hash. Qed.
Print Assumptions C21_hidden_root_changes_hash_partial.

Example C21_instance : (* every sub-proof visited: arrives *)
  let v := steps shop (prune shop (inner (leaf 7) (leaf 15))) [Read ["right"; "value"]; Read ["left"; "value"]]%string in
  frozen shop v = inner (leaf 7) (leaf 15) /\ ser_proof shop v = Ok (hex "0002000107" ++ hex "00010f") /\
  de_class shop VAR (hex "0002000107" ++ hex "00010f") = Ok (inner (leaf 7) (leaf 15), []).
Proof. vm_compute. auto. Qed.

(** C22: the full claim is false of the code for union-typed attributes. *)
Theorem C22_is_pruned_refuted : exists ct c v, wf_table ct /\ fits ct bits_survive (SerProof c) v /\ is_pruned ct v = false /\ ~ complete v.
Proof.
  exists shop, EITHER, (either (PHash FOO (repeat x00 32))). split; [exact shop_wf|]. split; [|split; [reflexivity|]].
  - apply F_full; [reflexivity|]. apply FA_cons; [|apply FA_nil]. apply F_union with (c := FOO); [cbn; auto|]. apply F_hash; reflexivity.
  - intros H. inversion H as [| | | |? ? F]; subst. inversion F as [|? ? C _]; subst. inversion C.
Qed.
Print Assumptions C22_is_pruned_refuted.

(** Without union-typed attributes is_pruned is exact, also for proofs that contain live views. *)
Theorem C22_is_pruned_partial : forall ct v, no_unions ct -> shaped ct v -> (is_pruned ct v = false <-> complete v).
Proof. exact is_pruned_exact. Qed.
Print Assumptions C22_is_pruned_partial.

(** In any table, True is never a false alarm. *)
Theorem C22_pruned_is_never_wrong_partial : forall ct v, complete v -> is_pruned ct v = false.
Proof. exact complete_not_pruned. Qed.
Print Assumptions C22_pruned_is_never_wrong_partial.

Example C22_instance : is_pruned shop (inner (inner empty (PHash LEAF (repeat x01 32))) (leaf 15)) = true /\
  is_pruned shop (inner (inner empty (leaf 7)) (leaf 15)) = false /\ is_pruned shop (bar (prune shop (foo 1)) (foo 2) 3) = true.
Proof. auto. Qed.

(** C23: the full claim is false of the code in three ways.  A proof-typed attribute takes an
    instance of any other proof class, and something that is no proof raises AttributeError; *)
Theorem C23_wrong_class_refuted : exists ct c kw v, wf_table ct /\ construct ct c kw = Ok v /\ ~ exists vs, supplied ct kw (c_attrs (ct c)) vs.
Proof.
  exists shop, BAR, [("left", leaf 7); ("right", foo 2); ("nonproof_attr", VPrim (PyInt 3))]%string, (bar (leaf 7) (foo 2) 3).
  split; [exact shop_wf|]. split; [reflexivity|]. intros (vs & S). inversion S as [|? ? ? ? ? A B C]; subst. cbn in A. inversion A; subst.
  destruct B as (k & Hk & Hs). cbn in Hk. inversion Hk; subst. cbn in Hs. unfold subclass in Hs. cbn in Hs. intuition discriminate.
Qed.
Print Assumptions C23_wrong_class_refuted.

(** a transaction attribute with something else raises NameError; *)
Theorem C23_other_exceptions_refuted : exists ct c kw c' kw', wf_table ct /\ construct ct c kw = Err NameError /\ construct ct c' kw' = Err AttributeError.
Proof.
  exists shop, TXPROOF, [("tx", VPrim (PyInt 3))]%string, BAR, [("left", VPrim (PyInt 1)); ("right", foo 2); ("nonproof_attr", VPrim (PyInt 3))]%string.
  split; [exact shop_wf|]. split; reflexivity.
Qed.
Print Assumptions C23_other_exceptions_refuted.

(** and the outcome depends on earlier instantiations: after SingleUseSeal() a
    FakeSingleUseSeal() without its attribute is created. *)
Theorem C23_history_refuted : exists ct h c kw, wf_table ct /\ fst (new ct empty_cache c kw) = Err KeyError /\ fst (new ct (after ct h) c kw) = Ok [].
Proof. exists shop, [(SEAL, [])], FAKE, []. split; [exact shop_wf|]. split; reflexivity. Qed.
Print Assumptions C23_history_refuted.

(** What holds: for classes whose attributes are primitives, variant classes and unions the
    claim holds exactly; *)
Theorem C23_constructor_partial : forall ct c kw, (forall name sr, In (name, sr) (c_attrs (ct c)) -> checked ct sr) ->
  (forall p, construct ct c kw = Ok p <-> exists vs, p = PFull c vs /\ supplied ct kw (c_attrs (ct c)) vs) /\
  (forall e, construct ct c kw = Err e -> complains ct kw (c_attrs (ct c)) e).
Proof. exact construct_exact. Qed.
Print Assumptions C23_constructor_partial.

(** for any class, supplying accepted values succeeds; *)
Theorem C23_accepted_succeeds_partial : forall ct c kw vs, supplied ct kw (c_attrs (ct c)) vs -> construct ct c kw = Ok (PFull c vs).
Proof. exact construct_ok_supplied. Qed.
Print Assumptions C23_accepted_succeeds_partial.

(** and the history does not matter unless a superclass with other attributes was
    instantiated. *)
Theorem C23_history_partial : forall ct h c kw, harmless ct c h -> fst (new ct (after ct h) c kw) = named ct (construct ct c kw).
Proof. intros ct h c kw H. rewrite (new_independent ct h c kw H). apply new_fresh. Qed.
Print Assumptions C23_history_partial.

Example C23_instance :
  construct shop INNER [("left", empty); ("right", leaf 3)]%string = Ok (inner empty (leaf 3)) /\
  construct shop INNER [("left", empty)]%string = Err KeyError /\ construct shop INNER [("left", foo 1); ("right", leaf 3)]%string = Err SerializerTypeError /\
  construct shop LEAF [("value", VPrim (PyInt 256))]%string = Err SerializerValueError /\
  harmless shop FAKE [(FOO, []); (FAKE, []); (INNER, [])] /\
  fst (new shop (after shop [(FOO, []); (FAKE, []); (INNER, [])]) FAKE []) = Err KeyError.
Proof.
  split; [reflexivity|]. split; [reflexivity|]. split; [reflexivity|]. split; [reflexivity|]. split; [|reflexivity].
  intros d Hd Hs. cbn in Hd, Hs. intuition subst; try discriminate; reflexivity.
Qed.
