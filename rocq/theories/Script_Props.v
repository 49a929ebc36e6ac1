(** Property C50: scripts parse back into what they were built from. *)
From Verif Require Import Base Tx_Model Script_Model Script_Spec Script_Proofs.

(** The full claim is false of the code: 0 comes back as empty data. *)
Theorem C50_script_parse_refuted : exists l, Forall wf_item l /\ exists s cs, cscript l = Ok s /\
  script_iter s = (cs, None) /\ ~ Forall2 same_item l cs.
Proof.
  exists [IInt 0]. split; [repeat constructor|]. exists [x00], [CData []]. repeat split.
  intros H. inversion H as [|x y l l' H1 H2]. exact H1.
Qed.
Print Assumptions C50_script_parse_refuted.

(** Missing from the full claim: the items outside [stable_item]. *)
Theorem C50_script_parse_partial : forall l, Forall stable_item l -> exists s cs, cscript l = Ok s /\
  script_iter s = (cs, None) /\ Forall2 same_item l cs.
Proof. exact script_parses_stable. Qed.
Print Assumptions C50_script_parse_partial.

(** What every item comes back as. *)
Theorem C50_script_parse_exact : forall l, Forall wf_item l -> exists s cs, cscript l = Ok s /\
  script_iter s = (cs, None) /\ Forall2 parses_as l cs.
Proof. exact script_parses_observed. Qed.
Print Assumptions C50_script_parse_exact.

Example C50_instance : Forall stable_item [IOp 0x6a; IData (repeat xaa 32); IInt 16] /\
  Forall wf_item [IOp 0x6a; IInt 1000; IInt (-1); IInt 0; IOp 0x52; IData (repeat xbb 300)].
Proof. split; repeat constructor; cbn; lia. Qed.

(** Script numbers: encoding decodes to the value, and is the shortest that does. *)
Theorem C50_script_number_roundtrip : forall v, (Z.log2 (Z.abs v) < 2 ^ 32)%Z -> exists s, bn2vch v = Ok s /\
  vch2bn s = Ok v /\ scriptnum s = v /\ forall t, scriptnum t = v -> List.length s <= List.length t.
Proof. exact script_number_roundtrip. Qed.
Print Assumptions C50_script_number_roundtrip.

Theorem C50_script_number_meaning : forall s, (blen s < 2 ^ 32)%N -> vch2bn s = Ok (scriptnum s).
Proof. exact vch2bn_meaning. Qed.
Print Assumptions C50_script_number_meaning.

Example C50_number_instance : bn2vch (-255) = Ok [xff; x80] /\ vch2bn [xff; x80; x00] = Ok 33023%Z /\ scriptnum [xff; x80] = (-255)%Z.
Proof. repeat split. Qed.

(** A script that does not parse fails with one of the two script errors. *)
Theorem C50_script_parse_errors : forall s e, snd (raw_iter s) = Some e ->
  e = CScriptInvalidError \/ e = CScriptTruncatedPushDataError.
Proof. exact raw_iter_err. Qed.
Print Assumptions C50_script_parse_errors.

Example C50_error_instance : snd (raw_iter [x4c]) = Some CScriptInvalidError /\ snd (raw_iter [x51; x05; xaa]) = Some CScriptTruncatedPushDataError.
Proof. split; reflexivity. Qed.
