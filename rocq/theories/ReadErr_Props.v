(** Properties C174 and C175: bytes that are no proof are refused as such, and reading takes time linear in their number. *)
From Verif Require Import Base Serialize_Model Serialize_Spec Tx_Model Tx_Spec Proof_Model Proof_Spec Proof_Proofs Proof_Examples
  Chain_Model Chain_Spec Chain_Proofs Chain_Examples Chain_Props Tree_Examples ReadErr_Spec ReadErr_Model ReadErr_Proofs.
Local Open Scope string_scope.
Local Open Scope list_scope.

(** ** C174: bytes that are no proof are refused with a deserialization error *)

(** The claim is false: a seal that is cut short in its outpoint is refused with an exception of another library. *)
Theorem C174_refused_as_malformed_refuted : ~ refused_as_malformed.
Proof.
  intros H. assert (E : deserialize ledger BSEAL [x00; x01; x00] = Err SerializationTruncationError) by (vm_compute; reflexivity).
  destruct (H _ _ _ _ ledger_wf E) as [K|K]; discriminate K.
Qed.
Print Assumptions C174_refused_as_malformed_refuted.

(** What is true: the exceptions are those that the declarations of the classes allow ([refusal]). *)
Theorem C174_refusals_partial : forall ct c s e, wf_table ct -> deserialize ct c s = Err e -> refusal ct c e.
Proof. exact deserialize_refusal. Qed.
Print Assumptions C174_refusals_partial.

(** So the claim holds for classes of numbers, byte strings, truth values and such classes. *)
Theorem C174_simple_classes_partial : forall ct S c s e, wf_table ct -> simple_classes ct S -> S c -> deserialize ct c s = Err e ->
  e = DeserializationError \/ e = TruncationError.
Proof. intros ct S c s e W SC Sc H. exact (simple_refusal ct S SC c e (deserialize_refusal ct c s e W H) Sc). Qed.
Print Assumptions C174_simple_classes_partial.

(** And for seals, witnesses and proofs about transactions there are five exceptions. *)
Theorem C174_seals_partial : forall ct P c s e, wf_table ct -> is_chain ct P ->
  In c [p_tx P; p_outpoint P; p_txin P; p_txout P; p_fseal P; p_fwit P; p_bseal P; p_bwit P] -> deserialize ct c s = Err e ->
  In e [DeserializationError; TruncationError; SerializationError; SerializationTruncationError; DeserializationExtraDataError].
Proof. intros ct P c s e W C Hc H. exact (chain_refusal ct P C c e (deserialize_refusal ct c s e W H) Hc). Qed.
Print Assumptions C174_seals_partial.

(** Seal files as they were before seals had a nonce, like those in /repo/examples, are refused. *)
Theorem C174_old_seals : forall ct P o b, wf_table ct -> is_chain ct P -> wf_outpoint o -> outpoint_ser o = Ok b ->
  deserialize ct (p_bseal P) ([x00; x24] ++ b) = Err TruncationError.
Proof. exact old_seal_refused. Qed.
Print Assumptions C174_old_seals.

(** All five occur for witnesses; and what bits, variants and hidden variants add. *)
Example C174_instance : simple_classes shop (fun c => c = FOO \/ c = BAR) /\ deserialize shop BAR [x00; x01] = Err DeserializationError /\
  deserialize ledger BWIT [x01] = Err DeserializationError /\ deserialize ledger BWIT [x00] = Err TruncationError /\
  deserialize ledger BSEAL [x00; x01; x00] = Err SerializationTruncationError /\ deserialize ledger BSEAL ([x00; x25] ++ repeat x00 37) = Err DeserializationExtraDataError /\
  deserialize ledger (p_tx chain1) ([x00; x2e] ++ [x01; x00; x00; x00; x01] ++ repeat x00 36 ++ [xfe; xff; xff; xff; xff]) = Err SerializationError /\
  deserialize shop FLAGS [x00; x00] = Err IndexError /\ deserialize shop FLAGS [x00; x01; xff] = Err AssertionError /\
  deserialize shop VAR [x00; x03] = Err NameError /\
  deserialize shop VAR ([x00; x02; xff] ++ repeat x00 32 ++ [x00; x00]) = Err SerializerTypeError.
Proof.
  split. { intros c [->| ->]; (split; [reflexivity|]); cbn; intros name sr H; intuition; match goal with K : (_, _) = (_, _) |- _ => injection K as <- <- end; eauto. }
  repeat split; vm_compute; reflexivity.
Qed.

(** ** C175: reading takes no more calls than there are bytes *)

Theorem C175_reading_is_linear : forall ct c s, fst (cdeserialize ct c s) = deserialize ct c s /\ (snd (cdeserialize ct c s) <= 1 + List.length s)%nat.
Proof. exact reading_is_cheap. Qed.
Print Assumptions C175_reading_is_linear.

(** The bound is met: a chain of inner nodes that ends too soon. *)
Example C175_instance : snd (cdeserialize shop BAR [x00; x00; x05; x00; x06; x07]) = 3%nat /\
  cdeserialize shop FOO [] = (Err TruncationError, 1%nat) /\
  cdeserialize shop VAR [x00; x02; x00; x02; x00; x02] = (Err TruncationError, 4%nat) /\
  cdeserialize shop EITHER [x00; x00] = (Err TruncationError, 2%nat).
Proof. repeat split; vm_compute; reflexivity. Qed.
