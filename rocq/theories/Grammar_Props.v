(** C78-C79: exactly which byte strings are read back. *)
From Verif Require Import Base Serialize_Model Tx_Model Tx_Spec Proof_Model Proof_Spec Proof_Examples Tx_Props Base58_Props
  Grammar_Spec Grammar_Proofs.

(** C78: CTransaction.stream_deserialize reads [t] and leaves [rest] exactly when the stream is a
    text of [t] followed by [rest]: so deserialize accepts exactly the texts, and the only
    freedom in a text of [t] is the width of its counts. *)
Theorem C78_transactions : forall s t rest, tx_de s = Ok (t, rest) <-> exists b, s = b ++ rest /\ tx_text t b.
Proof. exact tx_reads. Qed.
Theorem C78_deserialize : forall buf t, bdeserialize tx_de false buf = Ok t <-> tx_text t buf.
Proof.
  intros buf t. rewrite <- (reads_all tx_de tx_text buf t tx_reads). unfold bdeserialize. destruct (tx_de buf) as [[t' [|x pad]]|]; cbn [bind]; split; intros H; inversion H; reflexivity.
Qed.
Theorem C78_outpoints : forall s o rest, outpoint_de s = Ok (o, rest) <-> exists b, s = b ++ rest /\ outpoint_text o b.
Proof. exact outpoint_reads. Qed.
(** A text of its own serialization, and another one with a wider count. *)
Example C78_instance : exists b, tx_ser (mkTx [] [mkTxOut (-1) (hex "51")] 5 1) = Ok b /\ tx_text (mkTx [] [mkTxOut (-1) (hex "51")] 5 1) b /\
  b = hex "01000000" ++ hex "00" ++ hex "01ffffffffffffffff0151" ++ hex "05000000" /\
  tx_text (mkTx [] [mkTxOut (-1) (hex "51")] 5 1) (hex "01000000" ++ hex "fd0000" ++ hex "01ffffffffffffffff0151" ++ hex "05000000") /\
  bdeserialize tx_de false (hex "01000000" ++ hex "fd0000" ++ hex "01ffffffffffffffff0151" ++ hex "0500000000") = Err DeserializationExtraDataError.
Proof.
  eexists. split; [vm_compute; reflexivity|]. split; [apply C78_deserialize; vm_compute; reflexivity|]. split; [reflexivity|].
  split; [apply C78_deserialize; vm_compute; reflexivity|vm_compute; reflexivity].
Qed.
Print Assumptions C78_transactions.
Print Assumptions C78_deserialize.
Print Assumptions C78_outpoints.

Example C78_outpoint_instance : outpoint_text (mkOutPoint (repeat xab 32) 7) (repeat xab 32 ++ hex "07000000").
Proof.
  assert (E : outpoint_de (repeat xab 32 ++ hex "07000000") = Ok (mkOutPoint (repeat xab 32) 7, [])) by (vm_compute; reflexivity).
  apply C78_outpoints in E as (b & E & T). rewrite app_nil_r in E. rewrite E. exact T.
Qed.

(** C79: the same for every class of proof. *)
Theorem C79_streams : forall ct c s v rest, wf_table ct ->
  (de_class ct c s = Ok (v, rest) <-> exists b, s = b ++ rest /\ spells ct (SerProof c) v b).
Proof. exact de_class_grammar. Qed.
Theorem C79_deserialize : forall ct c buf v, wf_table ct ->
  (deserialize ct c buf = Ok v <-> exists b pad, buf = b ++ pad /\ spells ct (SerProof c) v b).
Proof. exact deserialize_grammar. Qed.
(** A stream starts with at most one text. *)
Theorem C79_unambiguous : forall ct c v1 v2 b1 b2 r1 r2, wf_table ct -> spells ct (SerProof c) v1 b1 -> spells ct (SerProof c) v2 b2 ->
  b1 ++ r1 = b2 ++ r2 -> v1 = v2 /\ r1 = r2 /\ b1 = b2.
Proof. exact spells_unique. Qed.
(** The serialized form and a longer one of the same proof; a transaction with a byte too many. *)
Example C79_instance : ser_proof shop (inner empty (leaf 15)) = Ok (hex "0002000000010f") /\
  spells shop (SerProof VAR) (inner empty (leaf 15)) (hex "0002000000010f") /\
  spells shop (SerProof VAR) (inner empty (leaf 15)) (hex "008200000000018f00") /\
  (forall v, ~ spells shop (SerProof TXPROOF) v (hex "000b0100000000000000000000")).
Proof.
  split; [vm_compute; reflexivity|].
  assert (D : forall v b, deserialize shop VAR b = Ok v -> forall r, de_class shop VAR b = Ok (v, r) -> r = [] -> spells shop (SerProof VAR) v b).
  { intros v b _ r E ->. apply C79_streams in E; [|exact shop_wf]. destruct E as (x & E & S). rewrite app_nil_r in E. subst. exact S. }
  split; [eapply D; [| |reflexivity]; vm_compute; reflexivity|]. split; [eapply D; [| |reflexivity]; vm_compute; reflexivity|].
  intros v H. assert (E : deserialize shop TXPROOF (hex "000b0100000000000000000000") = Ok v).
  { apply C79_deserialize; [exact shop_wf|]. exists (hex "000b0100000000000000000000"), []. rewrite app_nil_r. auto. }
  vm_compute in E. discriminate E.
Qed.
Print Assumptions C79_streams.
Print Assumptions C79_deserialize.
Print Assumptions C79_unambiguous.

(** A text followed by more bytes. *)
Example C79_stream_instance : de_class shop VAR (hex "0002000000010f" ++ hex "99") = Ok (inner empty (leaf 15), hex "99").
Proof. vm_compute. reflexivity. Qed.
