(** Properties C47-C49: transaction codec of python-bitcoinlib. *)
From Verif Require Import Base Sha256 Tx_Model Tx_Spec Tx_Proofs.

(** C47: each value reads back, whatever follows; [deserialize] accepts the exact
    encoding, rejects it with anything appended, and no proper prefix reads. *)
Theorem C47_outpoint_roundtrip : forall o, wf_outpoint o -> exists enc, outpoint_ser o = Ok enc /\
  (forall rest, outpoint_de (enc ++ rest) = Ok (o, rest)) /\
  (forall pad, bdeserialize outpoint_de pad enc = Ok o) /\
  (forall rest, rest <> [] -> bdeserialize outpoint_de false (enc ++ rest) = Err DeserializationExtraDataError) /\
  (forall p q, enc = p ++ q -> q <> [] -> forall x, outpoint_de p <> Ok x).
Proof. exact (full_codec _ _ _ outpoint_codec outpoint_extends). Qed.
Print Assumptions C47_outpoint_roundtrip.

Example C47_outpoint_instance : outpoint_ser (mkOutPoint (repeat xab 32) 7) = Ok (repeat xab 32 ++ [x07; x00; x00; x00]) /\
  outpoint_de (repeat xab 32 ++ [x07; x00; x00; x00] ++ [x99]) = Ok (mkOutPoint (repeat xab 32) 7, [x99]) /\
  wf_outpoint (mkOutPoint (repeat xab 32) 7).
Proof. split; [reflexivity|]. split; [reflexivity|]. unfold wf_outpoint. cbn. lia. Qed.

Theorem C47_txin_roundtrip : forall i, wf_txin i -> exists enc, txin_ser i = Ok enc /\
  (forall rest, txin_de (enc ++ rest) = Ok (i, rest)) /\
  (forall pad, bdeserialize txin_de pad enc = Ok i) /\
  (forall rest, rest <> [] -> bdeserialize txin_de false (enc ++ rest) = Err DeserializationExtraDataError) /\
  (forall p q, enc = p ++ q -> q <> [] -> forall x, txin_de p <> Ok x).
Proof. exact (full_codec _ _ _ txin_codec txin_extends). Qed.
Print Assumptions C47_txin_roundtrip.

Example C47_txin_instance : let i := mkTxIn (mkOutPoint (repeat xab 32) 7) [x51] 0xfffffffe in
  txin_ser i = Ok (repeat xab 32 ++ [x07; x00; x00; x00; x01; x51; xfe; xff; xff; xff]) /\
  bdeserialize txin_de false (repeat xab 32 ++ [x07; x00; x00; x00; x01; x51; xfe; xff; xff; xff]) = Ok i /\ wf_txin i.
Proof. cbv zeta. split; [reflexivity|]. split; [reflexivity|]. unfold wf_txin, wf_outpoint, wf_script, MAX_SIZE. cbn. lia. Qed.

Theorem C47_txout_roundtrip : forall o, wf_txout o -> exists enc, txout_ser o = Ok enc /\
  (forall rest, txout_de (enc ++ rest) = Ok (o, rest)) /\
  (forall pad, bdeserialize txout_de pad enc = Ok o) /\
  (forall rest, rest <> [] -> bdeserialize txout_de false (enc ++ rest) = Err DeserializationExtraDataError) /\
  (forall p q, enc = p ++ q -> q <> [] -> forall x, txout_de p <> Ok x).
Proof. exact (full_codec _ _ _ txout_codec txout_extends). Qed.
Print Assumptions C47_txout_roundtrip.

Example C47_txout_instance : let o := mkTxOut 5000 [x6a; x01; x02] in
  txout_ser o = Ok [x88; x13; x00; x00; x00; x00; x00; x00; x03; x6a; x01; x02] /\
  bdeserialize txout_de false [x88; x13; x00; x00; x00; x00; x00; x00; x03; x6a; x01; x02; x99] = Err DeserializationExtraDataError /\
  wf_txout o.
Proof. cbv zeta. split; [reflexivity|]. split; [reflexivity|]. unfold wf_txout, wf_script, MAX_SIZE. cbn. lia. Qed.

Theorem C47_tx_roundtrip : forall t, wf_tx t -> exists enc, tx_ser t = Ok enc /\
  (forall rest, tx_de (enc ++ rest) = Ok (t, rest)) /\
  (forall pad, bdeserialize tx_de pad enc = Ok t) /\
  (forall rest, rest <> [] -> bdeserialize tx_de false (enc ++ rest) = Err DeserializationExtraDataError) /\
  (forall p q, enc = p ++ q -> q <> [] -> forall x, tx_de p <> Ok x).
Proof. exact (full_codec _ _ _ tx_codec tx_extends). Qed.
Print Assumptions C47_tx_roundtrip.

(** Every transaction that deserialization produces is one of those. *)
Theorem C47_deserialized_is_wellformed : forall s t rest, tx_de s = Ok (t, rest) -> wf_tx t.
Proof. exact tx_de_wf. Qed.
Print Assumptions C47_deserialized_is_wellformed.

Example C47_deserialized_instance : tx_de [x01; x00; x00; x00; x00; x00; x00; x00; x00; x00; x99] = Ok (mkTx [] [] 0 1, [x99]).
Proof. reflexivity. Qed.

Definition sample_tx : tx :=
  mkTx [mkTxIn (mkOutPoint (repeat xab 32) 7) [x51] 0xffffffff]
       [mkTxOut 5000 [x6a; x01; x02]; mkTxOut (-1) []] 0 1.

Lemma sample_tx_wf : wf_tx sample_tx.
Proof.
  unfold wf_tx, sample_tx. cbn [t_vin t_vout t_nLockTime t_nVersion].
  split; [apply Forall_cons; [|apply Forall_nil]|split; [apply Forall_cons; [|apply Forall_cons; [|apply Forall_nil]]|]];
    unfold wf_txin, wf_outpoint, wf_txout, wf_script, MAX_SIZE; cbn; lia.
Qed.

Example C47_instance : exists enc, tx_ser sample_tx = Ok enc /\ tx_de (enc ++ [x99]) = Ok (sample_tx, [x99]).
Proof. eexists. split; [reflexivity|]. vm_compute. reflexivity. Qed.

(** C48: serialization is injective and prefix-free, and so the transaction id binds. *)
Theorem C48_serialization_injective : forall a b ea eb r1 r2, wf_tx a -> wf_tx b ->
  tx_ser a = Ok ea -> tx_ser b = Ok eb -> ea ++ r1 = eb ++ r2 -> a = b /\ r1 = r2.
Proof. intros a b ea eb r1 r2. exact (codec_prefix_free _ _ _ a b ea eb r1 r2 tx_codec). Qed.
Print Assumptions C48_serialization_injective.

(** Transactions that differ in the lock time only. *)
Example C48_injective_instance : wf_tx (mkTx [] [] 0 1) /\ wf_tx (mkTx [] [] 5 1) /\
  tx_ser (mkTx [] [] 0 1) = Ok [x01; x00; x00; x00; x00; x00; x00; x00; x00; x00] /\
  tx_ser (mkTx [] [] 5 1) = Ok [x01; x00; x00; x00; x00; x00; x05; x00; x00; x00].
Proof.
  split; [|split; [|split; reflexivity]]; unfold wf_tx; cbn [t_vin t_vout t_nLockTime t_nVersion];
    (split; [constructor|split; [constructor|cbn; lia]]).
Qed.

Theorem C48_txid_binds : forall a b h, wf_tx a -> wf_tx b -> tx_GetHash a = Ok h -> tx_GetHash b = Ok h ->
  a = b \/ exists ea eb, tx_ser a = Ok ea /\ tx_ser b = Ok eb /\ ea <> eb /\ Hash ea = Hash eb.
Proof. exact tx_hash_binds. Qed.
Print Assumptions C48_txid_binds.

Example C48_instance : wf_tx sample_tx /\ exists h, tx_GetHash sample_tx = Ok h.
Proof. split; [exact sample_tx_wf|]. eexists. reflexivity. Qed.

(** C49: CompactSize integers. *)
Theorem C49_compactsize_roundtrip : forall i, (0 <= i < 2 ^ 64)%Z -> exists enc, varint_ser i = Ok enc /\
  forall rest, varint_de (enc ++ rest) = Ok (Z.to_N i, rest).
Proof. exact varint_full. Qed.
Print Assumptions C49_compactsize_roundtrip.

Theorem C49_compactsize_out_of_range : forall i, ~ (0 <= i < 2 ^ 64)%Z ->
  varint_ser i = Err (if (i <? 0)%Z then ValueError else StructError).
Proof. exact varint_ser_err_observed. Qed.
Print Assumptions C49_compactsize_out_of_range.

Example C49_out_of_range_instance : varint_ser (2 ^ 64) = Err StructError /\ varint_ser (-1) = Err ValueError.
Proof. split; reflexivity. Qed.

Example C49_instance : varint_ser 515 = Ok [xfd; x03; x02] /\ varint_de [xfd; x03; x02; x77] = Ok (515%N, [x77]).
Proof. split; reflexivity. Qed.
