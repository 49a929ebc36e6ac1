(** Vocabulary for the properties of transaction proofs, seals and the sus-tool commands. *)
From Verif Require Import Base Sha256 Ripemd160 Serialize_Model Serialize_Spec Tx_Model Tx_Spec Proof_Model Proof_Spec Chain_Model.
Local Open Scope string_scope.
Local Open Scope list_scope.

(** The class declarations of proofchains/core/bitcoin.py and
    proofchains/core/uniquebits/singleuseseal.py are in the table. *)
Definition declares (ct : ctable) (c : cid) (attrs : list (string * ser)) (h : chash) : Prop :=
  c_attrs (ct c) = attrs /\ c_kind (ct c) = Plain /\ c_hash (ct c) = h.
Definition tag (s : string) : chash := HTag (Some (uuid s)).
Record is_chain (ct : ctable) (P : chain) : Prop := {
  d_tx : declares ct (p_tx P) [("tx", SerTx)] HTx;
  d_outpoint : declares ct (p_outpoint P) [("txproof", SerProof (p_tx P)); ("n", SerPrim UInt32)] (tag "557eb533-63be-497d-b163-7d1875de9681");
  d_txin : declares ct (p_txin P) [("i", SerPrim UInt32); ("txproof", SerProof (p_tx P))] (tag "65d34d83-3291-4813-9119-bd7e29b9dea3");
  d_txout : declares ct (p_txout P) [("i", SerPrim UInt32); ("txproof", SerProof (p_tx P))] (tag "ed624663-7a20-4dd6-8980-9870003dfbe7");
  d_fseal : declares ct (p_fseal P) [("committed_hash", SerPrim Digest)] (tag "e5690d73-16e3-4f8f-bd4f-148c32d37baf");
  d_fwit : declares ct (p_fwit P) [("seal", SerProof (p_fseal P))] (tag "a5092f56-3a31-476a-ac81-1b00211140eb");
  d_bseal : declares ct (p_bseal P) [("outpoint", SerOut); ("nonce", SerPrim (SFixed 16))] (tag "b59093bf-527f-4d2a-9a51-3c2e3d2f0c25");
  d_bwit : declares ct (p_bwit P) [("seal", SerProof (p_bseal P)); ("txinproof", SerProof (p_txin P)); ("txoutproof", SerProof (p_txout P))]
    (tag "2ca464a0-1b8c-4aa5-8e72-5d3aaa804cbd") }.

(** The objects themselves. *)
Definition TxProof (P : chain) (t : tx) : val := PFull (p_tx P) [VTx t].
Definition TxInProof (P : chain) (i : Z) (p : val) : val := PFull (p_txin P) [VPrim (PyInt i); p].
Definition TxOutProof (P : chain) (i : Z) (p : val) : val := PFull (p_txout P) [VPrim (PyInt i); p].
Definition FakeSeal (P : chain) (h : bytes) : val := PFull (p_fseal P) [VPrim (PyBytes h)].
Definition FakeWitness (P : chain) (s : val) : val := PFull (p_fwit P) [s].
Definition Seal (P : chain) (o : outpoint) (nonce : bytes) : val := PFull (p_bseal P) [VOut o; VPrim (PyBytes nonce)].
Definition Witness (P : chain) (s i o : val) : val := PFull (p_bwit P) [s; i; o].

(** Any object of a class that can exist: its attributes are of the declared types, any
    sub-object may be pruned away to any data hash. *)
Definition object (ct : ctable) (c : cid) (v : val) : Prop := fits ct any_bits (SerProof c) v.

(** Result of a method. *)
Definition outcome {R} (ct : ctable) (p : prog (result R)) (v : val) : result R := fst (run ct p v).

(** The transaction has an input (output) number [i], and it is this one. *)
Definition input (t : tx) (i : Z) (x : txin) : Prop := (0 <= i)%Z /\ nth_error (t_vin t) (Z.to_nat i) = Some x.
Definition output (t : tx) (i : Z) (x : txout) : Prop := (0 <= i)%Z /\ nth_error (t_vout t) (Z.to_nat i) = Some x.

(** The three scripts that commit to a digest, byte for byte:
    OP_RETURN <h>;  OP_HASH160 <Hash160(h)> OP_EQUAL;
    OP_DUP OP_HASH160 <Hash160(h)> OP_EQUALVERIFY OP_CHECKSIG. *)
Definition commitment (h script : bytes) : Prop :=
  script = [x6a; x20] ++ h \/
  script = [xa9; x14] ++ Hash160 h ++ [x87] \/
  script = [x76; xa9; x14] ++ Hash160 h ++ [x88; xac].

(** Two transactions with the same txid; the same transaction, or a collision of the double SHA-256. *)
Definition same_txid (t t' : tx) : Prop := exists h, tx_GetHash t = Ok h /\ tx_GetHash t' = Ok h.
Definition tx_collision (t t' : tx) : Prop := exists e e', tx_ser t = Ok e /\ tx_ser t' = Ok e' /\ collision Hash e e'.

(** A file holding a complete seal for outpoint [o]. *)
Definition seal_file (ct : ctable) (P : chain) (f : bytes) (o : outpoint) : Prop :=
  exists nonce, deserialize ct (p_bseal P) f = Ok (Seal P o nonce).

(** [w] is a witness file made from transaction [t] for the seal in file [f], and it verifies for [digest]. *)
Definition witnesses (ct : ctable) (P : chain) (t : tx) (digest : bytes) (f w : bytes) : Prop :=
  exists o n i x, deserialize ct (p_bseal P) f = Ok (Seal P o n) /\
    deserialize ct (p_bwit P) w = Ok (Witness P (Seal P o n) (TxInProof P i (TxProof P t)) (TxOutProof P 0 (TxProof P t))) /\
    input t i x /\ i_prevout x = o /\ cmd_verifywitness ct P w (Some digest) = Ok tt.

(** The methods of mkclosetx. *)
Definition method (m : string) : Prop := m = "op_return" \/ m = "p2sh" \/ m = "p2pkh".
