(** C182: what sealinfo and witnessinfo print, also about an object of which parts are pruned away. *)
From Verif Require Import Base Sha256 Hex_Model Serialize_Model Tx_Model Proof_Model Proof_Spec Chain_Model Chain_Spec Chain_Examples Chain_Props SusLines_Model SusLines_Spec SusLines_Proofs.
Local Open Scope string_scope.
Local Open Scope list_scope.

(** sealinfo prints nothing if the file cannot be read; otherwise the hash of the seal, and then its outpoint, or stops with
    PrunedError because the file has the seal's hash only. *)
Theorem C182_sealinfo : forall ct P, is_chain ct P -> wf_table ct -> variant_table ct -> forall f,
  (exists e, deserialize ct (p_bseal P) f = Err e /\ sealinfo_lines ct P f = ([], Err e)) \/
  (exists s h, deserialize ct (p_bseal P) f = Ok s /\ phash ct s = Ok h /\
    ((exists o n, s = Seal P o n /\ sealinfo_lines ct P f = ([String.append "Hash:		" (b2x h); String.append "OutPoint:	" (show_outpoint (b2lx (o_hash o)) (o_n o))], Ok tt)) \/
     (exists dh, s = PHash (p_bseal P) dh /\ sealinfo_lines ct P f = ([String.append "Hash:		" (b2x h)], Err PrunedError)))).
Proof. exact sealinfo_plain. Qed.
Print Assumptions C182_sealinfo.

(** witnessinfo prints nothing if the witness cannot be read or hashed; otherwise all four lines, or three if the seal is
    pruned away, or only the hash if the transaction cannot be reached. *)
Theorem C182_witnessinfo : forall ct P, is_chain ct P -> wf_table ct -> variant_table ct -> forall f,
  (exists e, (deserialize ct (p_bwit P) f = Err e \/ exists w, deserialize ct (p_bwit P) f = Ok w /\ phash ct w = Err e) /\ witnessinfo_lines ct P f = ([], Err e)) \/
  (exists w h, deserialize ct (p_bwit P) f = Ok w /\ phash ct w = Ok h /\
    ((exists o n i t b id sh, w = Witness P (Seal P o n) (TxInProof P i (TxProof P t)) b /\ tx_GetHash t = Ok id /\ phash ct (Seal P o n) = Ok sh /\
        witnessinfo_lines ct P f = ([String.append "Hash:		" (b2x h); String.append "Txid:		" (b2lx id); String.append "Seal Hash:	" (b2x sh);
          String.append "Seal OutPoint:	" (show_outpoint (b2x (o_hash o)) (o_n o))], Ok tt)) \/
     (exists dh i t b id sh, w = Witness P (PHash (p_bseal P) dh) (TxInProof P i (TxProof P t)) b /\ tx_GetHash t = Ok id /\ phash ct (PHash (p_bseal P) dh) = Ok sh /\
        witnessinfo_lines ct P f = ([String.append "Hash:		" (b2x h); String.append "Txid:		" (b2lx id); String.append "Seal Hash:	" (b2x sh)], Err PrunedError)) \/
     ((forall s i t b, w <> Witness P s (TxInProof P i (TxProof P t)) b) /\ witnessinfo_lines ct P f = ([String.append "Hash:		" (b2x h)], Err PrunedError)))).
Proof. exact witnessinfo_plain. Qed.
Print Assumptions C182_witnessinfo.

(** Two seal files for which the first line is the same: the lines are the same as far as both go, or a collision is found. *)
Theorem C182_seals_agree : forall ct P, is_chain ct P -> wf_table ct -> variant_table ct -> wf_tags ct -> forall f1 f2 l x1 r1 x2 r2 s1 s2,
  deserialize ct (p_bseal P) f1 = Ok s1 -> deserialize ct (p_bseal P) f2 = Ok s2 ->
  sealinfo_lines ct P f1 = (l :: x1, r1) -> sealinfo_lines ct P f2 = (l :: x2, r2) -> same_as_far (l :: x1, r1) (l :: x2, r2) \/ hash_collision ct s1 s2.
Proof. exact sealinfo_agree. Qed.
Print Assumptions C182_seals_agree.

(** The same for witness files. *)
Theorem C182_witnesses_agree : forall ct P, is_chain ct P -> wf_table ct -> variant_table ct -> wf_tags ct -> forall f1 f2 l x1 r1 x2 r2 w1 w2,
  deserialize ct (p_bwit P) f1 = Ok w1 -> deserialize ct (p_bwit P) f2 = Ok w2 ->
  witnessinfo_lines ct P f1 = (l :: x1, r1) -> witnessinfo_lines ct P f2 = (l :: x2, r2) -> same_as_far (l :: x1, r1) (l :: x2, r2) \/ hash_collision ct w1 w2.
Proof. exact witnessinfo_agree. Qed.
Print Assumptions C182_witnesses_agree.

(** A witness, the same with the seal pruned away, and its hash alone; a seal and its hash alone. *)
Definition bare (v : val) : val := match class_of v, data_hash ledger v with Some c, Ok dh => PHash c dh | _, _ => v end.
Definition file_of (v : val) : bytes := match ser_proof ledger v with Ok f => f | _ => [] end.
Definition no_seal (v : val) : val := match v with PFull c (s :: r) => PFull c (bare s :: r) | _ => v end.
Definition no_in (v : val) : val := match v with PFull c [s; i; o] => PFull c [s; bare i; o] | _ => v end.
Definition no_tx (v : val) : val := match v with PFull c [s; PFull d [n; t]; o] => PFull c [s; PFull d [n; bare t]; o] | _ => v end.
Example C182_instance :
  let w := witness tx2 1 0 in
  let out v := witnessinfo_lines ledger chain1 (file_of v) in
  is_chain ledger chain1 /\ wf_table ledger /\ variant_table ledger /\ wf_tags ledger /\
  List.length (fst (out w)) = 4 /\ snd (out w) = Ok tt /\
  out (no_seal w) = (firstn 3 (fst (out w)), Err PrunedError) /\
  out (no_in w) = (firstn 1 (fst (out w)), Err PrunedError) /\
  out (bare w) = (firstn 1 (fst (out w)), Err PrunedError) /\
  out (no_tx w) = ([], Err TypeError) /\
  sealinfo_lines ledger chain1 seal_file1 = (["Hash:		7a60237871c006d35c977d12cce3c982b7ab34b71760774ee70ac9d23dc3d82f"; "OutPoint:	14180092832c9e49f36e37c2cfa6695a6670cc66dcba42266245e11c8f9de4cf:0"], Ok tt) /\
  sealinfo_lines ledger chain1 (file_of (bare (Seal chain1 outpoint1 nonce1))) = (firstn 1 (fst (sealinfo_lines ledger chain1 seal_file1)), Err PrunedError).
Proof.
  intros w out. refine (conj ledger_chain (conj ledger_wf (conj ledger_variants (conj ledger_tags _)))).
  refine (conj _ (conj _ (conj _ (conj _ (conj _ (conj _ (conj _ _))))))); vm_compute; reflexivity.
Qed.
