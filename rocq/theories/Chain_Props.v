(** Properties C36-C43 and C52-C56: transaction proofs, single use seals and the sus-tool commands. *)
From Verif Require Import Base Sha256 Ripemd160 Serialize_Model Serialize_Spec Tx_Model Tx_Spec Tx_Proofs Proof_Model Proof_Spec ProofHash_Proofs ProofArrive_Proofs
  Hex_Model Chain_Model Chain_Spec Chain_Proofs ChainPipe_Proofs ChainReplay_Proofs Chain_Examples.
From Coq Require Import ZifyBool ZifyNat ZifyN.
Local Open Scope string_scope.
Local Open Scope list_scope.
Local Open Scope Z_scope.

Lemma outpoint1_wf : wf_outpoint outpoint1. Proof. split; [vm_compute; reflexivity|cbn; lia]. Qed.
Lemma outpoint2_wf : wf_outpoint outpoint2. Proof. split; [vm_compute; reflexivity|cbn; lia]. Qed.
Lemma close_tx_wf os outs : Forall wf_outpoint os -> Forall wf_txout outs -> (List.length os < 100)%nat -> (List.length outs < 100)%nat -> wf_tx (close_tx os outs).
Proof.
  intros F G L1 L2. unfold wf_tx, close_tx. cbn [t_vin t_vout t_nLockTime t_nVersion]. repeat split; try lia; try assumption; [|rewrite map_length; lia].
  rewrite Forall_forall in *. intros x Hx. apply in_map_iff in Hx. destruct Hx as (o & <- & Ho). split; [apply F, Ho|]. cbn. split; [vm_compute; discriminate|lia].
Qed.
Lemma outs_wf : Forall wf_txout [out_return; out_p2sh; out_p2pkh; out_other].
Proof. repeat constructor; cbn; try lia; vm_compute; discriminate. Qed.
Lemma tx1_wf : wf_tx tx1.
Proof. apply close_tx_wf; [repeat constructor; apply outpoint1_wf| |cbn; lia..]. pose proof outs_wf as H. inversion H; subst. constructor; [assumption|constructor]. Qed.
Lemma tx2_wf : wf_tx tx2.
Proof.
  apply close_tx_wf; [constructor; [apply outpoint2_wf|constructor; [apply outpoint1_wf|constructor]]| |cbn; lia..].
  pose proof outs_wf as H. rewrite Forall_forall in *. intros x Hx. apply H. cbn in *. tauto.
Qed.
Lemma witness_ok t i j : wf_tx t -> 0 <= i < 100 -> 0 <= j < 100 -> object ledger BWIT (witness t i j).
Proof.
  intros W Ri Rj. apply (witness_object ledger chain1 ledger_chain); [apply (seal_object ledger chain1 ledger_chain); [apply outpoint1_wf|reflexivity]|
    apply (txin_object ledger chain1 ledger_chain); [lia|]|apply (txout_object ledger chain1 ledger_chain); [lia|]]; apply (tx_object ledger chain1 ledger_chain), W.
Qed.

(** C36: txhash is the Bitcoin hash of the transaction, on the proof and on every pruned view
    of it; different transaction hashes give different proof hashes. *)
Theorem C36_txhash_is_the_txid : forall ct P t, is_chain ct P -> wf_table ct -> wf_tx t ->
  exists enc, tx_ser t = Ok enc /\ txhash ct (TxProof P t) = Ok (sha256 (sha256 enc)) /\
    forall os, txhash ct (steps ct (prune ct (TxProof P t)) os) = Ok (sha256 (sha256 enc)).
Proof.
  intros ct P t C W Ht. destruct (tx_codec t Ht) as (enc & E & _). exists enc. split; [exact E|].
  assert (G : tx_GetHash t = Ok (sha256 (sha256 enc))) by (unfold tx_GetHash; rewrite E; reflexivity).
  split; [rewrite (txhash_is_txid ct P C); exact G|]. intros os. rewrite (txhash_view ct P C); assumption.
Qed.
Print Assumptions C36_txhash_is_the_txid.

Theorem C36_proof_hash_determines_txid : forall ct P t t' h, is_chain ct P -> wf_tx t -> wf_tx t' ->
  phash ct (TxProof P t) = Ok h -> phash ct (TxProof P t') = Ok h ->
  tx_GetHash t = tx_GetHash t' /\ (t = t' \/ tx_collision t t').
Proof.
  intros ct P t t' h C W W' H H'. destruct (txhash_distinct ct P C t t' h H H') as (k & A & B). split; [congruence|].
  apply same_txid_binds; [assumption..|]. exists k. auto.
Qed.
Print Assumptions C36_proof_hash_determines_txid.

(** The closing transaction of the test vectors, seen through a view from which the
    transaction was read. *)
Example C36_instance : is_chain ledger chain1 /\ wf_table ledger /\ wf_tx tx1 /\
  txhash ledger (TxProof chain1 tx1) = Ok (hex "1cf2d0dbdde6d98591539984e53f3b81269bfa2efd0bb166f565f1bfd4e6ef29") /\
  phash ledger (TxProof chain1 tx1) <> phash ledger (TxProof chain1 tx2).
Proof.
  split; [exact ledger_chain|]. split; [exact ledger_wf|]. split; [exact tx1_wf|]. split; [|vm_compute; discriminate].
  vm_compute. reflexivity.
Qed.

(** C37: a TxInProof verifies exactly when it has its transaction and the index is in range;
    then txin is that input.  Likewise for outputs.  The same holds on views. *)
Theorem C37_txin_verify_means_index_in_range : forall ct P v, is_chain ct P -> object ct (p_txin P) v ->
  (outcome ct txin_verify v = Ok tt <->
   exists i t x, v = TxInProof P i (TxProof P t) /\ input t i x /\ outcome ct (txin_at [] (fun x => Ret (Ok x))) v = Ok x).
Proof.
  intros ct P v C O. rewrite (txin_verify_exact ct P C v O). split.
  - intros (i & t & x & -> & X). exists i, t, x. split; [reflexivity|]. split; [exact X|]. apply (txin_value ct P C i t x O X).
  - intros (i & t & x & E & X & _). eauto.
Qed.
Print Assumptions C37_txin_verify_means_index_in_range.

Theorem C37_txout_verify_means_index_in_range : forall ct P v, is_chain ct P -> object ct (p_txout P) v ->
  (outcome ct txout_verify v = Ok tt <->
   exists i t x, v = TxOutProof P i (TxProof P t) /\ output t i x /\ outcome ct (txout_at [] (fun x => Ret (Ok x))) v = Ok x).
Proof.
  intros ct P v C O. rewrite (txout_verify_exact ct P C v O). split.
  - intros (i & t & x & -> & X). exists i, t, x. split; [reflexivity|]. split; [exact X|]. apply (txout_value ct P C i t x O X).
  - intros (i & t & x & E & X & _). eauto.
Qed.
Print Assumptions C37_txout_verify_means_index_in_range.

(** Every method behaves on a pruned view of a proof as on the proof, whatever was read
    through the view before. *)
Theorem C37_same_on_views : forall ct R (p : prog (result R)) c v os, wf_table ct -> object ct c v ->
  outcome ct p (steps ct (prune ct v) os) = outcome ct p v.
Proof. intros ct R p c v os W O. exact (outcome_view ct any_bits p c v os W O). Qed.
Print Assumptions C37_same_on_views.

Example C37_instance : object ledger TXIN (TxInProof chain1 1 (TxProof chain1 tx2)) /\
  outcome ledger txin_verify (TxInProof chain1 1 (TxProof chain1 tx2)) = Ok tt /\
  outcome ledger (txin_at [] (fun x => Ret (Ok x))) (prune ledger (TxInProof chain1 1 (TxProof chain1 tx2))) = Ok (mkTxIn outpoint1 [] 0xffffffff) /\
  outcome ledger txin_verify (TxInProof chain1 2 (TxProof chain1 tx2)) = Err AssertionError /\
  outcome ledger txout_verify (TxOutProof chain1 1 (TxProof chain1 tx1)) = Err AssertionError.
Proof.
  split; [apply (txin_object ledger chain1 ledger_chain); [lia|]; apply (tx_object ledger chain1 ledger_chain), tx2_wf|]. repeat split; vm_compute; reflexivity.
Qed.

(** C38: verify on a seal witness succeeds exactly when seal, transactions and indices are
    there, the input spends the seal's outpoint and both proofs are for the same transaction
    (txid); so for the same transaction unless the double SHA-256 collides. *)
Theorem C38_witness_verify_meaning : forall ct P w, is_chain ct P -> object ct (p_bwit P) w ->
  (outcome ct btc_verify w = Ok tt <->
   exists o n i t j t' x, w = Witness P (Seal P o n) (TxInProof P i (TxProof P t)) (TxOutProof P j (TxProof P t')) /\
     input t i x /\ i_prevout x = o /\ same_txid t t') /\
  (outcome ct btc_verify w = Ok tt \/ exists e, outcome ct btc_verify w = Err e /\ In e [AssertionError; IndexError; PrunedError; TypeError] /\
     (complete w -> In e [AssertionError; IndexError])).
Proof. intros ct P w C. exact (btc_verify_exact ct P C w). Qed.
Print Assumptions C38_witness_verify_meaning.

Theorem C38_same_txid_is_same_transaction : forall t t', wf_tx t -> wf_tx t' -> same_txid t t' -> t = t' \/ tx_collision t t'.
Proof. exact same_txid_binds. Qed.
Print Assumptions C38_same_txid_is_same_transaction.

Example C38_instance : object ledger BWIT (witness tx2 1 0) /\ outcome ledger btc_verify (witness tx2 1 0) = Ok tt /\
  outcome ledger btc_verify (witness tx2 0 0) = Err AssertionError /\ outcome ledger btc_verify (witness tx2 7 0) = Err IndexError /\
  outcome ledger btc_verify (Witness chain1 seal1 (TxInProof chain1 0 (TxProof chain1 tx1)) (TxOutProof chain1 0 (TxProof chain1 tx2))) = Err AssertionError /\
  outcome ledger btc_verify (Witness chain1 seal1 (TxInProof chain1 0 (TxProof chain1 tx1)) (PHash TXOUT digest1)) = Err PrunedError.
Proof. split; [apply witness_ok; [exact tx2_wf|lia..]|]. repeat split; vm_compute; reflexivity. Qed.

(** C39: verify_hash accepts exactly the digests of 32 bytes the output commits to. *)
Theorem C39_verify_hash_meaning : forall ct P w h, is_chain ct P -> object ct (p_bwit P) w ->
  (outcome ct (btc_verify_hash h) w = Ok tt <->
   List.length h = 32%nat /\ exists s a j t x, w = Witness P s a (TxOutProof P j (TxProof P t)) /\ output t j x /\ commitment h (o_scriptPubKey x)).
Proof. intros ct P w h C. exact (btc_verify_hash_exact ct P C w h). Qed.
Print Assumptions C39_verify_hash_meaning.

Theorem C39_one_output_one_digest : forall ct P w h1 h2, is_chain ct P -> object ct (p_bwit P) w ->
  outcome ct (btc_verify_hash h1) w = Ok tt -> outcome ct (btc_verify_hash h2) w = Ok tt -> h1 = h2 \/ collision Hash160 h1 h2.
Proof. intros ct P w h1 h2 C. exact (btc_verify_hash_binds ct P C w h1 h2). Qed.
Print Assumptions C39_one_output_one_digest.

Example C39_instance : let t := close_tx [outpoint1] [out_return; out_p2sh; out_p2pkh; out_other] in
  object ledger BWIT (witness t 0 0) /\ (forall j, In j [0; 1; 2] -> outcome ledger (btc_verify_hash digest1) (witness t 0 j) = Ok tt) /\
  outcome ledger (btc_verify_hash digest1) (witness t 0 3) = Err AssertionError /\
  outcome ledger (btc_verify_hash (repeat x00 20)) (witness t 0 0) = Err AssertionError.
Proof.
  intros t. split; [apply witness_ok; [apply close_tx_wf; [repeat constructor; apply outpoint1_wf|exact outs_wf|cbn; lia..]|lia..]|].
  split; [intros j H; cbn in H; intuition subst; vm_compute; reflexivity|]. split; vm_compute; reflexivity.
Qed.

(** C40 is false: both outputs of a transaction may commit, to different digests, and a
    witness may point at either. *)
Theorem C40_seal_closes_over_two_digests_refuted : exists ct P o n t j1 j2 h1 h2,
  let w j := Witness P (Seal P o n) (TxInProof P 0 (TxProof P t)) (TxOutProof P j (TxProof P t)) in
  is_chain ct P /\ wf_table ct /\ (List.length (t_vin t) = 1)%nat /\ object ct (p_bwit P) (w j1) /\ object ct (p_bwit P) (w j2) /\
  outcome ct btc_verify (w j1) = Ok tt /\ outcome ct btc_verify (w j2) = Ok tt /\
  outcome ct (btc_verify_hash h1) (w j1) = Ok tt /\ outcome ct (btc_verify_hash h2) (w j2) = Ok tt /\
  h1 <> h2 /\ ~ collision Hash160 h1 h2.
Proof.
  exists ledger, chain1, outpoint1, nonce1, (close_tx [outpoint1] [out_return; out_other]), 0, 1, digest1, digest2. intros w.
  assert (Wt : wf_tx (close_tx [outpoint1] [out_return; out_other])).
  { apply close_tx_wf; [repeat constructor; apply outpoint1_wf| |cbn; lia..]. pose proof outs_wf as H. rewrite Forall_forall in *. intros x Hx. apply H. cbn in *. tauto. }
  split; [exact ledger_chain|]. split; [exact ledger_wf|]. split; [reflexivity|]. split; [apply witness_ok; [exact Wt|lia..]|]. split; [apply witness_ok; [exact Wt|lia..]|].
  do 4 (split; [vm_compute; reflexivity|]). split; [vm_compute; discriminate|]. intros (_ & E). vm_compute in E. discriminate E.
Qed.
Print Assumptions C40_seal_closes_over_two_digests_refuted.

(** C40 for witnesses pointing at the same output, or when the closing transaction has one
    output only.  Missing: witnesses of different outputs (false, see above). *)
Theorem C40_one_digest_per_closing_partial : forall ct P o n1 n2 i1 i2 t1 t2 j1 j2 t1' t2' h1 h2, is_chain ct P ->
  let w1 := Witness P (Seal P o n1) (TxInProof P i1 (TxProof P t1)) (TxOutProof P j1 (TxProof P t1')) in
  let w2 := Witness P (Seal P o n2) (TxInProof P i2 (TxProof P t2)) (TxOutProof P j2 (TxProof P t2')) in
  object ct (p_bwit P) w1 -> object ct (p_bwit P) w2 -> outcome ct btc_verify w1 = Ok tt -> outcome ct btc_verify w2 = Ok tt ->
  same_txid t1 t2 -> outcome ct (btc_verify_hash h1) w1 = Ok tt -> outcome ct (btc_verify_hash h2) w2 = Ok tt ->
  j1 = j2 \/ List.length (t_vout t1) = 1%nat ->
  h1 = h2 \/ collision Hash160 h1 h2 \/ tx_collision t1 t2 \/ tx_collision t1 t1' \/ tx_collision t2 t2'.
Proof. intros ct P o n1 n2 i1 i2 t1 t2 j1 j2 t1' t2' h1 h2 C. exact (one_digest ct P C o n1 n2 i1 i2 t1 t2 j1 j2 t1' t2' h1 h2). Qed.
Print Assumptions C40_one_digest_per_closing_partial.

Example C40_instance : object ledger BWIT (witness tx1 0 0) /\ outcome ledger btc_verify (witness tx1 0 0) = Ok tt /\ same_txid tx1 tx1 /\
  outcome ledger (btc_verify_hash digest1) (witness tx1 0 0) = Ok tt /\ List.length (t_vout tx1) = 1%nat.
Proof.
  split; [apply witness_ok; [exact tx1_wf|lia..]|]. split; [vm_compute; reflexivity|]. split; [eexists; split; vm_compute; reflexivity|]. split; vm_compute; reflexivity.
Qed.

(** C41: a fake witness accepts exactly the digest its seal was created for. *)
Theorem C41_fake_witness_accepts_its_digest : forall ct P w h, is_chain ct P -> object ct (p_fwit P) w ->
  (outcome ct (fake_verify_hash h) w = Ok tt <-> w = FakeWitness P (FakeSeal P h)).
Proof. intros ct P w h C. exact (fake_verify_exact ct P C w h). Qed.
Print Assumptions C41_fake_witness_accepts_its_digest.

Theorem C41_from_hash : forall ct P h, is_chain ct P ->
  (List.length h = 32%nat -> fake_from_hash ct P h = Ok (FakeWitness P (FakeSeal P h)) /\ object ct (p_fwit P) (FakeWitness P (FakeSeal P h)) /\
     forall h', outcome ct (fake_verify_hash h') (FakeWitness P (FakeSeal P h)) = Ok tt <-> h' = h) /\
  (List.length h <> 32%nat -> fake_from_hash ct P h = Err SerializerValueError).
Proof.
  intros ct P h C. rewrite (fake_from_hash_exact ct P C). unfold blen. split; intros L.
  - assert ((N.of_nat (List.length h) =? 32)%N = true) as -> by lia. split; [reflexivity|].
    assert (O : object ct (p_fwit P) (FakeWitness P (FakeSeal P h))) by (apply (fwit_object ct P C), (fseal_object ct P C), L).
    split; [exact O|]. intros h'. rewrite (fake_verify_exact ct P C _ h' O). split; [intros E; inversion E; reflexivity|intros ->; reflexivity].
  - assert ((N.of_nat (List.length h) =? 32)%N = false) as -> by lia. reflexivity.
Qed.
Print Assumptions C41_from_hash.

Theorem C41_seal_hash_binds_digest : forall ct P h1 h2 k, is_chain ct P -> wf_table ct -> wf_tags ct -> List.length h1 = 32%nat -> List.length h2 = 32%nat ->
  phash ct (FakeSeal P h1) = Ok k -> phash ct (FakeSeal P h2) = Ok k -> h1 = h2 \/ hash_collision ct (FakeSeal P h1) (FakeSeal P h2).
Proof. intros ct P h1 h2 k C. exact (fake_binds ct P C h1 h2 k). Qed.
Print Assumptions C41_seal_hash_binds_digest.

Example C41_instance : wf_tags ledger /\ fake_from_hash ledger chain1 digest1 = Ok (FakeWitness chain1 (FakeSeal chain1 digest1)) /\
  outcome ledger (fake_verify_hash digest1) (FakeWitness chain1 (FakeSeal chain1 digest1)) = Ok tt /\
  outcome ledger (fake_verify_hash digest2) (FakeWitness chain1 (FakeSeal chain1 digest1)) = Err AssertionError /\
  (exists k, phash ledger (FakeSeal chain1 digest1) = Ok k) /\ fake_from_hash ledger chain1 [x00] = Err SerializerValueError.
Proof. split; [exact ledger_tags|]. repeat split; try (vm_compute; reflexivity). eexists. vm_compute. reflexivity. Qed.

(** C42, the library: the close template spends the seals in order, its only output commits
    to the digest, and the witness of each seal verifies, accepts the digest and survives
    serialization. *)
Theorem C42_template_closes_every_seal : forall ct P digest (ons : list (outpoint * bytes)) meth dust, is_chain ct P -> wf_table ct ->
  List.length digest = 32%nat -> method meth -> - 2 ^ 63 <= dust < 2 ^ 63 ->
  Forall (fun on => wf_outpoint (fst on) /\ List.length (snd on) = 16%nat) ons -> Z.of_nat (List.length ons) <= 2 ^ 32 ->
  exists t, make_close_seal_tx_template ct digest (map (fun on => Seal P (fst on) (snd on)) ons) meth dust = Ok t /\ wf_tx t /\
    map i_prevout (t_vin t) = map fst ons /\ (exists x, t_vout t = [x] /\ o_nValue x = if String.eqb meth "op_return" then 0 else dust) /\
    forall k o n, nth_error ons k = Some (o, n) ->
      let w := Witness P (Seal P o n) (TxInProof P (Z.of_nat k) (TxProof P t)) (TxOutProof P 0 (TxProof P t)) in
      outcome ct btc_verify w = Ok tt /\ outcome ct (btc_verify_hash digest) w = Ok tt /\
      exists f, ser_proof ct w = Ok f /\ deserialize ct (p_bwit P) f = Ok w.
Proof. intros ct P digest ons meth dust C. exact (template_witness ct P C digest ons meth dust). Qed.
Print Assumptions C42_template_closes_every_seal.

(** C42, the tool: mkclosetx on different seals prints the hex of a transaction spending them
    in order; mkwitness on that transaction and the same files writes a witness file for each,
    and verifywitness accepts it with the digest.  Or two of the seals collide under SHA-256. *)
Theorem C42_commands_close_every_seal : forall ct P digest files ons meth, is_chain ct P -> wf_table ct -> variant_table ct -> wf_tags ct ->
  Forall2 (fun f on => deserialize ct (p_bseal P) f = Ok (Seal P (fst on) (snd on))) files ons ->
  List.length digest = 32%nat -> method meth -> Z.of_nat (List.length files) <= 2 ^ 32 -> NoDup ons ->
  (exists t raw ws, cmd_mkclosetx ct P digest files meth = Ok (b2x raw) /\ x_hex (b2x raw) = Ok raw /\ tx_ser t = Ok raw /\
     map i_prevout (t_vin t) = map fst ons /\ cmd_mkwitness ct P raw files = Ok ws /\ Forall2 (witnesses ct P t digest) files ws) \/
  (exists a b, In a ons /\ In b ons /\ a <> b /\ hash_collision ct (Seal P (fst a) (snd a)) (Seal P (fst b) (snd b))).
Proof. intros ct P digest files ons meth C. exact (closetx_ok ct P C digest files ons meth). Qed.
Print Assumptions C42_commands_close_every_seal.

(** The same seal given twice is refused by mkclosetx, a seal the transaction does not spend
    by mkwitness. *)
Theorem C42_duplicate_seal_refused : forall ct P digest files ons meth, is_chain ct P -> wf_table ct -> variant_table ct ->
  Forall2 (fun f on => deserialize ct (p_bseal P) f = Ok (Seal P (fst on) (snd on))) files ons -> ~ NoDup ons ->
  cmd_mkclosetx ct P digest files meth = Err SystemExit.
Proof. intros ct P digest files ons meth C. exact (closetx_duplicate ct P C digest files ons meth). Qed.
Print Assumptions C42_duplicate_seal_refused.

Theorem C42_unspent_seal_refused : forall ct P t raw files os, is_chain ct P -> wf_table ct -> variant_table ct -> wf_tx t ->
  Z.of_nat (List.length (t_vin t)) <= 2 ^ 32 -> tx_ser t = Ok raw -> Forall2 (seal_file ct P) files os ->
  (exists o, In o os /\ forall x, In x (t_vin t) -> i_prevout x <> o) -> cmd_mkwitness ct P raw files = Err SystemExit.
Proof. intros ct P t raw files os C. exact (mkwitness_unspent ct P C t raw files os). Qed.
Print Assumptions C42_unspent_seal_refused.

(** verifywitness accepts a file exactly when it decodes to a witness that verifies and
    accepts the digest given. *)
Theorem C42_verifywitness_meaning : forall ct P file d, is_chain ct P -> wf_table ct -> variant_table ct ->
  (cmd_verifywitness ct P file d = Ok tt <-> exists w, deserialize ct (p_bwit P) file = Ok w /\ outcome ct btc_verify w = Ok tt /\
    match d with Some h => outcome ct (btc_verify_hash h) w = Ok tt | None => True end).
Proof. intros ct P file d C. exact (verifywitness_exact ct P C file d). Qed.
Print Assumptions C42_verifywitness_meaning.

Definition seal_file1 := match ser_proof ledger (Seal chain1 outpoint1 nonce1) with Ok f => f | _ => [] end.
Definition seal_file2 := match ser_proof ledger (Seal chain1 outpoint2 nonce1) with Ok f => f | _ => [] end.
Example C42_instance : variant_table ledger /\
  Forall2 (fun f on => deserialize ledger BSEAL f = Ok (Seal chain1 (fst on) (snd on))) [seal_file1; seal_file2] [(outpoint1, nonce1); (outpoint2, nonce1)] /\
  NoDup [(outpoint1, nonce1); (outpoint2, nonce1)] /\
  (exists t ws, cmd_mkclosetx ledger chain1 digest1 [seal_file1; seal_file2] "p2pkh" = Ok (b2x t) /\
     cmd_mkwitness ledger chain1 t [seal_file1; seal_file2] = Ok ws /\ map (fun w => cmd_verifywitness ledger chain1 w (Some digest1)) ws = [Ok tt; Ok tt] /\
     map (fun w => cmd_verifywitness ledger chain1 w (Some digest2)) ws = [Err AssertionError; Err AssertionError]) /\
  cmd_mkclosetx ledger chain1 digest1 [seal_file1; seal_file1] "p2pkh" = Err SystemExit /\
  (do raw <- tx_ser tx1; cmd_mkwitness ledger chain1 raw [seal_file1; seal_file2]) = Err SystemExit.
Proof.
  split; [exact ledger_variants|]. split; [constructor; [vm_compute; reflexivity|constructor; [vm_compute; reflexivity|constructor]]|].
  split. { constructor; [intros [E|[]]; vm_compute in E; discriminate E|]. constructor; [intros []|constructor]. }
  split.
  - set (t := match (do s <- cmd_mkclosetx ledger chain1 digest1 [seal_file1; seal_file2] "p2pkh"; x_hex s) with Ok b => b | _ => [] end).
    exists t. set (ws := match cmd_mkwitness ledger chain1 t [seal_file1; seal_file2] with Ok ws => ws | _ => [] end). exists ws.
    split; [vm_compute; reflexivity|]. split; [vm_compute; reflexivity|]. split; vm_compute; reflexivity.
  - split; vm_compute; reflexivity.
Qed.

(** C43 is false: mkseal gives the seal no nonce, so making it raises KeyError, for every outpoint. *)
Theorem C43_mkseal_refuted : forall ct P o, is_chain ct P -> cmd_mkseal ct P o = Err KeyError.
Proof. intros ct P o C. exact (mkseal_fails ct P C o). Qed.
Print Assumptions C43_mkseal_refuted.

(** C43 for a seal made by the library with a nonce of 16 bytes.  Missing: the command itself. *)
Theorem C43_seal_with_nonce_partial : forall ct P o n, is_chain ct P -> wf_table ct -> wf_outpoint o -> List.length n = 16%nat ->
  exists s f h, construct ct (p_bseal P) [("outpoint", VOut o); ("nonce", VPrim (PyBytes n))] = Ok s /\ ser_proof ct s = Ok f /\ seal_file ct P f o /\
    phash ct s = Ok h /\ cmd_sealinfo ct P f = Ok (b2x h, show_outpoint (b2lx (o_hash o)) (o_n o)) /\
    forall digest meth, List.length digest = 32%nat -> method meth -> exists printed, cmd_mkclosetx ct P digest [f] meth = Ok printed.
Proof. intros ct P o n C. exact (mkseal_with_nonce ct P C o n). Qed.
Print Assumptions C43_seal_with_nonce_partial.

Example C43_instance : wf_outpoint outpoint2 /\ cmd_mkseal ledger chain1 outpoint2 = Err KeyError /\
  cmd_sealinfo ledger chain1 seal_file2 = Ok ("b125df47426c1d5d9ce1412a7a0c94f985c32c741f83b0bebf76b66921da312d", "2c3c21bf70aada1a1ee4eeb09062ab4525a49d9e5fb19e9c6ef0398a3cfd2093:1").
Proof. split; [exact outpoint2_wf|]. split; vm_compute; reflexivity. Qed.

(** C52 is false: the txhash of a TxProof that arrived pruned raises TypeError. *)
Theorem C52_txhash_of_received_pruned_proof_refuted : forall ct P dh, is_chain ct P -> txhash ct (PHash (p_tx P) dh) = Err TypeError.
Proof. intros ct P dh C. unfold txhash. rewrite (phash_tx_hash ct P C). reflexivity. Qed.
Print Assumptions C52_txhash_of_received_pruned_proof_refuted.

(** C52 before the proof is sent.  Missing: after the pruned proof was received (false). *)
Theorem C52_txhash_of_pruned_proof_partial : forall ct P t os, is_chain ct P -> wf_table ct -> wf_tx t ->
  exists h, tx_GetHash t = Ok h /\ txhash ct (steps ct (prune ct (TxProof P t)) os) = Ok h.
Proof.
  intros ct P t os C W Wt. destruct (tx_GetHash_wf t Wt) as (h & E). exists h. split; [exact E|]. rewrite (txhash_view ct P C); assumption.
Qed.
Print Assumptions C52_txhash_of_pruned_proof_partial.

(** What a pruned TxProof is turned into by sending it. *)
Example C52_instance : let v := prune ledger (TxProof chain1 tx1) in
  (do h <- txhash ledger v; Ok (b2lx h)) = (do h <- tx_GetHash tx1; Ok (b2lx h)) /\
  exists dh, (do f <- ser_proof ledger v; deserialize ledger TXPROOF f) = Ok (PHash TXPROOF dh) /\ txhash ledger (PHash TXPROOF dh) = Err TypeError.
Proof. split; [vm_compute; reflexivity|]. eexists. split; [vm_compute; reflexivity|vm_compute; reflexivity]. Qed.

(** C53, sealinfo: the outpoint shown is the seal's, and given back as an argument denotes it. *)
Theorem C53_shown_outpoint_reads_back_partial : forall ct P f o n, is_chain ct P -> wf_table ct -> variant_table ct ->
  deserialize ct (p_bseal P) f = Ok (Seal P o n) ->
  exists h s, cmd_sealinfo ct P f = Ok (h, s) /\ parse_outpoint s = Ok o.
Proof.
  intros ct P f o n C W V D. pose proof (deserialize_fits ct _ _ _ W V (proj1 (proj2 (d_bseal ct P C))) D) as O.
  destruct (sealinfo_ok ct P C f o n W O D) as (h & _ & E). exists (b2x h), (show_outpoint (b2lx (o_hash o)) (o_n o)). split; [exact E|].
  apply parse_shown. apply (seal_wf ct P C o n O).
Qed.
Print Assumptions C53_shown_outpoint_reads_back_partial.

(** C53 is false for witnessinfo: the transaction hash of the seal's outpoint is printed in
    the other byte order, so what is printed denotes another outpoint. *)
Theorem C53_witnessinfo_outpoint_refuted : forall ct P f o n i t b r, is_chain ct P -> wf_table ct -> variant_table ct ->
  deserialize ct (p_bwit P) f = Ok (Witness P (Seal P o n) (TxInProof P i (TxProof P t)) b) -> cmd_witnessinfo ct P f = Ok r ->
  parse_outpoint (snd r) = Ok (mkOutPoint (rev (o_hash o)) (o_n o)) /\ (parse_outpoint (snd r) = Ok o <-> rev (o_hash o) = o_hash o).
Proof.
  intros ct P f o n i t b r C W V D E. pose proof (deserialize_fits ct _ _ _ W V (proj1 (proj2 (d_bwit ct P C))) D) as O.
  destruct (witnessinfo_ok ct P C f o n i t b W O D r E) as (h & id & sh & -> & _). cbn [snd].
  assert (Wo : wf_outpoint o).
  { destruct (witness_shape ct P C _ O) as [(s & a & b' & X & Os & _)|(dh & X & _)]; [|discriminate X]. inversion X; subst. apply (seal_wf ct P C o n Os). }
  rewrite (parse_shown_reversed o Wo). split; [reflexivity|]. destruct o as [oh k]. cbn. split; [intros X; inversion X; congruence|intros ->; reflexivity].
Qed.
Print Assumptions C53_witnessinfo_outpoint_refuted.

Definition witness_file1 := match ser_proof ledger (witness tx2 1 0) with Ok f => f | _ => [] end.
Example C53_instance : deserialize ledger BWIT witness_file1 = Ok (witness tx2 1 0) /\
  (exists a b c, cmd_witnessinfo ledger chain1 witness_file1 = Ok (a, b, c, "cfe49d8f1ce145622642badc66cc70665a69a6cfc2376ef3499e2c8392001814:0")) /\
  (exists a, cmd_sealinfo ledger chain1 seal_file1 = Ok (a, "14180092832c9e49f36e37c2cfa6695a6670cc66dcba42266245e11c8f9de4cf:0")) /\
  parse_outpoint "14180092832c9e49f36e37c2cfa6695a6670cc66dcba42266245e11c8f9de4cf:0" = Ok outpoint1.
Proof. split; [vm_compute; reflexivity|]. split; [do 3 eexists; vm_compute; reflexivity|]. split; [eexists; vm_compute; reflexivity|]. vm_compute. reflexivity. Qed.

(** C54: bytes printed as hex read back, in both byte orders, as a digest argument exactly if
    they are 32. *)
Theorem C54_hex_reads_back : forall b, x_hex (b2x b) = Ok b /\ lx (b2lx b) = Ok b /\
  (List.length b = 32%nat -> parse_digest (b2x b) = Ok b) /\ (List.length b <> 32%nat -> parse_digest (b2x b) = Err SystemExit).
Proof.
  intros b. split; [apply x_b2x|]. split; [apply lx_b2lx|]. split.
  - intros L. apply parse_digest_exact. split; [apply fromhex_back|exact L].
  - intros L. unfold parse_digest. rewrite fromhex_back. cbn [bind]. assert ((blen b =? 32)%N = false) as -> by (unfold blen; lia). reflexivity.
Qed.
Print Assumptions C54_hex_reads_back.

(** Only hex of 32 bytes is accepted. *)
Theorem C54_digest_argument_has_32_bytes : forall s d, parse_digest s = Ok d -> List.length d = 32%nat.
Proof. intros s d H. apply parse_digest_exact in H. apply H. Qed.
Print Assumptions C54_digest_argument_has_32_bytes.

Example C54_instance : b2x [x00; xff; x1a] = "00ff1a" /\ b2lx [x00; xff; x1a] = "1aff00" /\ x_hex "00FF1a" = Ok [x00; xff; x1a] /\
  x_hex "00f" = Err ValueError /\ x_hex "0g" = Err ValueError /\ parse_digest "00ff1a" = Err SystemExit /\ parse_digest (b2x digest2) = Ok digest2.
Proof. repeat split; vm_compute; reflexivity. Qed.

(** C55: whatever bytes are given, what deserialize returns has attributes of the declared
    types and ranges, all the way down. *)
Theorem C55_deserialized_proofs_are_well_typed : forall ct c buf v, wf_table ct -> variant_table ct -> c_kind (ct c) = Plain ->
  deserialize ct c buf = Ok v -> fits ct any_bits (SerProof c) v.
Proof. exact deserialize_fits. Qed.
Print Assumptions C55_deserialized_proofs_are_well_typed.

Example C55_instance : c_kind (ledger BWIT) = Plain /\ deserialize ledger BWIT witness_file1 = Ok (witness tx2 1 0) /\
  deserialize ledger TXIN [x01; x80; x80; x80; x80; x10; x00] = Err DeserializationError.
Proof. split; [reflexivity|]. split; vm_compute; reflexivity. Qed.

(** C56 is false: a witness that was pruned, verified and sent no longer verifies, because
    what verify looked at the output proof's transaction was its hash only. *)
Theorem C56_pruned_witness_verifies_again_refuted : exists ct P w v f r, is_chain ct P /\ wf_table ct /\ object ct (p_bwit P) w /\
  run ct btc_verify (prune ct w) = (Ok tt, v) /\ ser_proof ct v = Ok f /\ deserialize ct (p_bwit P) f = Ok r /\
  outcome ct btc_verify r = Err TypeError.
Proof.
  set (w := witness tx2 1 0). set (v := snd (run ledger btc_verify (prune ledger w))).
  set (f := match ser_proof ledger v with Ok f => f | _ => [] end). set (r := match deserialize ledger BWIT f with Ok r => r | _ => w end).
  exists ledger, chain1, w, v, f, r. split; [exact ledger_chain|]. split; [exact ledger_wf|]. split; [apply witness_ok; [exact tx2_wf|lia..]|].
  split; [vm_compute; reflexivity|]. split; [vm_compute; reflexivity|]. split; vm_compute; reflexivity.
Qed.
Print Assumptions C56_pruned_witness_verifies_again_refuted.

(** C56 when the digest was verified too: the receiver gets the complete witness, on which
    both verifications succeed.  Missing: verify alone (false, see above). *)
Theorem C56_pruned_witness_with_digest_partial : forall ct P w h v1 v2, is_chain ct P -> wf_table ct -> object ct (p_bwit P) w ->
  run ct btc_verify (prune ct w) = (Ok tt, v1) -> run ct (btc_verify_hash h) v1 = (Ok tt, v2) ->
  exists f r, ser_proof ct v2 = Ok f /\ deserialize ct (p_bwit P) f = Ok r /\ r = w /\
    outcome ct btc_verify r = Ok tt /\ outcome ct (btc_verify_hash h) r = Ok tt.
Proof.
  intros ct P w h v1 v2 C W O R1 R2. destruct (sent_witness ct P C w h v1 v2 W O R1 R2) as (f & Ef & Df). exists f, w. split; [exact Ef|]. split; [exact Df|]. split; [reflexivity|].
  pose proof (ProofView_Proofs.prune_shows ct any_bits _ w O) as S0.
  pose proof (ProofReplay_Proofs.run_same ct any_bits btc_verify W _ w _ O S0) as (F1 & _). pose proof (ProofReplay_Proofs.run_shows ct any_bits btc_verify W _ w _ O S0) as (S1 & _).
  rewrite R1 in F1, S1. cbn [fst snd] in F1, S1. pose proof (ProofReplay_Proofs.run_same ct any_bits (btc_verify_hash h) W _ w _ O S1) as (F2 & _).
  rewrite R2 in F2. split; [symmetry; exact F1|symmetry; exact F2].
Qed.
Print Assumptions C56_pruned_witness_with_digest_partial.

Example C56_instance : exists v1 v2, run ledger btc_verify (prune ledger (witness tx2 1 0)) = (Ok tt, v1) /\ run ledger (btc_verify_hash digest1) v1 = (Ok tt, v2) /\
  (do f <- ser_proof ledger v2; deserialize ledger BWIT f) = Ok (witness tx2 1 0).
Proof.
  exists (snd (run ledger btc_verify (prune ledger (witness tx2 1 0)))), (snd (run ledger (btc_verify_hash digest1) (snd (run ledger btc_verify (prune ledger (witness tx2 1 0)))))).
  split; [vm_compute; reflexivity|]. split; vm_compute; reflexivity.
Qed.
