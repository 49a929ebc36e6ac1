(** Properties C59-C66: block headers, blocks, merkle roots and the block checks
    of python-bitcoinlib. *)
From Verif Require Import Base Sha256 Tx_Model Tx_Spec Tx_Proofs Script_Model Block_Model Block_Spec Block_Proofs.
Local Open Scope string_scope.
Local Open Scope list_scope.
Local Open Scope nat_scope.

(** ** Sample blocks *)

(** The genesis block of mainnet, core.py:547. *)
Definition genesis_bytes : bytes := hex "0100000000000000000000000000000000000000000000000000000000000000000000003ba3edfd7a7b12b27ac72c3e67768f617fc81bc3888a51323a9fb8aa4b1e5e4a29ab5f49ffff001d1dac2b7c0101000000010000000000000000000000000000000000000000000000000000000000000000ffffffff4d04ffff001d0104455468652054696d65732030332f4a616e2f32303039204368616e63656c6c6f72206f6e206272696e6b206f66207365636f6e64206261696c6f757420666f722062616e6b73ffffffff0100f2052a01000000434104678afdb0fe5548271967f1a67130b7105cd6a828e03909a67962e0ea1f61deb649f6bc3f4cef38c4f35504e51ec112de5c384df7ba0b8d578a4c702b6bf11d5fac00000000".

(** Not a real block: the value used where the genesis bytes would fail to read. *)
Definition empty_block : block := mkBlock (mkHeader 0 [] [] 0 0 0) [].
Definition genesis : block := match block_de genesis_bytes with Ok (b, _) => b | Err _ => empty_block end.

Definition null_out : outpoint := mkOutPoint (repeat x00 32) 0xffffffff.
Definition coinbase_tx (script : bytes) (vout : list txout) : tx := mkTx [mkTxIn null_out script 0xffffffff] vout 0 1.
Definition spend_tx (pubkey : bytes) : tx := mkTx [mkTxIn (mkOutPoint (repeat xab 32) 7) [x51] 0xffffffff] [mkTxOut 5000 pubkey] 0 1.

(** A regtest block with one transaction besides the coinbase. *)
Definition good_block : block :=
  mkBlock (mkHeader 2 (repeat x11 32) (hex "38c5255de28b451ba77541118df5ea666d8925b0510135f35a44ebb547795a9d") 1000 0x207fffff 0)
          [coinbase_tx [x51; x51] [mkTxOut 5000 [x51]]; spend_tx [x51; xac]].

(** A regtest block whose only transaction has an empty script and no outputs. *)
Definition hollow_block : block :=
  mkBlock (mkHeader 2 (repeat x11 32) (hex "7db3e864cca20b004c9a7c4010966010533087ba81f9b61171cda9064a9f272b") 1000 0x207fffff 0)
          [coinbase_tx [] []].

(** A regtest block with an output whose script ends in the middle of a push. *)
Definition cut_block : block :=
  mkBlock (mkHeader 2 (repeat x11 32) (hex "3c21aa69be99a73c2f30a52f5eecda4f81d69f2cca31c2b420a85381d605a190") 1000 0x207fffff 1)
          [coinbase_tx [x51; x51] [mkTxOut 5000 [x51]]; spend_tx [x51; x05; xaa]].

(** ** C59: codec *)

Theorem C59_header_roundtrip : forall h, wf_header h -> exists enc, header_ser h = Ok enc /\ List.length enc = 80 /\
  (forall rest, header_de (enc ++ rest) = Ok (h, rest)) /\
  (forall pad, bdeserialize header_de pad enc = Ok h) /\
  (forall rest, rest <> [] -> bdeserialize header_de false (enc ++ rest) = Err DeserializationExtraDataError) /\
  (forall p q, enc = p ++ q -> q <> [] -> forall x, header_de p <> Ok x).
Proof.
  intros h W. destruct (header_codec_len h W) as (enc & E & L & _).
  destruct (full_codec _ _ _ header_codec header_extends h W) as (enc' & E' & P). assert (enc' = enc) by congruence. subst. eauto.
Qed.
Print Assumptions C59_header_roundtrip.

Example C59_header_instance : wf_header (b_header good_block) /\
  match header_ser (b_header good_block) with
  | Ok enc => List.length enc = 80 /\ header_de (enc ++ [x99]) = Ok (b_header good_block, [x99])
  | Err _ => False end.
Proof.
  split; [unfold wf_header; cbn; lia|]. vm_compute. split; reflexivity.
Qed.

Theorem C59_block_roundtrip : forall b, wf_block b -> exists enc, block_ser b = Ok enc /\
  (forall rest, block_de (enc ++ rest) = Ok (b, rest)) /\
  (forall pad, bdeserialize block_de pad enc = Ok b) /\
  (forall rest, rest <> [] -> bdeserialize block_de false (enc ++ rest) = Err DeserializationExtraDataError) /\
  (forall p q, enc = p ++ q -> q <> [] -> forall x, block_de p <> Ok x).
Proof. exact (full_codec _ _ _ block_codec block_extends). Qed.
Print Assumptions C59_block_roundtrip.

Theorem C59_deserialized_is_wellformed : forall s b rest, block_de s = Ok (b, rest) -> wf_block b.
Proof. exact block_de_wf. Qed.
Print Assumptions C59_deserialized_is_wellformed.

Example C59_deserialized_instance : block_de (genesis_bytes ++ [x99]) = Ok (genesis, [x99]).
Proof. vm_compute. reflexivity. Qed.

Example C59_instance : block_de genesis_bytes = Ok (genesis, []) /\ block_ser genesis = Ok genesis_bytes /\ List.length (b_vtx genesis) = 1.
Proof. repeat split; vm_compute; reflexivity. Qed.

(** ** C60: the block hash commits to the block *)

(** The only ways out: two different hashed strings with the same hash, or a
    first transaction of exactly 64 bytes. *)
Theorem C60_block_hash_binds : forall l1 l2 b1 b2 p1 p2 n1 n2 h,
  CheckBlock l1 b1 p1 true n1 = Ok tt -> CheckBlock l2 b2 p2 true n2 = Ok tt ->
  block_GetHash b1 = Ok h -> block_GetHash b2 = Ok h ->
  b1 = b2 \/ any_clash b1 b2 \/
  exists b t rest x, (b = b1 \/ b = b2) /\ b_vtx b = t :: rest /\ tx_ser t = Ok x /\ List.length x = 64.
Proof. exact block_hash_binds. Qed.
Print Assumptions C60_block_hash_binds.

Example C60_instance :
  CheckBlock mainnet_limit genesis true true 1700000000 = Ok tt /\
  block_GetHash genesis = Ok (rev (hex "000000000019d6689c085ae165831e934ff763ae46a2a6c172b3f1b60a8ce26f")) /\
  CheckBlock regtest_limit good_block true true 1700000000 = Ok tt /\
  forall x t, In t (b_vtx genesis ++ b_vtx good_block) -> tx_ser t = Ok x -> List.length x <> 64.
Proof.
  split; [vm_compute; reflexivity|]. split; [vm_compute; reflexivity|]. split; [vm_compute; reflexivity|].
  intros x t I E L. assert (F : forallb (fun t => match tx_ser t with Ok x => negb (List.length x =? 64) | Err _ => false end) (b_vtx genesis ++ b_vtx good_block) = true) by (vm_compute; reflexivity).
  rewrite forallb_forall in F. specialize (F t I). rewrite E, L in F. discriminate.
Qed.

(** ** C61: the merkle root and the list of ids *)

(** The full claim (a root determines the list, collisions apart) is false:
    repeating the last id of a list of odd length keeps the root (CVE-2012-2459). *)
Theorem C61_merkle_root_binds_refuted : exists l1 l2 f1 f2 r, all32 l1 /\ all32 l2 /\
  build_merkle_tree l1 = f1 ++ [r] /\ build_merkle_tree l2 = f2 ++ [r] /\ l1 <> l2 /\ ~ clash l1 l2.
Proof.
  exists [repeat x01 32; repeat x02 32; repeat x03 32], [repeat x01 32; repeat x02 32; repeat x03 32; repeat x03 32].
  destruct (merkle_dup_root (repeat x01 32) (repeat x02 32) (repeat x03 32)) as (f1 & f2 & r & E1 & E2). exists f1, f2, r.
  split; [repeat constructor|]. split; [repeat constructor|]. split; [exact E1|]. split; [exact E2|]. split; [discriminate|].
  intros (x & y & X & Y & N & H). apply merkle_hashed_dup, merkle_hashed_three in Y. apply merkle_hashed_three in X.
  assert (B : bytes_eqb (Hash x) (Hash y) = true) by (apply bytes_eqb_eq; exact H).
  destruct X as [-> | [-> | ->]], Y as [-> | [-> | ->]]; try (apply N; reflexivity); vm_compute in B; discriminate B.
Qed.
Print Assumptions C61_merkle_root_binds_refuted.

(** It holds between lists of the same length. *)
Theorem C61_merkle_root_same_length_partial : forall l1 l2 f1 f2 r, all32 l1 -> all32 l2 -> List.length l1 = List.length l2 ->
  build_merkle_tree l1 = f1 ++ [r] -> build_merkle_tree l2 = f2 ++ [r] -> l1 = l2 \/ clash l1 l2.
Proof. exact merkle_same_length. Qed.
Print Assumptions C61_merkle_root_same_length_partial.

(** Two lists of three ids and their roots. *)
Example C61_same_length_instance :
  let l1 := [repeat x01 32; repeat x02 32; repeat x03 32] in let l2 := [repeat x01 32; repeat x02 32; repeat x04 32] in
  all32 l1 /\ all32 l2 /\ List.length l1 = List.length l2 /\ last (build_merkle_tree l1) [] <> last (build_merkle_tree l2) [].
Proof.
  cbv zeta. split; [repeat constructor|]. split; [repeat constructor|]. split; [reflexivity|].
  intros E. apply (f_equal (firstn 1)) in E. vm_compute in E. discriminate.
Qed.

(** Between lists without repetition it can only fail by a collision or by the
    first id of one being an inner node of the other. *)
Theorem C61_merkle_root_distinct_partial : forall l1 l2 f1 f2 r, all32 l1 -> all32 l2 -> NoDup l1 -> NoDup l2 ->
  build_merkle_tree l1 = f1 ++ [r] -> build_merkle_tree l2 = f2 ++ [r] ->
  l1 = l2 \/ clash l1 l2 \/
  exists x, (hd_error l1 = Some (Hash x) /\ merkle_hashed l2 x) \/ (hd_error l2 = Some (Hash x) /\ merkle_hashed l1 x).
Proof. exact merkle_distinct. Qed.
Print Assumptions C61_merkle_root_distinct_partial.

(** The first id of the second list is an inner node of the first. *)
Example C61_distinct_instance :
  let l1 := [repeat x01 32; repeat x02 32; repeat x03 32; repeat x04 32] in
  let l2 := [Hash (repeat x01 32 ++ repeat x02 32); Hash (repeat x03 32 ++ repeat x04 32)] in
  all32 l1 /\ all32 l2 /\ last (build_merkle_tree l1) [] = last (build_merkle_tree l2) [].
Proof.
  cbv zeta. split; [repeat constructor|]. split; [repeat constructor; apply sha256_length|]. vm_compute. reflexivity.
Qed.

(** The computed tree ends in the merkle root. *)
Theorem C61_merkle_root_correct : forall l, l <> [] -> exists r front, build_merkle_tree l = front ++ [r] /\ is_merkle_root l r.
Proof. exact build_merkle_root. Qed.
Print Assumptions C61_merkle_root_correct.

Example C61_instance : all32 [repeat x01 32; repeat x02 32; repeat x03 32] /\ NoDup [repeat x01 32; repeat x02 32; repeat x03 32] /\
  exists front, build_merkle_tree [repeat x01 32; repeat x02 32; repeat x03 32] =
    front ++ [Hash (Hash (repeat x01 32 ++ repeat x02 32) ++ Hash (repeat x03 32 ++ repeat x03 32))].
Proof.
  split; [repeat constructor|]. split; [repeat (constructor; [cbn; intuition discriminate|]); constructor|]. eexists. 
  match goal with |- _ = ?f ++ [?r] => instantiate (1 := [repeat x01 32; repeat x02 32; repeat x03 32; Hash (repeat x01 32 ++ repeat x02 32); Hash (repeat x03 32 ++ repeat x03 32)]) end.
  reflexivity.
Qed.

(** ** C62: CheckTransaction *)

Theorem C62_check_transaction : forall t, CheckTransaction t = Ok tt <-> valid_tx t.
Proof. exact CheckTransaction_iff. Qed.
Print Assumptions C62_check_transaction.

Theorem C62_rejection : forall t, wf_tx t -> ~ valid_tx t -> CheckTransaction t = Err CheckTransactionError.
Proof. exact CheckTransaction_rejects. Qed.
Print Assumptions C62_rejection.

Example C62_rejection_instance : wf_tx (coinbase_tx [x51] [mkTxOut 5000 [x51]]) /\
  CheckTransaction (coinbase_tx [x51] [mkTxOut 5000 [x51]]) = Err CheckTransactionError.
Proof.
  split; [|vm_compute; reflexivity]. unfold wf_tx, coinbase_tx. cbn [t_vin t_vout t_nLockTime t_nVersion].
  split; [apply Forall_cons; [|apply Forall_nil]|split; [apply Forall_cons; [|apply Forall_nil]|]];
    unfold wf_txin, wf_outpoint, wf_txout, wf_script, MAX_SIZE; cbn; lia.
Qed.

Example C62_instance : valid_tx (spend_tx [x51; xac]) /\ valid_tx (coinbase_tx [x51; x51] [mkTxOut 5000 [x51]]) /\
  ~ valid_tx (coinbase_tx [] []) /\ ~ valid_tx (coinbase_tx [x51] [mkTxOut 5000 [x51]]).
Proof.
  split; [apply C62_check_transaction; vm_compute; reflexivity|]. split; [apply C62_check_transaction; vm_compute; reflexivity|].
  split; intros V; apply C62_check_transaction in V; vm_compute in V; discriminate.
Qed.

(** ** C63: CheckBlock checks every transaction *)

(** The full claim is false: the first transaction is not checked. *)
Theorem C63_every_transaction_checked_refuted : exists b, CheckBlock regtest_limit b true true 1000 = Ok tt /\
  exists t, In t (b_vtx b) /\ ~ valid_tx t.
Proof.
  exists hollow_block. split; [vm_compute; reflexivity|]. exists (coinbase_tx [] []). split; [left; reflexivity|].
  intros V. apply (vt_outputs _ V). reflexivity.
Qed.
Print Assumptions C63_every_transaction_checked_refuted.

(** Missing from the full claim: the validity and the signature operations of the
    first transaction.  [checked_block] says what acceptance amounts to. *)
Theorem C63_check_block_partial : forall limit b pow mr now,
  CheckBlock limit b pow mr now = Ok tt <->
  (pow = true -> exists h, block_GetHash b = Ok h /\ CheckProofOfWork limit h (h_nBits (b_header b)) = Ok tt) /\ checked_block b mr now.
Proof. exact CheckBlock_iff. Qed.
Print Assumptions C63_check_block_partial.

Example C63_instance : checked_block good_block true 1000 /\ checked_block genesis true 1700000000.
Proof. split; [apply (C63_check_block_partial regtest_limit good_block true)|apply (C63_check_block_partial mainnet_limit genesis true)]; vm_compute; reflexivity. Qed.

(** ** C64: CheckProofOfWork *)

(** The full claim is false in both directions: a target with the sign bit set is
    accepted as a large positive number, and one given in fewer than three bytes
    ends in a ValueError. *)
Theorem C64_proof_of_work_refuted : exists c1 c2 h, (0 <= c1 < 2 ^ 32)%Z /\ (0 <= c2 < 2 ^ 32)%Z /\ List.length h = 32 /\
  (~ enough_work mainnet_limit h c1 /\ CheckProofOfWork mainnet_limit h c1 = Ok tt) /\
  (enough_work mainnet_limit h c2 /\ CheckProofOfWork mainnet_limit h c2 = Err ValueError).
Proof.
  exists 0x1c800001%Z, 0x02010000%Z, (repeat x00 32). split; [lia|]. split; [lia|]. split; [reflexivity|]. split; split.
  - unfold enough_work. assert (E : (compact_value 0x1c800001 <? 0)%Z = true) by (vm_compute; reflexivity). apply Z.ltb_lt in E. lia.
  - vm_compute. reflexivity.
  - unfold enough_work. split; [split; vm_compute; congruence|vm_compute; congruence].
  - vm_compute. reflexivity.
Qed.
Print Assumptions C64_proof_of_work_refuted.

(** Missing: targets of fewer than three bytes or with the sign bit. *)
Theorem C64_proof_of_work_partial : forall limit h c, (0 <= c < 2 ^ 32)%Z -> (3 <= c / 2 ^ 24)%Z -> Z.testbit c 23 = false -> List.length h = 32 ->
  (CheckProofOfWork limit h c = Ok tt <-> enough_work limit h c) /\
  (~ enough_work limit h c -> CheckProofOfWork limit h c = Err CheckProofOfWorkError).
Proof. exact CheckProofOfWork_meaning. Qed.
Print Assumptions C64_proof_of_work_partial.

Theorem C64_short_target_raises : forall limit h c, (0 <= c < 2 ^ 32)%Z -> (c / 2 ^ 24 < 3)%Z -> CheckProofOfWork limit h c = Err ValueError.
Proof. exact CheckProofOfWork_small. Qed.
Print Assumptions C64_short_target_raises.

Example C64_short_instance : (0 <= 0x02010000 < 2 ^ 32)%Z /\ (0x02010000 / 2 ^ 24 < 3)%Z /\
  CheckProofOfWork mainnet_limit (repeat x00 32) 0x02010000 = Err ValueError.
Proof. split; [lia|]. split; [reflexivity|vm_compute; reflexivity]. Qed.

Example C64_instance : let c := h_nBits (b_header genesis) in (0 <= c < 2 ^ 32)%Z /\ (3 <= c / 2 ^ 24)%Z /\ Z.testbit c 23 = false /\
  compact_value c = (0xffff * 2 ^ 208)%Z.
Proof. vm_compute. repeat split; congruence. Qed.

(** ** C65: only validation errors *)

(** The full claim is false: an output script ending inside a push, which Bitcoin
    allows, makes CheckBlock fail with a script error. *)
Theorem C65_only_validation_errors_refuted : exists b e, wf_block b /\
  CheckBlock regtest_limit b true true 1000 = Err e /\ ~ validation_error e.
Proof.
  exists cut_block, CScriptTruncatedPushDataError. split; [|split].
  - apply (block_ser_wf cut_block (match block_ser cut_block with Ok e => e | Err _ => [] end)); [vm_compute; reflexivity|vm_compute; discriminate].
  - vm_compute. reflexivity.
  - cbn. intuition discriminate.
Qed.
Print Assumptions C65_only_validation_errors_refuted.

(** Missing: blocks with a script that does not parse outside the first
    transaction, and with a target of fewer than three bytes. *)
Theorem C65_only_validation_errors_partial : forall limit b pow mr now e, wf_block b -> (3 <= h_nBits (b_header b) / 2 ^ 24)%Z ->
  Forall (fun t => Forall parses (tx_scripts t)) (tl (b_vtx b)) ->
  CheckBlock limit b pow mr now = Err e -> validation_error e.
Proof. exact CheckBlock_errors. Qed.
Print Assumptions C65_only_validation_errors_partial.

Example C65_instance : wf_block good_block /\ Forall (fun t => Forall parses (tx_scripts t)) (tl (b_vtx good_block)) /\
  CheckBlock mainnet_limit good_block true true 1000 = Err CheckProofOfWorkError.
Proof.
  split; [|split].
  - apply (block_ser_wf good_block (match block_ser good_block with Ok e => e | Err _ => [] end)); [vm_compute; reflexivity|vm_compute; discriminate].
  - repeat constructor; apply parses_spec; reflexivity.
  - vm_compute. reflexivity.
Qed.

(** ** C66: counting signature operations *)

Theorem C66_legacy_count : forall s items, script_iter s = (items, None) -> GetSigOpCount false s = Ok (Nsum (map item_weight items)).
Proof. intros s items H. rewrite (GetSigOpCount_ok s); [|exists items; exact H]. unfold sigops. rewrite H. reflexivity. Qed.
Print Assumptions C66_legacy_count.

(** Accurate counting is false of the code: it raises AttributeError on every
    script in which a small number precedes a multisignature check. *)
Theorem C66_accurate_count_refuted : exists s items, script_iter s = (items, None) /\ accurate_sigops items = 2%N /\
  GetSigOpCount true s = Err AttributeError.
Proof. exists [x52; xae], [CInt 2; COp 0xae]. repeat split. Qed.
Print Assumptions C66_accurate_count_refuted.

Theorem C66_accurate_count_partial : forall s items, script_iter s = (items, None) ->
  (numbered_multisig items -> GetSigOpCount true s = Err AttributeError) /\
  (~ numbered_multisig items -> GetSigOpCount true s = Ok (accurate_sigops items)).
Proof. exact accurate_count. Qed.
Print Assumptions C66_accurate_count_partial.

(** With and without a number before the multisignature check. *)
Example C66_accurate_instance : script_iter [xac; x52; xae] = ([COp 0xac; CInt 2; COp 0xae], None) /\
  GetSigOpCount true [xac; x52; xae] = Err AttributeError /\ GetSigOpCount true [x52; xac; xae] = Ok 21%N.
Proof. repeat split. Qed.

Example C66_instance : script_iter [x01; xac; xac; xaf; xae] = ([CData [xac]; COp 0xac; COp 0xaf; COp 0xae], None) /\
  GetSigOpCount false [x01; xac; xac; xaf; xae] = Ok 41%N /\ GetSigOpCount true [x01; xac; xac; xaf; xae] = Ok 41%N.
Proof. repeat split. Qed.
