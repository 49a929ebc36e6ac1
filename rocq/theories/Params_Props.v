(** Property C162: the network that SelectParams chooses is the one everything works with. *)
From Verif Require Import Base Tx_Model Block_Model Block_Spec Block_Props Net_Model Base58_Model Conf_Model Prog_Model Params_Model Params_Spec Params_Proofs.
#[local] Open Scope Z_scope.

(** Whatever names were given before, a call of SelectParams fails exactly if the name is not one of the three, with ValueError, and then
    changes nothing. *)
Theorem C162_names : forall names n,
  (fst (Params_Model.SelectParams n (select_all names)) = Ok tt <-> named n <> None) /\
  (named n = None -> Params_Model.SelectParams n (select_all names) = (Err ValueError, select_all names)) /\
  select_all (names ++ [n]) = snd (Params_Model.SelectParams n (select_all names)).
Proof. exact select_outcome. Qed.
Print Assumptions C162_names.

Example C162_names_instance : fst (Params_Model.SelectParams (txt "regtest") (select_all [txt "testnet"])) = Ok tt /\
  named (txt "regtest") = Some Regtest /\ named (txt "signet") = None /\
  fst (Params_Model.SelectParams (txt "signet") (select_all [txt "testnet"])) = Err ValueError /\
  in_force [txt "testnet"; txt "signet"] = Testnet /\ in_force [txt "signet"] = Mainnet.
Proof. repeat apply conj; vm_compute; reflexivity. Qed.

(** The parts that follow the choice: the prefixes of addresses and secrets, the ports, the start bytes of the parameters. *)
Theorem C162_values : forall names, let g := select_all names in let c := in_force names in
  prefixes_in g = Ok (Prefixes (pubkey_prefix c) (script_prefix c) (secret_prefix c)) /\
  port_in g = Ok (rpcport_of c) /\ DEFAULT_PORT (g_params g) = Some (port_of c) /\ START (g_params g) = Some (start_of c).
Proof. exact select_values. Qed.
Print Assumptions C162_values.

Example C162_values_instance : let g := select_all [txt "testnet"; txt "mainnet"; txt "Testnet"; txt "regtest"; txt ""] in
  in_force [txt "testnet"; txt "mainnet"; txt "Testnet"; txt "regtest"; txt ""] = Regtest /\
  DEFAULT_PORT (g_params g) = Some 18444 /\ START (g_params g) = Some (hex "fabfb5da") /\ DEFAULT_PORT (g_params (select_all [])) = Some 8333.
Proof. repeat apply conj; vm_compute; reflexivity. Qed.

(** Texts and addresses: between mainnet and a test network nothing read under the one choice is accepted under the other, and an address kept
    makes no script there; between the two test networks nothing changes. *)
Theorem C162_other_kind : forall names names', test_like (in_force names) <> test_like (in_force names') ->
  (forall s a, CBitcoinAddress_in (select_all names) s = Ok a ->
     CBitcoinAddress_in (select_all names') s = Err CBitcoinAddressError /\ to_scriptPubKey_in (select_all names') a = Err AssertionError) /\
  (forall s k, CBitcoinSecret_in (select_all names) s = Ok k -> CBitcoinSecret_in (select_all names') s = Err CBitcoinSecretError).
Proof. exact other_kind. Qed.
Print Assumptions C162_other_kind.

Theorem C162_same_kind : forall names names', test_like (in_force names) = test_like (in_force names') ->
  (forall s, CBitcoinAddress_in (select_all names) s = CBitcoinAddress_in (select_all names') s) /\
  (forall s, CBitcoinSecret_in (select_all names) s = CBitcoinSecret_in (select_all names') s) /\
  (forall s, from_scriptPubKey_in (select_all names) s = from_scriptPubKey_in (select_all names') s) /\
  (forall a, to_scriptPubKey_in (select_all names) a = to_scriptPubKey_in (select_all names') a).
Proof. exact same_kind. Qed.
Print Assumptions C162_same_kind.

Example C162_kinds_instance : let s := txt "1A1zP1eP5QGefi2DMPTfTL5SLmv7DivfNa" in let a := Address P2PKH 0 (hex "62e907b15cbf27d5425399ebf6f0fb50ebb88f18") in
  test_like (in_force []) <> test_like (in_force [txt "testnet"]) /\ test_like (in_force [txt "regtest"]) = test_like (in_force [txt "testnet"]) /\
  CBitcoinAddress_in (select_all []) s = Ok a /\ CBitcoinAddress_in (select_all [txt "testnet"]) s = Err CBitcoinAddressError /\
  to_scriptPubKey_in (select_all []) a = Ok (hex "76a91462e907b15cbf27d5425399ebf6f0fb50ebb88f1888ac") /\
  to_scriptPubKey_in (select_all [txt "testnet"]) a = Err AssertionError /\
  (exists a', CBitcoinAddress_in (select_all [txt "testnet"]) (txt "mipcBbFg9gMiCh81Kj8tqqdgoZub1ZJRfn") = Ok a' /\
    CBitcoinAddress_in (select_all [txt "testnet"; txt "regtest"]) (txt "mipcBbFg9gMiCh81Kj8tqqdgoZub1ZJRfn") = Ok a').
Proof.
  cbn zeta. split; [vm_compute; discriminate|]. do 5 (split; [vm_compute; reflexivity|]). eexists. split; [vm_compute; reflexivity|]. vm_compute. reflexivity.
Qed.

(** The full claim for the rules of the chain, "the limit on targets and the genesis block are those of the network in force", is false: after
    mainnet was chosen by its name, though it is the default, there is no limit and no genesis block, and no proof of work is accepted; every
    check that gets to comparing the target raises TypeError, also for mainnet's own genesis block, which passed before the call. *)
Theorem C162_rules_refuted :
  (forall names, last_chosen names = Some Mainnet -> let g := select_all names in
     NAME (g_coreparams g) = None /\ GENESIS_BLOCK (g_coreparams g) = None /\ SUBSIDY_HALVING_INTERVAL (g_coreparams g) = None /\
     PROOF_OF_WORK_LIMIT (g_coreparams g) = None /\
     (forall hash bits, CheckProofOfWork_in g hash bits <> Ok tt) /\
     (forall hash bits t, uint256_from_compact bits = Ok t -> 0 < t -> CheckProofOfWork_in g hash bits = Err TypeError) /\
     (forall b mr now, CheckBlock_in g b true mr now <> Ok tt)) /\
  CheckBlock_in (select_all []) genesis true true 1700000000 = Ok tt /\
  CheckBlock_in (select_all [txt "mainnet"]) genesis true true 1700000000 = Err TypeError.
Proof. split; [exact main_by_name|]. split; vm_compute; reflexivity. Qed.
Print Assumptions C162_rules_refuted.

(** What holds: if the last known name, if any, was not mainnet's, the rules are those of the network in force, *)
Theorem C162_rules_partial : forall names, last_chosen names <> Some Mainnet -> let g := select_all names in let c := in_force names in
  NAME (g_coreparams g) = Some (name_of c) /\ SUBSIDY_HALVING_INTERVAL (g_coreparams g) = Some (halving_of c) /\
  PROOF_OF_WORK_LIMIT (g_coreparams g) = Some (limit_of c) /\
  (forall hash bits, CheckProofOfWork_in g hash bits = CheckProofOfWork (limit_of c) hash bits) /\
  (forall h pow now, CheckBlockHeader_in g h pow now = CheckBlockHeader (limit_of c) h pow now) /\
  (forall b pow mr now, CheckBlock_in g b pow mr now = CheckBlock (limit_of c) b pow mr now).
Proof.
  intros names H. cbn zeta. destruct (select_core names H) as (A & B & C). destruct (core_checks names H) as (D & E & F).
  repeat apply conj; assumption.
Qed.
Print Assumptions C162_rules_partial.

(** and the genesis block reads, has the published hash, and passes every check at all times but those more than two hours before it. *)
Theorem C162_genesis_partial : forall names, last_chosen names <> Some Mainnet -> exists enc b,
  GENESIS_BLOCK (g_coreparams (select_all names)) = Some enc /\ bdeserialize block_de false enc = Ok b /\
  block_GetHash b = Ok (genesis_hash (in_force names)) /\
  (forall now, CheckBlock_in (select_all names) b true true now = Ok tt <-> genesis_time (in_force names) - 7200 <= now).
Proof. exact core_genesis. Qed.
Print Assumptions C162_genesis_partial.

(** Checks without the proof of work do not depend on the choice at all. *)
Theorem C162_without_work : forall names b mr now, CheckBlock_in (select_all names) b false mr now = CheckBlock 0 b false mr now.
Proof. exact no_pow. Qed.
Print Assumptions C162_without_work.

Example C162_rules_instance : last_chosen [txt "mainnet"; txt "regtest"] = Some Regtest /\ last_chosen [txt "none"] = None /\
  CheckBlock_in (select_all [txt "mainnet"; txt "regtest"]) good_block true true 1700000000 = Ok tt /\
  CheckBlock_in (select_all [txt "none"]) good_block true true 1700000000 = Err CheckProofOfWorkError /\
  CheckBlock_in (select_all [txt "mainnet"]) good_block false true 1700000000 = Ok tt.
Proof. repeat apply conj; vm_compute; reflexivity. Qed.

(** The full claim for network messages, "to_bytes() without an argument marks the message with the start bytes of the network in force", is
    false as well: they are always mainnet's, and reading accepts no others. *)
Theorem C162_messages_refuted :
  (forall other names m b, to_bytes_in other (select_all names) m = Ok b -> firstn 4 b = start_of Mainnet) /\
  (forall names s m, stream_deserialize_in (select_all names) s = Ok m -> firstn 4 s = start_of Mainnet) /\
  (exists b, to_bytes_in (fun _ => None) (select_all [txt "testnet"]) MGetAddr = Ok b /\ firstn 4 b <> start_of (in_force [txt "testnet"])) /\
  (exists b, to_bytes (fun _ => None) Testnet MGetAddr = Ok b /\ stream_deserialize_in (select_all [txt "testnet"]) b = Err ValueError).
Proof.
  split; [exact always_main|]. split; [exact only_main|]. split; eexists; (split; [vm_compute; reflexivity|]); vm_compute; [discriminate|reflexivity].
Qed.
Print Assumptions C162_messages_refuted.
