(** Proofs about the choice of a network. *)
From Verif Require Import Base Tx_Model Block_Model Block_Spec Block_Proofs Net_Model Base58_Model Base58_Spec Base58_Proofs Conf_Model Conf_Proofs Prog_Model Params_Model Params_Spec.
#[local] Open Scope Z_scope.

(** The three objects that SelectParams makes. *)
Definition object (c : chain) : params := match c with Mainnet => MainParams | Testnet => TestNetParams | Regtest => RegTestParams end.

Lemma is_named name l : is_text name l = if list_eq_dec Ascii.ascii_dec name (list_ascii_of_string l) then true else false.
Proof.
  destruct (list_eq_dec _ _ _) as [->|N].
  - apply is_text_iff. reflexivity.
  - destruct (is_text name l) eqn:E; [|reflexivity]. apply is_text_iff in E. contradiction.
Qed.

Lemma select_step name g : Params_Model.SelectParams name g =
  match named name with Some c => (Ok tt, Globals (object c) (object c)) | None => (Err ValueError, g) end.
Proof.
  unfold Params_Model.SelectParams, SelectCoreParams, named. rewrite !is_named.
  do 3 (destruct (list_eq_dec _ _ _); [reflexivity|]). reflexivity.
Qed.

(** The simpler model that the example programs use agrees. *)
Lemma select_prog name g : fst (Params_Model.SelectParams name g) = bind (Prog_Model.SelectParams name) (fun _ => Ok tt).
Proof.
  rewrite select_step. unfold Prog_Model.SelectParams, named. rewrite !is_named.
  do 3 (destruct (list_eq_dec _ _ _); [reflexivity|]). reflexivity.
Qed.

Lemma last_snoc names n : last_chosen (names ++ [n]) = match named n with Some c => Some c | None => last_chosen names end.
Proof.
  unfold last_chosen. rewrite flat_map_app, rev_app_distr. cbn [flat_map]. destruct (named n); reflexivity.
Qed.

Lemma select_state names : select_all names = match last_chosen names with Some c => Globals (object c) (object c) | None => imported end.
Proof.
  induction names as [|n names IH] using rev_ind; [reflexivity|].
  unfold select_all in *. rewrite fold_left_app. cbn [fold_left]. rewrite IH, select_step, last_snoc. destruct (named n); reflexivity.
Qed.

Lemma select_outcome names n : (fst (Params_Model.SelectParams n (select_all names)) = Ok tt <-> named n <> None) /\
  (named n = None -> Params_Model.SelectParams n (select_all names) = (Err ValueError, select_all names)) /\
  select_all (names ++ [n]) = snd (Params_Model.SelectParams n (select_all names)).
Proof.
  split; [|split].
  - rewrite select_step. destruct (named n); cbn [fst]; split; intros H; [discriminate|reflexivity|discriminate|congruence].
  - intros H. rewrite select_step, H. reflexivity.
  - unfold select_all. rewrite fold_left_app. reflexivity.
Qed.

(** What everything but the rules of the chain uses. *)
Lemma select_values names : let g := select_all names in let c := in_force names in
  prefixes_in g = Ok (Prefixes (pubkey_prefix c) (script_prefix c) (secret_prefix c)) /\
  port_in g = Ok (rpcport_of c) /\ DEFAULT_PORT (g_params g) = Some (port_of c) /\ START (g_params g) = Some (start_of c).
Proof. cbn zeta. rewrite select_state. unfold in_force. destruct (last_chosen names) as [[]|]; repeat apply conj; reflexivity. Qed.

Lemma prefixes_names names : prefixes_in (select_all names) = Ok (prefixes_of (in_force names)).
Proof. rewrite select_state. unfold in_force. destruct (last_chosen names) as [[]|]; reflexivity. Qed.

(** The rules of the chain, when mainnet was not chosen by name. *)
Lemma select_core names : last_chosen names <> Some Mainnet -> let p := g_coreparams (select_all names) in let c := in_force names in
  NAME p = Some (name_of c) /\ SUBSIDY_HALVING_INTERVAL p = Some (halving_of c) /\ PROOF_OF_WORK_LIMIT p = Some (limit_of c).
Proof.
  intros H. cbn zeta. rewrite select_state. unfold in_force. destruct (last_chosen names) as [[]|]; [contradiction| | |]; repeat apply conj; reflexivity.
Qed.

Lemma header_in g limit h pow now : PROOF_OF_WORK_LIMIT (g_coreparams g) = Some limit -> CheckBlockHeader_in g h pow now = CheckBlockHeader limit h pow now.
Proof. intros H. unfold CheckBlockHeader_in, CheckProofOfWork_in. rewrite H. reflexivity. Qed.

Lemma block_in g limit b pow mr now : PROOF_OF_WORK_LIMIT (g_coreparams g) = Some limit -> CheckBlock_in g b pow mr now = CheckBlock limit b pow mr now.
Proof.
  intros H. unfold CheckBlock_in. rewrite (header_in g limit) by exact H. unfold CheckBlock at 1.
  unfold CheckBlockHeader at 2. unfold CheckBlock.
  destruct (CheckBlockHeader limit (get_header b) pow now) as [[]|e] eqn:E; [|reflexivity]. cbn [bind].
  unfold CheckBlockHeader in E. destruct (if pow then _ else _) as [[]|]; [|discriminate]. cbn [bind] in E.
  destruct (now + 2 * 60 * 60 <? h_nTime (get_header b)); [discriminate|]. reflexivity.
Qed.

Lemma core_checks names : last_chosen names <> Some Mainnet ->
  (forall hash bits, CheckProofOfWork_in (select_all names) hash bits = CheckProofOfWork (limit_of (in_force names)) hash bits) /\
  (forall h pow now, CheckBlockHeader_in (select_all names) h pow now = CheckBlockHeader (limit_of (in_force names)) h pow now) /\
  (forall b pow mr now, CheckBlock_in (select_all names) b pow mr now = CheckBlock (limit_of (in_force names)) b pow mr now).
Proof.
  intros H. destruct (select_core names H) as (_ & _ & L). repeat apply conj; intros.
  - unfold CheckProofOfWork_in. rewrite L. reflexivity.
  - apply header_in, L.
  - apply block_in, L.
Qed.

(** Time only helps. *)
Lemma CheckBlock_later limit b pow mr now now' : now <= now' -> CheckBlock limit b pow mr now = Ok tt -> CheckBlock limit b pow mr now' = Ok tt.
Proof.
  intros L. unfold CheckBlock, CheckBlockHeader. destruct (if pow then _ else _) as [[]|]; [|discriminate]. cbn [bind].
  destruct (now + 2 * 60 * 60 <? h_nTime (get_header b)) eqn:E; [discriminate|].
  destruct (now' + 2 * 60 * 60 <? h_nTime (get_header b)) eqn:E'; [lia|]. cbn [bind]. trivial.
Qed.

(** The genesis blocks. *)
Definition genesis_good (c : chain) (p : params) : Prop := exists enc b, GENESIS_BLOCK p = Some enc /\ bdeserialize block_de false enc = Ok b /\
  block_GetHash b = Ok (genesis_hash c) /\ h_nTime (b_header b) = genesis_time c /\ CheckBlock (limit_of c) b true true (genesis_time c - 7200) = Ok tt.
Lemma genesis_main : genesis_good Mainnet CoreMainParams.
Proof. do 2 eexists. split; [reflexivity|]. split; [vm_compute; reflexivity|]. repeat apply conj; vm_compute; reflexivity. Qed.
Lemma genesis_test : genesis_good Testnet TestNetParams.
Proof. do 2 eexists. split; [reflexivity|]. split; [vm_compute; reflexivity|]. repeat apply conj; vm_compute; reflexivity. Qed.
Lemma genesis_reg : genesis_good Regtest RegTestParams.
Proof. do 2 eexists. split; [reflexivity|]. split; [vm_compute; reflexivity|]. repeat apply conj; vm_compute; reflexivity. Qed.

Lemma CheckBlock_too_early limit b pow mr now : now + 7200 < h_nTime (b_header b) -> CheckBlock limit b pow mr now <> Ok tt.
Proof.
  intros L. unfold CheckBlock, CheckBlockHeader, get_header. destruct (if pow then _ else _) as [[]|]; [|discriminate]. cbn [bind].
  replace (now + 2 * 60 * 60) with (now + 7200) by lia. destruct (now + 7200 <? h_nTime (b_header b)) eqn:E; [discriminate|lia].
Qed.

Lemma core_genesis names : last_chosen names <> Some Mainnet -> exists enc b,
  GENESIS_BLOCK (g_coreparams (select_all names)) = Some enc /\ bdeserialize block_de false enc = Ok b /\
  block_GetHash b = Ok (genesis_hash (in_force names)) /\
  (forall now, CheckBlock_in (select_all names) b true true now = Ok tt <-> genesis_time (in_force names) - 7200 <= now).
Proof.
  intros H. assert (G : genesis_good (in_force names) (g_coreparams (select_all names))).
  { rewrite select_state. unfold in_force. destruct (last_chosen names) as [[]|]; [contradiction|exact genesis_test|exact genesis_reg|exact genesis_main]. }
  destruct G as (enc & b & E & D & Hh & Ht & C). exists enc, b. split; [exact E|]. split; [exact D|]. split; [exact Hh|]. intros now.
  destruct (core_checks names H) as (_ & _ & K). rewrite K. split.
  - intros P. destruct (Z_le_gt_dec (genesis_time (in_force names) - 7200) now); [assumption|]. exfalso.
    revert P. apply CheckBlock_too_early. lia.
  - intros L. exact (CheckBlock_later _ _ _ _ _ _ L C).
Qed.

(** After mainnet was chosen by name. *)
Lemma main_by_name names : last_chosen names = Some Mainnet -> let g := select_all names in
  NAME (g_coreparams g) = None /\ GENESIS_BLOCK (g_coreparams g) = None /\ SUBSIDY_HALVING_INTERVAL (g_coreparams g) = None /\ PROOF_OF_WORK_LIMIT (g_coreparams g) = None /\
  (forall hash bits, CheckProofOfWork_in g hash bits <> Ok tt) /\
  (forall hash bits t, uint256_from_compact bits = Ok t -> 0 < t -> CheckProofOfWork_in g hash bits = Err TypeError) /\
  (forall b mr now, CheckBlock_in g b true mr now <> Ok tt).
Proof.
  intros H. cbn zeta. rewrite select_state, H.
  assert (N : forall hash bits, CheckProofOfWork_in (Globals (object Mainnet) (object Mainnet)) hash bits <> Ok tt).
  { intros hash bits. unfold CheckProofOfWork_in. cbn [g_coreparams object MainParams with_net PROOF_OF_WORK_LIMIT CoreChainParams].
    destruct (uint256_from_compact bits); [|discriminate]. cbn [bind]. destruct (0 <? _); discriminate. }
  repeat apply conj; try reflexivity.
  - exact N.
  - intros hash bits t E L. unfold CheckProofOfWork_in. cbn [g_coreparams object MainParams with_net PROOF_OF_WORK_LIMIT CoreChainParams].
    rewrite E. cbn [bind]. destruct (0 <? t) eqn:Z; [reflexivity|lia].
  - intros b mr now. unfold CheckBlock_in, CheckBlockHeader_in. destruct (header_GetHash (get_header b)) as [x|]; [|discriminate]. cbn [bind].
    specialize (N x (h_nBits (get_header b))). destruct (CheckProofOfWork_in _ _ _) as [[]|]; [contradiction|discriminate].
Qed.

(** Without the proof of work the choice does not matter. *)
Lemma no_pow names b mr now : CheckBlock_in (select_all names) b false mr now = CheckBlock 0 b false mr now.
Proof.
  unfold CheckBlock_in, CheckBlockHeader_in. cbn [bind]. unfold CheckBlock, CheckBlockHeader. cbn [bind].
  destruct (now + 2 * 60 * 60 <? h_nTime (get_header b)); reflexivity.
Qed.

(** Addresses and secrets. *)
Lemma same_kind names names' : test_like (in_force names) = test_like (in_force names') ->
  (forall s, CBitcoinAddress_in (select_all names) s = CBitcoinAddress_in (select_all names') s) /\
  (forall s, CBitcoinSecret_in (select_all names) s = CBitcoinSecret_in (select_all names') s) /\
  (forall s, from_scriptPubKey_in (select_all names) s = from_scriptPubKey_in (select_all names') s) /\
  (forall a, to_scriptPubKey_in (select_all names) a = to_scriptPubKey_in (select_all names') a).
Proof.
  intros H. unfold CBitcoinAddress_in, CBitcoinSecret_in, from_scriptPubKey_in, to_scriptPubKey_in. rewrite !prefixes_names. cbn [bind].
  destruct (in_force names), (in_force names'); try discriminate; repeat apply conj; reflexivity.
Qed.

Lemma chain_network c : network (prefixes_of c).
Proof. destruct c; unfold network; cbn; tauto. Qed.

Lemma other_kind names names' : test_like (in_force names) <> test_like (in_force names') ->
  (forall s a, CBitcoinAddress_in (select_all names) s = Ok a ->
     CBitcoinAddress_in (select_all names') s = Err CBitcoinAddressError /\ to_scriptPubKey_in (select_all names') a = Err AssertionError) /\
  (forall s k, CBitcoinSecret_in (select_all names) s = Ok k -> CBitcoinSecret_in (select_all names') s = Err CBitcoinSecretError).
Proof.
  intros D. unfold CBitcoinAddress_in, CBitcoinSecret_in, to_scriptPubKey_in. rewrite !prefixes_names. cbn [bind].
  pose proof (chain_network (in_force names)) as Hn. split.
  - intros s a H. destruct (address_accepted _ _ _ Hn H) as [V _]. split.
    + revert H. unfold CBitcoinAddress.
      destruct (new_cases (address_from_bytes (prefixes_of (in_force names))) s) as [[_ E]|[(v & d & C & E)|(_ & _ & E)]]; rewrite E; intros H; try discriminate.
      rewrite (new_checked _ s v d C). pose proof (bN_lt v).
      apply address_from_ok in H as (Ev & _ & _); [|exact Hn|lia].
      unfold address_from_bytes. rewrite Ev. unfold base58_from_bytes.
      destruct (in_force names), (in_force names'), (a_class a); try (exfalso; apply D; reflexivity); reflexivity.
    + unfold to_scriptPubKey. rewrite V. destruct (in_force names), (in_force names'), (a_class a); try (exfalso; apply D; reflexivity); reflexivity.
  - intros s k. unfold CBitcoinSecret. destruct (CBase58Data s) as [d|]; [|discriminate]. cbn [bind]. unfold secret_init. intros H.
    destruct (d_nVersion d =? SECRET_KEY (prefixes_of (in_force names)))%N eqn:E; [|discriminate]. apply N.eqb_eq in E. rewrite E.
    destruct (in_force names), (in_force names'); try (exfalso; apply D; reflexivity); reflexivity.
Qed.

(** Messages. *)
Lemma always_main other names m b : to_bytes_in other (select_all names) m = Ok b -> firstn 4 b = hex "f9beb4d9".
Proof.
  unfold to_bytes_in, to_bytes. destruct (msg_ser other m) as [body|]; [|discriminate]. cbn [bind]. destruct (pack_u 4 _) as [len|]; [|discriminate].
  cbn [bind]. intros [= <-]. reflexivity.
Qed.
Lemma only_main names s m : stream_deserialize_in (select_all names) s = Ok m -> firstn 4 s = hex "f9beb4d9".
Proof.
  unfold stream_deserialize_in, stream_deserialize. unfold ser_read. intros H.
  destruct (_ <? _)%N; [discriminate|]. destruct (_ <? _)%N; [discriminate|]. cbn [bind] in H.
  destruct (bytes_eqb _ _) eqn:E in H; [|discriminate]. apply bytes_eqb_eq in E. change (N.to_nat 24) with 24%nat in E. rewrite firstn_firstn in E. exact E.
Qed.
