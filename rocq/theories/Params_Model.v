(** Executable model of the choice of a network: lib/python-bitcoinlib/bitcoin/__init__.py (cited as bitcoin.py) and the classes of
    parameters in lib/python-bitcoinlib/bitcoin/core/__init__.py (core.py), with the functions that use them. *)
From Verif Require Import Base Tx_Model Block_Model Net_Model Base58_Model Conf_Model.
#[local] Open Scope Z_scope.

(** An object of one of the classes of parameters (core.py:538-559, bitcoin.py:16-46): its attributes, None where the attribute is None or
    missing.  DNS_SEEDS, which nothing uses, is left out; the genesis block is given as the bytes it is read from. *)
Record params := Params {
  NAME : option string; GENESIS_BLOCK : option bytes; SUBSIDY_HALVING_INTERVAL : option Z; PROOF_OF_WORK_LIMIT : option Z;
  START : option bytes; DEFAULT_PORT : option Z; RPC_PORT : option Z; BASE58_PREFIXES : option prefixes }.

(** core.py:538-543 [CoreChainParams]. *)
Definition CoreChainParams : params := Params None None None None None None None None.
(** core.py:545-549 [CoreMainParams(CoreChainParams)]. *)
Definition CoreMainParams : params := let p := CoreChainParams in
  Params (Some "mainnet"%string) (Some (hex "0100000000000000000000000000000000000000000000000000000000000000000000003ba3edfd7a7b12b27ac72c3e67768f617fc81bc3888a51323a9fb8aa4b1e5e4a29ab5f49ffff001d1dac2b7c0101000000010000000000000000000000000000000000000000000000000000000000000000ffffffff4d04ffff001d0104455468652054696d65732030332f4a616e2f32303039204368616e63656c6c6f72206f6e206272696e6b206f66207365636f6e64206261696c6f757420666f722062616e6b73ffffffff0100f2052a01000000434104678afdb0fe5548271967f1a67130b7105cd6a828e03909a67962e0ea1f61deb649f6bc3f4cef38c4f35504e51ec112de5c384df7ba0b8d578a4c702b6bf11d5fac00000000"))
    (Some 210000) (Some mainnet_limit) (START p) (DEFAULT_PORT p) (RPC_PORT p) (BASE58_PREFIXES p).
(** core.py:551-553 [CoreTestNetParams(CoreMainParams)]. *)
Definition CoreTestNetParams : params := let p := CoreMainParams in
  Params (Some "testnet"%string) (Some (hex "0100000000000000000000000000000000000000000000000000000000000000000000003ba3edfd7a7b12b27ac72c3e67768f617fc81bc3888a51323a9fb8aa4b1e5e4adae5494dffff001d1aa4ae180101000000010000000000000000000000000000000000000000000000000000000000000000ffffffff4d04ffff001d0104455468652054696d65732030332f4a616e2f32303039204368616e63656c6c6f72206f6e206272696e6b206f66207365636f6e64206261696c6f757420666f722062616e6b73ffffffff0100f2052a01000000434104678afdb0fe5548271967f1a67130b7105cd6a828e03909a67962e0ea1f61deb649f6bc3f4cef38c4f35504e51ec112de5c384df7ba0b8d578a4c702b6bf11d5fac00000000"))
    (SUBSIDY_HALVING_INTERVAL p) (PROOF_OF_WORK_LIMIT p) (START p) (DEFAULT_PORT p) (RPC_PORT p) (BASE58_PREFIXES p).
(** core.py:555-559 [CoreRegTestParams(CoreTestNetParams)]. *)
Definition CoreRegTestParams : params := let p := CoreTestNetParams in
  Params (Some "regtest"%string) (Some (hex "0100000000000000000000000000000000000000000000000000000000000000000000003ba3edfd7a7b12b27ac72c3e67768f617fc81bc3888a51323a9fb8aa4b1e5e4adae5494dffff7f20020000000101000000010000000000000000000000000000000000000000000000000000000000000000ffffffff4d04ffff001d0104455468652054696d65732030332f4a616e2f32303039204368616e63656c6c6f72206f6e206272696e6b206f66207365636f6e64206261696c6f757420666f722062616e6b73ffffffff0100f2052a01000000434104678afdb0fe5548271967f1a67130b7105cd6a828e03909a67962e0ea1f61deb649f6bc3f4cef38c4f35504e51ec112de5c384df7ba0b8d578a4c702b6bf11d5fac00000000"))
    (Some 150) (Some regtest_limit) (START p) (DEFAULT_PORT p) (RPC_PORT p) (BASE58_PREFIXES p).

(** bitcoin.py:16-46: what the three classes there add to their base class. *)
Definition with_net (p : params) (start : bytes) (port rpc : Z) (pre : prefixes) : params :=
  Params (NAME p) (GENESIS_BLOCK p) (SUBSIDY_HALVING_INTERVAL p) (PROOF_OF_WORK_LIMIT p) (Some start) (Some port) (Some rpc) (Some pre).
(** bitcoin.py:16-27 [MainParams(bitcoin.core.CoreChainParams)]. *)
Definition MainParams : params := with_net CoreChainParams (MESSAGE_START Mainnet) 8333 8332 mainnet.
(** bitcoin.py:29-37 [TestNetParams(bitcoin.core.CoreTestNetParams)]. *)
Definition TestNetParams : params := with_net CoreTestNetParams (MESSAGE_START Testnet) 18333 18332 testnet.
(** bitcoin.py:39-46 [RegTestParams(bitcoin.core.CoreRegTestParams)]. *)
Definition RegTestParams : params := with_net CoreRegTestParams (MESSAGE_START Regtest) 18444 18332 regtest.

(** The two global variables: bitcoin.params and bitcoin.core.coreparams (bitcoin.py:54, core.py:562). *)
Record globals := Globals { g_params : params; g_coreparams : params }.
(** bitcoin.py:54, core.py:562: after the modules were imported. *)
Definition imported : globals := Globals MainParams CoreMainParams.

(** core.py:564-578 [_SelectCoreParams(name)]. *)
Definition SelectCoreParams (name : text) (g : globals) : result unit * globals :=
  if is_text name "mainnet" then (Ok tt, Globals (g_params g) CoreMainParams)
  else if is_text name "testnet" then (Ok tt, Globals (g_params g) CoreTestNetParams)
  else if is_text name "regtest" then (Ok tt, Globals (g_params g) CoreRegTestParams)
  else (Err ValueError, g).

(** bitcoin.py:56-72 [SelectParams(name)]. *)
Definition SelectParams (name : text) (g : globals) : result unit * globals :=
  match SelectCoreParams name g with
  | (Err e, g) => (Err e, g)
  | (Ok _, g) =>
    if is_text name "mainnet" then (Ok tt, Globals MainParams MainParams)
    else if is_text name "testnet" then (Ok tt, Globals TestNetParams TestNetParams)
    else if is_text name "regtest" then (Ok tt, Globals RegTestParams RegTestParams)
    else (Err ValueError, g)
  end.
(** A program that calls SelectParams with these names, and goes on if that raises.  bitcoin.py:56-72. *)
Definition select_all (names : list text) : globals := fold_left (fun g n => snd (SelectParams n g)) names imported.

(** core.py:636-650 [CheckProofOfWork(hash, nBits)]; with a limit of None the second comparison of line 644 raises TypeError. *)
Definition CheckProofOfWork_in (g : globals) (hash : bytes) (nBits : Z) : result unit :=
  match PROOF_OF_WORK_LIMIT (g_coreparams g) with
  | Some limit => CheckProofOfWork limit hash nBits
  | None => do target <- uint256_from_compact nBits; if 0 <? target then Err TypeError else Err CheckProofOfWorkError
  end.
(** core.py:653-670 [CheckBlockHeader]. *)
Definition CheckBlockHeader_in (g : globals) (h : header) (fCheckPoW : bool) (cur_time : Z) : result unit :=
  do _ <- (if fCheckPoW then do x <- header_GetHash h; CheckProofOfWork_in g x (h_nBits h) else Ok tt);
  if cur_time + 2 * 60 * 60 <? h_nTime h then Err CheckBlockHeaderError else Ok tt.
(** core.py:685-734 [CheckBlock]: the header (whose limit does not matter for the rest), then the rest. *)
Definition CheckBlock_in (g : globals) (b : block) (fCheckPoW fCheckMerkleRoot : bool) (cur_time : Z) : result unit :=
  do _ <- CheckBlockHeader_in g (get_header b) fCheckPoW cur_time;
  CheckBlock 0 b false fCheckMerkleRoot cur_time.

(** [bitcoin.params.BASE58_PREFIXES] as lib/python-bitcoinlib/bitcoin/wallet.py:41-242 uses it; it is never missing. *)
Definition prefixes_in (g : globals) : result prefixes :=
  match BASE58_PREFIXES (g_params g) with Some p => Ok p | None => Err AttributeError end.
(** wallet.py:37-50, lib/python-bitcoinlib/bitcoin/base58.py:104-111 [CBitcoinAddress(text)]. *)
Definition CBitcoinAddress_in (g : globals) (s : text) : result address := do p <- prefixes_in g; CBitcoinAddress p s.
(** wallet.py:52-73 [CBitcoinAddress.from_scriptPubKey]. *)
Definition from_scriptPubKey_in (g : globals) (spk : bytes) : result address := do p <- prefixes_in g; from_scriptPubKey p spk.
(** wallet.py:228-244, base58.py:104-111 [CBitcoinSecret(text)]. *)
Definition CBitcoinSecret_in (g : globals) (s : text) : result secret := do p <- prefixes_in g; CBitcoinSecret p s.
(** wallet.py:109-112, 196-199 [address.to_scriptPubKey()]: the address may have been made while another network was chosen. *)
Definition to_scriptPubKey_in (g : globals) (a : address) : result bytes := do p <- prefixes_in g; to_scriptPubKey p a.
(** lib/python-bitcoinlib/bitcoin/rpc.py:91-93: the port used when the configuration file and the caller name none. *)
Definition port_in (g : globals) : result Z := match RPC_PORT (g_params g) with Some p => Ok p | None => Err AttributeError end.

(** lib/python-bitcoinlib/bitcoin/messages.py:54 [to_bytes(params=MainParams())] without an argument: the default was made when the class
    was defined, the variables play no role. *)
Definition to_bytes_in (other : string -> option bytes) (g : globals) (m : msg) : result bytes := to_bytes other Mainnet m.
(** messages.py:77 [stream_deserialize(f, params=MainParams())] likewise. *)
Definition stream_deserialize_in (g : globals) (s : bytes) : result (option msg * bytes) := stream_deserialize Mainnet s.
