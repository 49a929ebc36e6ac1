(** Vocabulary for the properties of the example programs: arguments, nodes that keep a chain or a wallet, bootstrap files,
    transactions that commit to a digest. *)
From Verif Require Import Base Sha256 Tx_Model Tx_Spec Block_Model Base58_Model Money_Spec Grammar_Spec Net_Model Net_Spec Rpc_Model Rpc_Spec Conf_Model Prog_Model.
#[local] Open Scope string_scope.
#[local] Open Scope list_scope.

(** The name of a network. *)
Definition network_name (c : chain) : string := match c with Mainnet => "mainnet" | Testnet => "testnet" | Regtest => "regtest" end.
(** The command line asks for the blocks up to height [n] of a network. *)
Definition asks_for (argv : list text) (n : Z) (c : chain) : Prop :=
  exists t, t <> [] /\ number t n /\ ((argv = [t] /\ c = Mainnet) \/ argv = [t; list_ascii_of_string (network_name c)]).

(** The node keeps a chain of blocks, at most 32 MiB each, known by their hashes; it reports an error for a height beyond the last one. *)
Definition keeps (node : list json -> reply) (hashes : list bytes) (blocks : list block) : Prop :=
  List.length hashes = List.length blocks /\
  (forall s i h b, nth_error hashes i = Some h -> nth_error blocks i = Some b ->
    answers node s "getblockhash" [JInt (Z.of_nat i)] (hash_text h) /\
    exists e, block_bytes b e /\ (blen e <= MAX_SIZE)%N /\ answers node s "getblock" [hash_text h; JBool false] (bytes_text e)) /\
  (forall s i, List.length blocks <= i -> exists e, reports node s "getblockhash" [JInt (Z.of_nat i)] e /\ proper_error e).

(** A file of blocks: for each the start bytes of the network, the length in four bytes, and the block. *)
Inductive boot_file (c : chain) : list block -> bytes -> Prop :=
| boot_end : boot_file c [] []
| boot_more : forall b bs e len r, block_bytes b e -> le_signed 4 (Z.of_N (blen e)) len -> boot_file c bs r ->
    boot_file c (b :: bs) (magic c ++ len ++ e ++ r).

(** The requests for blocks with these hashes, from height [i] on; the first has the number [k]. *)
Fixpoint boot_requests (k i : Z) (hashes : list bytes) : list json :=
  match hashes with
  | [] => []
  | h :: hs => request k "getblockhash" [JInt i] :: request (k + 1) "getblock" [hash_text h; JBool false] :: boot_requests (k + 2) (i + 1) hs
  end.

(** The node has a wallet with an unspent output in it, hands out addresses of its own, signs what it is asked to and takes every transaction. *)
Definition wallet (node : list json -> reply) : Prop := forall s,
  (exists ds fs, ds <> [] /\ Forall2 (unspent mainnet) ds fs /\ answers node s "listunspent" [JInt 0; JInt 9999999] (JArr (map JObj ds))) /\
  (exists t a, addr_text mainnet a t /\ answers node s "getnewaddress" [] (JStr t)) /\
  (forall t a, addr_text mainnet a t -> exists d u k, answers node s "validateaddress" [JStr t] (JObj d) /\ NoDup (map fst d) /\
     holds "isvalid" (JBool true) d /\ holds "address" (JStr t) d /\ holds "pubkey" (JStr u) d /\ hex_text u k /\ List.length k = 33%nat) /\
  (forall b, exists t b', tx_text t b' /\ answers node s "signrawtransaction" [bytes_text b] (JObj [("hex", bytes_text b'); ("complete", JBool true)])) /\
  (forall b, exists h, answers node s "sendrawtransaction" [bytes_text b] (hash_text h)).

(** A transaction was sent that has an output script of OP_RETURN and the digest. *)
Definition published (requests : list json) (digest : bytes) : Prop :=
  exists k b t o, In (request k "sendrawtransaction" [bytes_text b]) requests /\ tx_text t b /\ In o (t_vout t) /\
    o_scriptPubKey o = x6a :: Nb (blen digest) :: digest.
