(** Vocabulary for the properties of the RPC proxy: requests, answers of a node, amounts, numbers that
    read as the same float. *)
From Verif Require Import Base Tx_Model Tx_Spec Block_Model Base58_Model Base58_Spec Net_Spec Grammar_Spec Rpc_Model.
#[local] Open Scope string_scope.
#[local] Open Scope list_scope.
#[local] Open Scope Z_scope.

(** The body of a request, by its number, method and arguments. *)
Definition request (n : Z) (name : string) (args : list json) : json :=
  JObj [("version", JStr "1.1"); ("method", JStr name); ("params", JArr args); ("id", JInt n)].

(** The proxy after one more request. *)
Definition after (s : proxy) (name : string) (args : list json) : proxy :=
  Px (id_count s + 1) (sent s ++ [request (id_count s + 1) name args]).

(** The reply of the node to that request. *)
Definition reply_to (node : list json -> reply) (s : proxy) (name : string) (args : list json) (r : reply) : Prop :=
  node (sent s ++ [request (id_count s + 1) name args]) = r.

(** [r] is an object in which [k] has the value [v] (the first one, should there be several); or in which there is no [k]. *)
Definition holds {A} (k : string) (v : A) (l : list (string * A)) : Prop :=
  exists l1 l2, l = l1 ++ (k, v) :: l2 /\ ~ In k (map fst l1).
Definition entry (k : string) (v : json) (r : json) : Prop := exists l, r = JObj l /\ holds k v l.
Definition no_entry (k : string) (r : json) : Prop := exists l, r = JObj l /\ ~ In k (map fst l).

(** The node answers that request with the result [j]; or it reports an error. *)
Definition answers node s name args (j : json) : Prop :=
  exists r, reply_to node s name args (Answer r) /\ entry "error" JNull r /\ entry "result" j r.
Definition reports node s name args (error : json) : Prop :=
  exists r, reply_to node s name args (Answer r) /\ entry "error" error r /\ error <> JNull.
(** An error as nodes report them: it has a message and a number. *)
Definition proper_error (error : json) : Prop := exists m n, entry "message" m error /\ entry "code" (JInt n) error.

(** The name by which the node knows a method. *)
Definition method_name (c : rpc) : string :=
  match c with
  | GetAccountAddress _ => "getaccountaddress" | GetBalance _ _ => "getbalance"
  | GetBlock _ => "getblock" | GetBlockHash _ => "getblockhash" | GetInfo => "getinfo"
  | GetNewAddress _ => "getnewaddress" | GetRawChangeAddress => "getrawchangeaddress" | GetRawMempool _ => "getrawmempool"
  | GetRawTransaction _ _ => "getrawtransaction" | GetReceivedByAddress _ _ => "getreceivedbyaddress"
  | GetTransaction _ => "gettransaction" | GetTxOut _ _ => "gettxout"
  | ListUnspent _ _ _ => "listunspent" | LockUnspent _ _ => "lockunspent"
  | SendRawTransaction _ _ => "sendrawtransaction" | SendToAddress _ _ => "sendtoaddress"
  | SignRawTransaction _ _ => "signrawtransaction" | SubmitBlock _ _ => "submitblock"
  | ValidateAddress _ => "validateaddress" | AddNode _ | AddNodeOneTry _ | RemoveNode _ => "addnode"
  | Other name _ => name
  end.
(** Requests with consecutive numbers. *)
Fixpoint numbered (k : Z) (l : list json) : Prop :=
  match l with [] => True | b :: l' => (exists name args, b = request k name args) /\ numbered (k + 1) l' end.

(** The JSON number [j] is [v / 10^8]: [v] base units, written in coins. *)
Definition coins (j : json) (v : Z) : Prop :=
  match j with
  | JInt z => v = z * 10 ^ 8
  | JDec (Dec c e) => (0 <= e + 8 /\ v = c * 10 ^ (e + 8)) \/ (e + 8 < 0 /\ c = v * 10 ^ (- (e + 8)))
  | _ => False
  end.

(** A text for a hash as nodes write it, for other bytes, and for an address. *)
Definition hash_text (h : bytes) : json := JStr (to_hex (rev h)).
Definition bytes_text (b : bytes) : json := JStr (to_hex b).

(** The number [n / d] is at most half a unit in the last place away from the float, so its text may read as that float. *)
Definition reads_as (n d : Z) (f : float) : Prop :=
  if f_man f =? 0 then n = 0
  else if 0 <=? f_exp f then 2 * Z.abs (n - f_man f * 2 ^ f_exp f * d) <= 2 ^ f_exp f * d
  else 2 * Z.abs (n * 2 ^ (- f_exp f) - f_man f * d) <= d.

(** [s] is [b] in hex digits of either case. *)
Definition digit_text (c : ascii) (n : nat) : Prop :=
  String.get n "0123456789abcdef" = Some c \/ String.get n "0123456789ABCDEF" = Some c.
Inductive hex_text : string -> bytes -> Prop :=
| hex_nil : hex_text "" []
| hex_cons : forall c1 c2 n1 n2 x s b, digit_text c1 n1 -> digit_text c2 n2 -> bN x = N.of_nat (16 * n1 + n2) -> hex_text s b ->
    hex_text (String c1 (String c2 s)) (x :: b).

(** The node replies with anything but a result: no response, an error, or nothing at all in its answer. *)
Inductive failure (r : reply) : Prop :=
| fail_none : r = NoReply -> failure r
| fail_error : forall b e m n, r = Answer b -> entry "error" e b -> e <> JNull -> entry "message" m e -> entry "code" n e ->
    (match n with JInt _ | JBool _ | JDec _ | JFloat _ => True | _ => False end) -> failure r
| fail_empty : forall b, r = Answer b -> entry "error" JNull b -> no_entry "result" b -> failure r.

(** The methods that report a missing thing by IndexError. *)
Definition lookup (c : rpc) : bool :=
  match c with GetBlock _ | GetBlockHash _ | GetRawTransaction _ _ | GetTransaction _ => true | _ => false end.

(** [s] is the text of the address [a] on a network. *)
Definition addr_text (pr : prefixes) (a : address) (s : string) : Prop :=
  exists v, bN v = version_of pr (a_class a) /\ a_nVersion a = bN v /\ list_ascii_of_string s = b58encode (with_checksum v (a_data a)).

(** [d'] is [d] without the names [removed] and with the entries [added]. *)
Definition rewritten (d : list (string * json)) (removed : list string) (added : list (string * pv)) (d' : list (string * pv)) : Prop :=
  NoDup (map fst d') /\
  (forall k v, In (k, v) added -> holds k v d') /\
  (forall k, In k removed -> ~ In k (map fst d')) /\
  (forall k, ~ In k removed -> ~ In k (map fst added) -> forall v, holds k v d' <-> exists j, v = PJ j /\ holds k j d).

(** An entry of the list of unspent outputs, and what it says: outpoint, address, script, amount. *)
Definition unspent (pr : prefixes) (d : list (string * json)) (f : outpoint * address * bytes * Z) : Prop :=
  let '(o, a, s, v) := f in
  NoDup (map fst d) /\ List.length (o_hash o) = 32%nat /\ 0 <= o_n o < 2 ^ 32 /\
  (exists t, holds "txid" (JStr t) d /\ hex_text t (rev (o_hash o))) /\ holds "vout" (JInt (o_n o)) d /\
  (exists t, holds "address" (JStr t) d /\ addr_text pr a t) /\
  (exists t, holds "scriptPubKey" (JStr t) d /\ hex_text t s) /\
  (exists j, holds "amount" j d /\ coins j v /\ Z.abs v < 10 ^ 28).
(** The same for one unspent output asked for: its amount, script and the best block. *)
Definition unspent_output (d : list (string * json)) (f : txout * bytes) : Prop :=
  let '(o, b) := f in
  NoDup (map fst d) /\
  (exists j, holds "value" j d /\ coins j (o_nValue o) /\ Z.abs (o_nValue o) < 10 ^ 28) /\
  (exists j t, holds "scriptPubKey" j d /\ entry "hex" (JStr t) j /\ hex_text t (o_scriptPubKey o)) /\
  (exists t, holds "bestblock" (JStr t) d /\ hex_text t (rev b)).

(** What a method sends to the node, as its documentation lists the arguments. *)
Inductive asks (pr : prefixes) : rpc -> list json -> Prop :=
| ask_account : forall a, asks pr (GetAccountAddress (Some a)) [JStr a]
| ask_no_account : asks pr (GetAccountAddress None) [JNull]
| ask_balance : forall a m, asks pr (GetBalance a m) [JStr a; JInt m]
| ask_block : forall h, asks pr (GetBlock h) [hash_text h; JBool false]
| ask_block_hash : forall n, asks pr (GetBlockHash n) [JInt n]
| ask_info : asks pr GetInfo []
| ask_new : asks pr (GetNewAddress None) []
| ask_new_account : forall a, asks pr (GetNewAddress (Some a)) [JStr a]
| ask_change : asks pr GetRawChangeAddress []
| ask_pool : asks pr (GetRawMempool false) []
| ask_pool_verbose : asks pr (GetRawMempool true) [JBool true]
| ask_tx : forall h, asks pr (GetRawTransaction h false) [hash_text h; JInt 0]
| ask_tx_verbose : forall h, asks pr (GetRawTransaction h true) [hash_text h; JInt 1]
| ask_received : forall a t m, addr_text pr a t -> asks pr (GetReceivedByAddress a m) [JStr t; JInt m]
| ask_transaction : forall h, asks pr (GetTransaction h) [hash_text h]
| ask_txout : forall h n m, asks pr (GetTxOut (mkOutPoint h n) m) [hash_text h; JInt n; JBool m]
| ask_unspent : forall a b, asks pr (ListUnspent a b None) [JInt a; JInt b]
| ask_unspent_of : forall a b l ts, Forall2 (addr_text pr) l ts -> asks pr (ListUnspent a b (Some l)) [JInt a; JInt b; JArr (map JStr ts)]
| ask_lock : forall u l js, Forall2 (fun o j => j = JObj [("txid", hash_text (o_hash o)); ("vout", JInt (o_n o))]) l js ->
    asks pr (LockUnspent u l) [JBool u; JArr js]
| ask_send : forall t b, tx_text t b -> asks pr (SendRawTransaction t false) [bytes_text b]
| ask_send_fees : forall t b, tx_text t b -> asks pr (SendRawTransaction t true) [bytes_text b; JBool true]
| ask_pay : forall a t v f, addr_text pr a t -> (forall n d, 0 < d -> reads_as n d f -> 2 * Z.abs (n * 10 ^ 8 - v * d) < d) ->
    asks pr (SendToAddress a v) [JStr t; JFloat f]
| ask_sign : forall t b l, tx_text t b -> asks pr (SignRawTransaction t l) (bytes_text b :: l)
| ask_submit : forall k b, block_bytes k b -> asks pr (SubmitBlock k None) [bytes_text b]
| ask_submit_with : forall k b p, block_bytes k b -> asks pr (SubmitBlock k (Some p)) [bytes_text b; p]
| ask_valid : forall a t, addr_text pr a t -> asks pr (ValidateAddress a) [JStr t]
| ask_add : forall n, asks pr (AddNode n) [JStr n; JStr "add"]
| ask_try : forall n, asks pr (AddNodeOneTry n) [JStr n; JStr "onetry"]
| ask_remove : forall n, asks pr (RemoveNode n) [JStr n; JStr "remove"]
| ask_other : forall name args, asks pr (Other name args) args.

(** Arguments that a method can send: addresses of the network in use, transactions and blocks with fields in range
    and of at most 32 MiB, money, a name that is no special name of Python. *)
Definition on_network (pr : prefixes) (a : address) : Prop := a_nVersion a = version_of pr (a_class a).
Definition sendable (pr : prefixes) (c : rpc) : Prop :=
  match c with
  | GetReceivedByAddress a _ | ValidateAddress a => on_network pr a
  | ListUnspent _ _ (Some l) => Forall (on_network pr) l
  | SendRawTransaction t _ | SignRawTransaction t _ => exists b, tx_text t b /\ (blen b <= MAX_SIZE)%N
  | SubmitBlock k _ => exists b, block_bytes k b /\ (blen b <= MAX_SIZE)%N
  | SendToAddress a v => on_network pr a /\ 0 <= v <= 2100000000000000
  | Other name _ => (forall x, name <> "__" ++ x)%string \/ (forall x, name <> x ++ "__")%string
  | _ => True
  end.
