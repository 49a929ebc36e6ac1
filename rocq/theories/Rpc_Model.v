(** Executable model of lib/python-bitcoinlib/bitcoin/rpc.py (cited as rpc.py): the calls of a proxy
    to a bitcoin node.  The node is a parameter: what it answers may depend on all requests it
    got so far.  JSON is modelled as values, not as text; the libraries json, http.client
    and decimal are modelled by what is used of them here. *)
From Verif Require Import Base Hex_Model Tx_Model Block_Model Base58_Model.
#[local] Open Scope string_scope.
#[local] Open Scope list_scope.

(** ** JSON values *)

(** decimal.Decimal: [d_coef * 10^d_exp]; the sign of zero plays no role here.
    json.loads(parse_float=decimal.Decimal) of rpc.py:184-185. *)
Record decimal := Dec { d_coef : Z; d_exp : Z }.

(** A Python float that is not zero, infinite or NaN is [f_man * 2^f_exp]; zero is [f_man = 0].  rpc.py:421. *)
Record float := Flt { f_man : Z; f_exp : Z }.

(** What json.dumps writes and json.loads(..., parse_float=decimal.Decimal) returns (rpc.py:134, 184-185).
    Floats are only written, Decimals only read.  NaN and Infinity, which json.loads would also
    read, are left out.  No name is twice in an object. *)
Inductive json :=
| JNull | JBool (b : bool) | JInt (z : Z) | JDec (d : decimal) | JFloat (f : float)
| JStr (s : string) | JArr (l : list json) | JObj (l : list (string * json)).

(** What the methods return: JSON as it came, or an object of bitcoinlib, or a dict or list with such
    in it.  rpc.py:211-468. *)
Inductive pv :=
| PJ (j : json) | PInt (z : Z) | PBytes (b : bytes) | PTx (t : tx) | PBlock (b : block)
| PAddr (a : address) | POut (o : outpoint) | PTxOut (o : txout)
| PNone | PDict (l : list (string * pv)) | PList (l : list pv).

(** Python's dicts, in the order of insertion: d[k], d[k] = v, del d[k].
    [d[k]] (rpc.py:260-261, 313, 367-371, 390-396, 432, 451-454). *)
Fixpoint dget {A} (k : string) (d : list (string * A)) : option A :=
  match d with [] => None | (k', v) :: d' => if String.eqb k k' then Some v else dget k d' end.
(** [d[k] = v] (rpc.py:260-261, 313, 320, 367, 371, 390-396, 432, 452-454). *)
Fixpoint dset {A} (k : string) (v : A) (d : list (string * A)) : list (string * A) :=
  match d with [] => [(k, v)] | (k', v') :: d' => if String.eqb k k' then (k, v) :: d' else (k', v') :: dset k v d' end.
(** [del d[k]] (rpc.py:314-319, 369-370, 391-392, 433). *)
Fixpoint ddel {A} (k : string) (d : list (string * A)) : result (list (string * A)) :=
  match d with
  | [] => Err KeyError
  | (k', v') :: d' => if String.eqb k k' then Ok d' else do r <- ddel k d'; Ok ((k', v') :: r)
  end.
(** Several [del] after each other (rpc.py:314-319, 369-370, 391-392). *)
Fixpoint ddels {A} (ks : list string) (d : list (string * A)) : result (list (string * A)) :=
  match ks with [] => Ok d | k :: ks' => do d <- ddel k d; ddels ks' d end.

(** [r['name']] for a JSON value: only objects have names, a text or list has only numbers.
    rpc.py:260, 313, 367, 390, 432, 451. *)
Definition as_dict (j : json) : result (list (string * json)) := match j with JObj l => Ok l | _ => Err TypeError end.
(** [j[k]] (rpc.py:260, 313, 367, 390, 432, 451). *)
Definition key {A} (k : string) (d : list (string * A)) : result A := match dget k d with Some v => Ok v | None => Err KeyError end.
(** [j[k]] (rpc.py:241-242, 368). *)
Definition item (k : string) (j : json) : result json := do d <- as_dict j; key k d.
(** [d[k]] of a dict in which entries may have been replaced, where JSON is expected.
    rpc.py:261, 320, 371, 394-396, 452-454. *)
Definition plain (l : list (string * json)) : list (string * pv) := map (fun p => (fst p, PJ (snd p))) l.

(** [if j:].  rpc.py:451. *)
Definition truth (j : json) : bool :=
  match j with
  | JNull => false | JBool b => b | JInt z => negb (z =? 0)%Z | JDec d => negb (d_coef d =? 0)%Z | JFloat f => negb (f_man f =? 0)%Z
  | JStr s => negb (String.eqb s "") | JArr l => negb (List.length l =? 0)%nat | JObj l => negb (List.length l =? 0)%nat
  end.

(** [for x in j]: a dict gives its names, a text its characters.  rpc.py:293, 389. *)
Definition iterate (j : json) : result (list json) :=
  match j with
  | JArr l => Ok l
  | JObj l => Ok (map (fun p => JStr (fst p)) l)
  | JStr s => Ok (map (fun c => JStr (String c "")) (list_ascii_of_string s))
  | _ => Err TypeError
  end.

(** ** Amounts *)

(** Number of decimal digits, one for 0; [S (N.size_nat n)] is enough fuel.  For the precision of Decimal (rpc.py:226). *)
Fixpoint ndigits (fuel : nat) (n : N) : nat :=
  match fuel with
  | O => 1
  | S fuel' => if (n <? 10)%N then 1 else S (ndigits fuel' (n / 10))
  end.
(** For the precision of Decimal (rpc.py:226). *)
Definition length10 (n : N) : nat := ndigits (S (N.size_nat n)) n.

(** Decimal's rounding to the 28 digits of the default context, half to even.  rpc.py:226, 260-261, 339, 367, 396. *)
Definition dec_fix (d : decimal) : decimal :=
  let a := Z.abs (d_coef d) in
  let k := (Z.of_nat (length10 (Z.to_N a)) - 28)%Z in
  if (k <=? 0)%Z then d
  else
    let p := (10 ^ k)%Z in
    let q := (a / p)%Z in
    let r := (a mod p)%Z in
    let q := if ((p <? 2 * r) || ((2 * r =? p) && Z.odd q))%Z then (q + 1)%Z else q in
    Dec (Z.sgn (d_coef d) * q) (d_exp d + k).
(** [d * COIN] for a Decimal; decimal.Overflow (a number of more than a million digits) is written
    OverflowError.  rpc.py:226, 260-261, 339, 367, 396. *)
Definition dec_times (d : decimal) (n : Z) : result decimal :=
  let r := dec_fix (Dec (d_coef d * n) (d_exp d)) in
  if negb (d_coef r =? 0)%Z && (999999 <? d_exp r + Z.of_nat (length10 (Z.to_N (Z.abs (d_coef r)))) - 1)%Z then Err OverflowError
  else Ok r.
(** [int(d)]: towards zero.  rpc.py:226, 260-261, 339, 367, 396. *)
Definition dec_int (d : decimal) : Z :=
  if (0 <=? d_exp d)%Z then (d_coef d * 10 ^ d_exp d)%Z else Z.quot (d_coef d) (10 ^ (- d_exp d)).
(** rpc.py:226, 260-261, 339, 367, 396: [int(r * COIN)].  A text is repeated a hundred million times by
    this and then no number; floats are not read. *)
Definition amount (j : json) : result Z :=
  match j with
  | JInt z => Ok (z * COIN)%Z
  | JBool b => Ok (if b then COIN else 0%Z)
  | JDec d => do r <- dec_times d COIN; Ok (dec_int r)
  | JStr _ => Err ValueError
  | JNull | JFloat _ | JArr _ | JObj _ => Err TypeError
  end.

(** A positive quotient [n / d] rounded to 53 bits, half to even: what IEEE division gives for numbers
    that are neither too small nor too large for a float.  rpc.py:421. *)
Definition round_to (n d e : Z) : Z :=
  let '(n, d) := if (0 <=? e)%Z then (n, d * 2 ^ e)%Z else (n * 2 ^ (- e), d)%Z in
  let q := (n / d)%Z in
  let r := (n mod d)%Z in
  if ((d <? 2 * r) || ((2 * r =? d) && Z.odd q))%Z then (q + 1)%Z else q.
(** rpc.py:421: the division. *)
Definition fround (n d : Z) : float :=
  if (n =? 0)%Z then Flt 0 0 else
  let e0 := (Z.log2 n - Z.log2 d - 53)%Z in
  (* 2^52 < n / (d * 2^e0) < 2^54 *)
  let e := if ((if (0 <=? e0)%Z then d * 2 ^ e0 * 2 ^ 53 <=? n else d * 2 ^ 53 <=? n * 2 ^ (- e0))%Z : bool) then (e0 + 1)%Z else e0 in
  Flt (round_to n d e) e.
(** rpc.py:421 [float(amount)/COIN] for an int: float() rounds too and raises OverflowError from 2^1024 on
    (and, by rounding, a little below, which is left out). *)
Definition float_amount (amount : Z) : result float :=
  let a := Z.abs amount in
  if (2 ^ 1024 <=? a)%Z then Err OverflowError
  else
    let f := fround a 1 in
    let g := if (0 <=? f_exp f)%Z then fround (f_man f * 2 ^ f_exp f) COIN else fround (f_man f) (COIN * 2 ^ (- f_exp f)) in
    Ok (Flt (Z.sgn amount * f_man g) (f_exp g)).

(** ** Calls *)

(** What comes of a call: a value, a JSONRPCException with its attribute [error] (rpc.py:50-54), or another exception. *)
Inductive outcome (A : Type) := Val (a : A) | Rpc (error : json) | Exc (e : exn).
Arguments Val {A} a. Arguments Rpc {A} error. Arguments Exc {A} e.

(** What http.client and json make of an answer (rpc.py:178-185): an exception of theirs, no response, or a value. *)
Inductive reply := Broken (e : exn) | NoReply | Answer (j : json).

(** A proxy: its counter of requests and the bodies of the requests sent so far.  rpc.py:108-151. *)
Record proxy := Px { id_count : Z; sent : list json }.
(** rpc.py:114. *)
Definition new_proxy : proxy := Px 0 [].

Section Calls.
Context (node : list json -> reply) (pr : prefixes).

(** Code of rpc.py:131-468: it uses the proxy and may raise. *)
Definition M (A : Type) : Type := proxy -> outcome A * proxy.
(** [return a] (rpc.py:131-468). *)
Definition ret {A} (a : A) : M A := fun s => (Val a, s).
(** A step of rpc.py:211-468 that does not use the proxy and may raise. *)
Definition lift {A} (r : result A) : M A := fun s => (match r with Ok a => Val a | Err e => Exc e end, s).
(** One statement after another, stopping at an exception (rpc.py:131-468). *)
Definition mbind {A B} (m : M A) (k : A -> M B) : M B :=
  fun s => match m s with (Val a, s') => k a s' | (Rpc e, s') => (Rpc e, s') | (Exc e, s') => (Exc e, s') end.
Notation "'let!' x ':=' m 'in' k" := (mbind m (fun x => k)) (at level 200, x name, m at level 100, k at level 200).

(** rpc.py:50-54 [raise JSONRPCException(error)]: an error without message or code raises another
    exception. *)
Definition rpc_error (error : json) : outcome json :=
  match item "message" error with
  | Err e => Exc e
  | Ok _ => match item "code" error with Err e => Exc e | Ok _ => Rpc error end
  end.
(** rpc.py:148-149: the error object made there. *)
Definition missing (code : Z) (message : string) : json := JObj [("code", JInt code); ("message", JStr message)].

(** rpc.py:134-137: the body of a request. *)
Definition body (n : Z) (name : string) (args : list json) : json :=
  JObj [("version", JStr "1.1"); ("method", JStr name); ("params", JArr args); ("id", JInt n)].

(** rpc.py:144-151 with 178-185: what is made of the answer. *)
Definition response (r : reply) : outcome json :=
  match r with
  | Broken e => Exc e
  | NoReply => rpc_error (missing (-342) "missing HTTP response from server")
  | Answer r =>
    match item "error" r with
    | Err e => Exc e
    | Ok JNull => match item "result" r with Ok j => Val j | Err _ => rpc_error (missing (-343) "missing JSON-RPC result") end
    | Ok error => rpc_error error
    end
  end.

(** rpc.py:131-151 [_call(service_name, *args)]. *)
Definition call (name : string) (args : list json) : M json := fun s =>
  let n := (id_count s + 1)%Z in
  let b := sent s ++ [body n name args] in
  (response (node b), Px n b).

(** rpc.py:168-185 [_batch]: the answer is returned as it is. *)
Definition batch (calls : list json) : M json := fun s =>
  let b := sent s ++ [JArr calls] in
  (match node b with Broken e => Exc e | NoReply => rpc_error (missing (-342) "missing HTTP response from server") | Answer j => Val j end,
   Px (id_count s) b).

(** rpc.py:154-165 [__getattr__] and the function it returns: a method that is not defined is called by name. *)
Definition dunder (name : string) : bool :=
  String.prefix "__" name && String.eqb (String.substring (String.length name - 2) 2 name) "__".
(** rpc.py:154-165: the call. *)
Definition other (name : string) (args : list json) : M json :=
  if dunder name then lift (Err AttributeError) else call name args.

(** [except JSONRPCException as ex: raise IndexError('%s (%d)' % (ex.error['message'], ex.error['code']))] of
    rpc.py:240-242, 252-254, 309-311, 350-352: %d takes numbers only. *)
Definition or_index_error (m : M json) : M json := fun s =>
  match m s with
  | (Rpc error, s') =>
    (match item "message" error, item "code" error with
     | Ok _, Ok (JInt _ | JBool _ | JDec _ | JFloat _) => Exc IndexError
     | Ok _, Ok _ => Exc TypeError
     | Err e, _ | _, Err e => Exc e
     end, s')
  | r => r
  end.

(** ** Conversions *)

(** unhexlify of rpc.py:46 and lx of lib/python-bitcoinlib/bitcoin/core/__init__.py:58-64, applied to what is not a text. *)
Definition text_of (j : json) : result string := match j with JStr s => Ok s | _ => Err AttributeError end.
(** unhexlify (rpc.py:46). *)
Definition unhexlify (j : json) : result bytes := do s <- text_of j; x_hex s.
(** lx (lib/python-bitcoinlib/bitcoin/core/__init__.py:58-64). *)
Definition lx_of (j : json) : result bytes := do s <- text_of j; lx s.
(** rpc.py:47. *)
Definition hexlify (b : bytes) : json := JStr (b2x b).
(** b2lx, as in rpc.py:234. *)
Definition hash_arg (b : bytes) : json := JStr (b2lx b).

(** [CBitcoinAddress(r)] (lib/python-bitcoinlib/bitcoin/base58.py:67-69, 104-111).  What counts as false is
    taken for the empty text; simplified: a list or dict of texts, which would be read like a text, raises TypeError. *)
Definition address_of (j : json) : result address :=
  match j with
  | JStr s => CBitcoinAddress pr (list_ascii_of_string s)
  | _ => if truth j then Err TypeError else CBitcoinAddress pr []
  end.
(** [str(addr)].  rpc.py:338, 385, 420, 450. *)
Definition addr_arg (a : address) : result json := do s <- address_str a; Ok (JStr (string_of_list_ascii s)).

(** [COutPoint(hash, n)] (lib/python-bitcoinlib/bitcoin/core/__init__.py:125-131) for [n] from JSON; True is 1.  Simplified: a
    Decimal is kept by the code, and refused here. *)
Definition outpoint_of (h : bytes) (n : json) : result outpoint :=
  if negb (blen h =? 32)%N then Err ValueError
  else match n with JInt z => outpoint_new h z | JBool b => outpoint_new h (if b then 1 else 0)%Z | _ => Err TypeError end.
(** [CTransaction.deserialize(unhexlify(h))] and the same for blocks (rpc.py:243, 313, 322, 432). *)
Definition tx_of (j : json) : result tx := do b <- unhexlify j; bdeserialize tx_de false b.
(** rpc.py:243. *)
Definition block_of (j : json) : result block := do b <- unhexlify j; bdeserialize block_de false b.

(** ** Methods *)

(** rpc.py:214-217 [getaccountaddress]; None is JSON's null. *)
Definition opt_str (s : option string) : json := match s with Some s => JStr s | None => JNull end.
(** rpc.py:214-217: the method. *)
Definition getaccountaddress (account : option string) : M pv :=
  let! r := call "getaccountaddress" [opt_str account] in
  let! a := lift (address_of r) in ret (PAddr a).

(** rpc.py:219-226. *)
Definition getbalance (account : string) (minconf : Z) : M pv :=
  let! r := call "getbalance" [JStr account; JInt minconf] in
  let! v := lift (amount r) in ret (PInt v).

(** rpc.py:228-243; the argument is bytes. *)
Definition getblock (block_hash : bytes) : M pv :=
  let! r := or_index_error (call "getblock" [hash_arg block_hash; JBool false]) in
  let! b := lift (block_of r) in ret (PBlock b).

(** rpc.py:245-254: the conversion stands inside of the try and raises nothing that is caught there. *)
Definition getblockhash (height : Z) : M pv :=
  let! r := or_index_error (call "getblockhash" [JInt height]) in
  let! h := lift (lx_of r) in ret (PBytes h).

(** rpc.py:256-262. *)
Definition getinfo : M pv :=
  let! r := call "getinfo" [] in
  let! d := lift (as_dict r) in
  let! e := lift (match dget "balance" d with
                  | Some b => do v <- amount b; Ok (dset "balance" (PInt v) (plain d))
                  | None => Ok (plain d)
                  end) in
  let! f := lift (do x <- key "paytxfee" d; amount x) in
  ret (PDict (dset "paytxfee" (PInt f) e)).

(** rpc.py:264-276. *)
Definition getnewaddress (account : option string) : M pv :=
  let! r := call "getnewaddress" (match account with Some a => [JStr a] | None => [] end) in
  let! a := lift (address_of r) in ret (PAddr a).

(** rpc.py:278-284. *)
Definition getrawchangeaddress : M pv :=
  let! r := call "getrawchangeaddress" [] in
  let! a := lift (address_of r) in ret (PAddr a).

(** rpc.py:286-294. *)
Fixpoint all {A B} (f : A -> result B) (l : list A) : result (list B) :=
  match l with [] => Ok [] | a :: l' => do b <- f a; do r <- all f l'; Ok (b :: r) end.
(** rpc.py:286-294: the method. *)
Definition getrawmempool (verbose : bool) : M pv :=
  if verbose then let! r := call "getrawmempool" [JBool true] in ret (PJ r)
  else
    let! r := call "getrawmempool" [] in
    let! l := lift (do l <- iterate r; all lx_of l) in ret (PList (map PBytes l)).

(** rpc.py:312-321: the verbose answer. *)
Definition raw_verbose (r : json) : result pv :=
  do d <- as_dict r;
  do h <- key "hex" d;
  do t <- tx_of h;
  do e <- ddels ["hex"; "txid"; "version"; "locktime"; "vin"; "vout"] (dset "tx" (PTx t) (plain d));
  do b <- match dget "blockhash" d with Some b => do h <- lx_of b; Ok (PBytes h) | None => Ok PNone end;
  Ok (PDict (dset "blockhash" b e)).
(** rpc.py:296-324. *)
Definition getrawtransaction (txid : bytes) (verbose : bool) : M pv :=
  let! r := or_index_error (call "getrawtransaction" [hash_arg txid; JInt (if verbose then 1 else 0)]) in
  if verbose then lift (raw_verbose r)
  else let! t := lift (tx_of r) in ret (PTx t).

(** rpc.py:326-339. *)
Definition getreceivedbyaddress (addr : address) (minconf : Z) : M pv :=
  let! a := lift (addr_arg addr) in
  let! r := call "getreceivedbyaddress" [a; JInt minconf] in
  let! v := lift (amount r) in ret (PInt v).

(** rpc.py:341-353. *)
Definition gettransaction (txid : bytes) : M pv :=
  let! r := or_index_error (call "gettransaction" [hash_arg txid]) in ret (PJ r).

(** rpc.py:367-371. *)
Definition txout_of (r : json) : result pv :=
  do d <- as_dict r;
  do x <- key "value" d; do v <- amount x;
  do s <- key "scriptPubKey" d; do h <- item "hex" s; do script <- unhexlify h;
  do e <- ddels ["value"; "scriptPubKey"] (dset "txout" (PTxOut (mkTxOut v script)) (plain d));
  do b <- key "bestblock" d; do b <- lx_of b;
  Ok (PDict (dset "bestblock" (PBytes b) e)).
(** rpc.py:355-372. *)
Definition gettxout (o : outpoint) (includemempool : bool) : M pv :=
  let! r := call "gettxout" [hash_arg (o_hash o); JInt (o_n o); JBool includemempool] in
  match r with
  | JNull => lift (Err IndexError)
  | _ => lift (txout_of r)
  end.

(** rpc.py:390-397: one entry of the answer. *)
Definition unspent_of (j : json) : result pv :=
  do d <- as_dict j;
  do t <- key "txid" d; do h <- lx_of t; do n <- key "vout" d; do o <- outpoint_of h n;
  do e <- ddels ["txid"; "vout"] (dset "outpoint" (POut o) (plain d));
  do a <- key "address" d; do a <- address_of a;
  do s <- key "scriptPubKey" d; do s <- unhexlify s;
  do v <- key "amount" d; do v <- amount v;
  Ok (PDict (dset "amount" (PInt v) (dset "scriptPubKey" (PBytes s) (dset "address" (PAddr a) e)))).
(** rpc.py:374-398. *)
Definition listunspent (minconf maxconf : Z) (addrs : option (list address)) : M pv :=
  let! args := lift (match addrs with
                     | Some l => do l <- all addr_arg l; Ok [JInt minconf; JInt maxconf; JArr l]
                     | None => Ok [JInt minconf; JInt maxconf]
                     end) in
  let! r := call "listunspent" args in
  let! l := lift (do l <- iterate r; all unspent_of l) in ret (PList l).

(** rpc.py:400-403. *)
Definition lock_entry (o : outpoint) : json := JObj [("txid", hash_arg (o_hash o)); ("vout", JInt (o_n o))].
(** rpc.py:400-403: the method. *)
Definition lockunspent (unlock : bool) (l : list outpoint) : M pv :=
  let! r := call "lockunspent" [JBool unlock; JArr (map lock_entry l)] in ret (PJ r).

(** rpc.py:405-416. *)
Definition sendrawtransaction (t : tx) (allowhighfees : bool) : M pv :=
  let! b := lift (tx_ser t) in
  let! r := call "sendrawtransaction" (hexlify b :: if allowhighfees then [JBool true] else []) in
  let! h := lift (lx_of r) in ret (PBytes h).

(** rpc.py:418-423; the amount is an int. *)
Definition sendtoaddress (addr : address) (value : Z) : M pv :=
  let! a := lift (addr_arg addr) in
  let! f := lift (float_amount value) in
  let! r := call "sendtoaddress" [a; JFloat f] in
  let! h := lift (lx_of r) in ret (PBytes h).

(** rpc.py:425-434. *)
Definition signrawtransaction (t : tx) (args : list json) : M pv :=
  let! b := lift (tx_ser t) in
  let! r := call "signrawtransaction" (hexlify b :: args) in
  lift (do d <- as_dict r; do h <- key "hex" d; do t <- tx_of h;
        do e <- ddel "hex" (dset "tx" (PTx t) (plain d)); Ok (PDict e)).

(** rpc.py:436-446. *)
Definition submitblock (b : block) (params : option json) : M pv :=
  let! s := lift (block_ser b) in
  let! r := call "submitblock" (hexlify s :: match params with Some p => [p] | None => [] end) in ret (PJ r).

(** rpc.py:448-455. *)
Definition validateaddress (a : address) : M pv :=
  let! x := lift (addr_arg a) in
  let! r := call "validateaddress" [x] in
  lift (do d <- as_dict r;
        do v <- key "isvalid" d;
        do e <- (if truth v then do t <- key "address" d; do t <- address_of t; Ok (dset "address" (PAddr t) (plain d)) else Ok (plain d));
        match dget "pubkey" d with
        | Some p => do p <- unhexlify p; Ok (PDict (dset "pubkey" (PBytes p) e))
        | None => Ok (PDict e)
        end).

(** rpc.py:457-468 [_addnode], [addnode], [addnodeonetry], [removenode]. *)
Definition addnode (how : string) (n : string) : M pv :=
  let! r := call "addnode" [JStr n; JStr how] in ret (PJ r).

(** All methods of a Proxy that call the node, with their arguments; the last one is
    that of RawProxy (rpc.py:154-165). *)
Inductive rpc :=
| GetAccountAddress (account : option string) | GetBalance (account : string) (minconf : Z)
| GetBlock (block_hash : bytes) | GetBlockHash (height : Z) | GetInfo
| GetNewAddress (account : option string) | GetRawChangeAddress | GetRawMempool (verbose : bool)
| GetRawTransaction (txid : bytes) (verbose : bool) | GetReceivedByAddress (addr : address) (minconf : Z)
| GetTransaction (txid : bytes) | GetTxOut (o : outpoint) (includemempool : bool)
| ListUnspent (minconf maxconf : Z) (addrs : option (list address)) | LockUnspent (unlock : bool) (l : list outpoint)
| SendRawTransaction (t : tx) (allowhighfees : bool) | SendToAddress (addr : address) (value : Z)
| SignRawTransaction (t : tx) (args : list json) | SubmitBlock (b : block) (params : option json)
| ValidateAddress (a : address) | AddNode (n : string) | AddNodeOneTry (n : string) | RemoveNode (n : string)
| Other (name : string) (args : list json).
(** rpc.py:154-165, 214-468: the method for each. *)
Definition perform (c : rpc) : M pv :=
  match c with
  | GetAccountAddress a => getaccountaddress a
  | GetBalance a m => getbalance a m
  | GetBlock h => getblock h
  | GetBlockHash n => getblockhash n
  | GetInfo => getinfo
  | GetNewAddress a => getnewaddress a
  | GetRawChangeAddress => getrawchangeaddress
  | GetRawMempool v => getrawmempool v
  | GetRawTransaction t v => getrawtransaction t v
  | GetReceivedByAddress a m => getreceivedbyaddress a m
  | GetTransaction t => gettransaction t
  | GetTxOut o m => gettxout o m
  | ListUnspent a b l => listunspent a b l
  | LockUnspent u l => lockunspent u l
  | SendRawTransaction t f => sendrawtransaction t f
  | SendToAddress a v => sendtoaddress a v
  | SignRawTransaction t l => signrawtransaction t l
  | SubmitBlock b p => submitblock b p
  | ValidateAddress a => validateaddress a
  | AddNode n => addnode "add" n
  | AddNodeOneTry n => addnode "onetry" n
  | RemoveNode n => addnode "remove" n
  | Other name args => let! r := other name args in ret (PJ r)
  end.

(** A program that uses one proxy: the methods it calls one after the other.  Any calls of rpc.py:211-468. *)
Fixpoint perform_all (l : list rpc) (s : proxy) : list (outcome pv) * proxy :=
  match l with
  | [] => ([], s)
  | c :: l' => let '(o, s) := perform c s in let '(os, s) := perform_all l' s in (o :: os, s)
  end.

End Calls.
