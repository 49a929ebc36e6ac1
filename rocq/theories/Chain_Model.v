(** Executable model of proofchains/core/bitcoin.py (cited as pbitcoin.py),
    proofchains/core/uniquebits/singleuseseal.py (seal.py),
    proofchains/uniquebits/singleuseseal.py (close.py) and the commands of sus-tool.py.

    Methods that verify something are computations ([prog], Proof_Spec.v): they read
    attributes and hashes, so they can be run on complete proofs and on pruned views. *)
From Coq Require Import Decimal DecimalString DecimalN.
From Verif Require Import Base PySlice Sha256 Ripemd160 Serialize_Model Tx_Model Script_Model Proof_Model Proof_Spec Hex_Model.
Local Open Scope string_scope.
Local Open Scope list_scope.

(** The classes: TxProof (pbitcoin.py:62-67), OutPointProof (91-97), TxInProof (99-103),
    TxOutProof (113-117), FakeSingleUseSeal (seal.py:43-48), FakeSealWitness (50-55),
    BitcoinSingleUseSeal (66-78), BitcoinSealWitness (81-89). *)
Record chain := Chain { p_tx : cid; p_outpoint : cid; p_txin : cid; p_txout : cid;
  p_fseal : cid; p_fwit : cid; p_bseal : cid; p_bwit : cid }.

(** ** Reading attributes *)

(** An attribute that is not a proof; reading a proof where something else is expected ends
    with AttributeError (simplified: depends on what is then done with it).
    Used for pbitcoin.py:106, 111, 120, 125 and seal.py:62, 92. *)
Definition value_at {R} (path : list string) (k : val -> prog (result R)) : prog (result R) :=
  Get path (fun o => match o with OVal v => k v | OProof _ => Ret (Err AttributeError) | OErr e => Ret (Err e) end).
(** An attribute that is a proof: its class.  Used for pbitcoin.py:111, 125 and seal.py:92-93. *)
Definition proof_at {R} (path : list string) (k : cid -> prog (result R)) : prog (result R) :=
  Get path (fun o => match o with OProof c => k c | OVal _ => Ret (Err AttributeError) | OErr e => Ret (Err e) end).
(** The attribute [hash] of a proof.  Read in seal.py:93 (by [==], proof.py:72-77) and gumap.py:150. *)
Definition hash_at {R} (path : list string) (k : bytes -> prog (result R)) : prog (result R) :=
  Hsh path (fun r => match r with Ok h => k h | Err e => Ret (Err e) end).
(** The attribute [tx] of a TxProof, read in pbitcoin.py:77, 106, 111, 120, 125: its fields exist only if it is a transaction. *)
Definition tx_at {R} (path : list string) (k : tx -> prog (result R)) : prog (result R) :=
  value_at path (fun v => match v with VTx t => k t | _ => Ret (Err AttributeError) end).
(** The attribute [outpoint] of a seal, read in seal.py:92. *)
Definition out_at {R} (path : list string) (k : outpoint -> prog (result R)) : prog (result R) :=
  value_at path (fun v => match v with VOut o => k o | _ => Ret (Err AttributeError) end).
(** The attribute [i], read in pbitcoin.py:106, 111, 120, 125: compared with ints and used as an index. *)
Definition int_at {R} (path : list string) (k : Z -> prog (result R)) : prog (result R) :=
  value_at path (fun v => match v with VPrim (PyInt i) => k i | _ => Ret (Err TypeError) end).
(** A result used in a computation.  Plumbing for exceptions in the expressions of pbitcoin.py:106-125 and seal.py:91-103. *)
Definition then_do {A R} (r : result A) (k : A -> prog (result R)) : prog (result R) :=
  match r with Ok a => k a | Err e => Ret (Err e) end.

(** ** proofchains/core/bitcoin.py *)

(** pbitcoin.py:79-85 [TxProof.txhash]. *)
Definition txhash (ct : ctable) (v : val) : result bytes := do h <- phash ct v; Ok (xor_pad h).

(** pbitcoin.py:105-106 [TxInProof.verify]. *)
Definition txin_verify : prog (result unit) :=
  int_at ["i"] (fun i =>
    if (0 <=? i)%Z then tx_at ["txproof"; "tx"] (fun t => Ret (assert (i <? Z.of_nat (List.length (t_vin t)))%Z))
    else Ret (Err AssertionError)).
(** pbitcoin.py:108-111 [TxInProof.txin] of the proof at [path]. *)
Definition txin_at {R} (path : list string) (k : txin -> prog (result R)) : prog (result R) :=
  tx_at (path ++ ["txproof"; "tx"]) (fun t => int_at (path ++ ["i"]) (fun i => then_do (py_index (t_vin t) i) k)).

(** pbitcoin.py:119-120 [TxOutProof.verify]. *)
Definition txout_verify : prog (result unit) :=
  int_at ["i"] (fun i =>
    if (0 <=? i)%Z then tx_at ["txproof"; "tx"] (fun t => Ret (assert (i <? Z.of_nat (List.length (t_vout t)))%Z))
    else Ret (Err AssertionError)).
(** pbitcoin.py:122-125 [TxOutProof.txout]. *)
Definition txout_at {R} (path : list string) (k : txout -> prog (result R)) : prog (result R) :=
  tx_at (path ++ ["txproof"; "tx"]) (fun t => int_at (path ++ ["i"]) (fun i => then_do (py_index (t_vout t) i) k)).

(** ** proofchains/core/uniquebits/singleuseseal.py *)

(** lib/python-bitcoinlib/bitcoin/core/serialize.py:127-131 [a == b] for two outpoints. *)
Definition outpoint_eq (a b : outpoint) : result bool :=
  do x <- outpoint_ser a; do y <- outpoint_ser b; Ok (bytes_eqb x y).

(** seal.py:61-62 [FakeSealWitness.verify_hash]. *)
Definition fake_verify_hash (h : bytes) : prog (result unit) :=
  value_at ["seal"; "committed_hash"] (fun v => match v with VPrim (PyBytes b) => Ret (assert (bytes_eqb b h)) | _ => Ret (Err AssertionError) end).
(** seal.py:57-59 [FakeSealWitness.from_hash]. *)
Definition fake_from_hash (ct : ctable) (P : chain) (h : bytes) : result val :=
  do s <- construct ct (p_fseal P) [("committed_hash", VPrim (PyBytes h))];
  construct ct (p_fwit P) [("seal", s)].

(** seal.py:91-93 [BitcoinSealWitness.verify]. *)
Definition btc_verify : prog (result unit) :=
  out_at ["seal"; "outpoint"] (fun o =>
  txin_at ["txinproof"] (fun i =>
  then_do (outpoint_eq o (i_prevout i)) (fun b =>
  then_do (assert b) (fun _ =>
  proof_at ["txinproof"; "txproof"] (fun _ =>
  proof_at ["txoutproof"; "txproof"] (fun _ =>
  hash_at ["txinproof"; "txproof"] (fun h1 =>
  hash_at ["txoutproof"; "txproof"] (fun h2 =>
  Ret (assert (bytes_eqb h1 h2)))))))))).

(** The scripts of seal.py:101-103 and close.py:24-30.  Opcodes: OP_RETURN 0x6a, OP_DUP
    0x76, OP_EQUAL 0x87, OP_EQUALVERIFY 0x88, OP_HASH160 0xa9, OP_CHECKSIG 0xac
    (lib/python-bitcoinlib/bitcoin/core/script.py:145-224). *)
Definition script_op_return (h : bytes) : result bytes := cscript [IOp 0x6a; IData h].
(** seal.py:102, close.py:27. *)
Definition script_p2sh (h : bytes) : result bytes := cscript [IOp 0xa9; IData (Hash160 h); IOp 0x87].
(** seal.py:103, close.py:30. *)
Definition script_p2pkh (h : bytes) : result bytes := cscript [IOp 0x76; IOp 0xa9; IData (Hash160 h); IOp 0x88; IOp 0xac].

(** seal.py:101-103: [a == A or a == B or a == C]. *)
Definition commits_to (a h : bytes) : result bool :=
  do s <- script_op_return h; if bytes_eqb a s then Ok true else
  do s <- script_p2sh h; if bytes_eqb a s then Ok true else
  do s <- script_p2pkh h; Ok (bytes_eqb a s).

(** seal.py:95-103 [BitcoinSealWitness.verify_hash]. *)
Definition btc_verify_hash (h : bytes) : prog (result unit) :=
  then_do (assert (blen h =? 32)%N) (fun _ =>
  txout_at ["txoutproof"] (fun o =>
  then_do (commits_to (o_scriptPubKey o) h) (fun b => Ret (assert b)))).

(** ** proofchains/uniquebits/singleuseseal.py *)

(** close.py:22-30: None for an unknown method. *)
Definition close_txout (digest : bytes) (meth : string) (dust : Z) : result (option txout) :=
  if String.eqb meth "op_return" then do s <- script_op_return digest; Ok (Some (mkTxOut 0 s))
  else if String.eqb meth "p2sh" then do s <- script_p2sh digest; Ok (Some (mkTxOut dust s))
  else if String.eqb meth "p2pkh" then do s <- script_p2pkh digest; Ok (Some (mkTxOut dust s))
  else Ok None.

(** [seal.outpoint].  Read in proofchains/uniquebits/singleuseseal.py:32. *)
Definition seal_outpoint (ct : ctable) (s : val) : result outpoint :=
  do v <- peek ct s "outpoint"; match v with VOut o => Ok o | _ => Err AttributeError end.

(** close.py:32: [CTxIn(seal.outpoint) for seal in seals]. *)
Fixpoint close_txins (ct : ctable) (seals : list val) : result (list txin) :=
  match seals with
  | [] => Ok []
  | s :: seals' =>
    do o <- seal_outpoint ct s; do i <- txin_new o [] 0xffffffff;
    do r <- close_txins ct seals'; Ok (i :: r)
  end.

(** close.py:17-34 [make_close_seal_tx_template]; [CTxOut.from_txout(None)] raises
    AttributeError (lib/python-bitcoinlib/bitcoin/core/__init__.py:280-291). *)
Definition make_close_seal_tx_template (ct : ctable) (digest : bytes) (seals : list val) (meth : string) (dust : Z) : result tx :=
  do out <- close_txout digest meth dust;
  do ins <- close_txins ct seals;
  match out with Some o => tx_new ins [o] 0 1 | None => Err AttributeError end.

(** ** sus-tool.py: what the commands do with the contents of the files and arguments *)

(** Whitespace skipped by int() and, up to 32, by bytes.fromhex. *)
Definition is_space (c : ascii) : bool :=
  let n := N_of_ascii c in ((9 <=? n) && (n <=? 13) || (n =? 32))%N.
(** int() in sus-tool.py:37: whitespace dropped at the front, *)
Fixpoint lstrip (s : string) : string :=
  match s with String c s' => if is_space c then lstrip s' else s | EmptyString => s end.
(** (a text backwards, for the next definition, sus-tool.py:37) *)
Fixpoint srev (s acc : string) : string :=
  match s with String c s' => srev s' (String c acc) | EmptyString => acc end.
(** and at both ends (int() in sus-tool.py:37). *)
Definition strip (s : string) : string := srev (lstrip (srev (lstrip s) "")) "".

(** int() in sus-tool.py:37: the digits; single underscores may stand between them.  [first]: a digit must come next.
    Simplified: texts of more than 4300 digits, for which newer Pythons raise ValueError, are converted here; texts are ASCII. *)
Fixpoint py_digits (first : bool) (acc : N) (s : string) : result N :=
  match s with
  | EmptyString => if first then Err ValueError else Ok acc
  | String c s' =>
    let d := N_of_ascii c in
    if ((48 <=? d) && (d <=? 57))%N then py_digits false (10 * acc + (d - 48))%N s'
    else if Ascii.eqb c "_" && negb first then py_digits true acc s' else Err ValueError
  end.
(** int() in sus-tool.py:37: whitespace, sign and digits. *)
Definition py_int (s : string) : result Z :=
  match strip s with
  | String c s' =>
    if Ascii.eqb c "-" then do n <- py_digits true 0 s'; Ok (- Z.of_N n)%Z
    else if Ascii.eqb c "+" then do n <- py_digits true 0 s'; Ok (Z.of_N n)
    else do n <- py_digits true 0 (String c s'); Ok (Z.of_N n)
  | EmptyString => Err ValueError
  end.

(** [s.count(':')] and, when it is 1, [s.split(':')].  sus-tool.py:32-34. *)
Fixpoint colons (s : string) : nat :=
  match s with EmptyString => 0 | String c s' => (if Ascii.eqb c ":" then 1 else 0) + colons s' end.
(** sus-tool.py:34 [s.split(":")] for one colon. *)
Fixpoint split_colon (s : string) : string * string :=
  match s with
  | EmptyString => ("", "")
  | String c s' => if Ascii.eqb c ":" then ("", s') else let '(a, b) := split_colon s' in (String c a, b)
  end.

(** [except ValueError: parser.exit(...)].  sus-tool.py:39-40, 55-56. *)
Definition or_exit {A} (r : result A) : result A := match r with Err ValueError => Err SystemExit | _ => r end.

(** sus-tool.py:28-45 [ParseCOutPointArg]. *)
Definition parse_outpoint (s : string) : result outpoint :=
  or_exit (
    if negb (colons s =? 1)%nat then Err ValueError else
    let '(str_txid, str_n) := split_colon s in
    do txid <- lx str_txid; do n <- py_int str_n; outpoint_new txid n).

(** bytes.fromhex(s): whitespace between bytes is skipped.  Used in sus-tool.py:51. *)
Fixpoint fromhex (s : string) : result bytes :=
  match s with
  | EmptyString => Ok []
  | String a s' =>
    if is_space a then fromhex s' else
    match s' with
    | String b s'' =>
      match hex_digit a, hex_digit b with
      | Some u, Some v => do r <- fromhex s''; Ok (Nb (u * 16 + v) :: r)
      | _, _ => Err ValueError
      end
    | EmptyString => Err ValueError
    end
  end.
(** sus-tool.py:47-60 [ParseDigestArg]. *)
Definition parse_digest (s : string) : result bytes :=
  or_exit (do d <- fromhex s; if negb (blen d =? 32)%N then Err ValueError else Ok d).

(** [%d].  Used in sus-tool.py:231, 248. *)
Definition py_decimal (z : Z) : string := DecimalString.NilEmpty.string_of_int (Z.to_int z).
(** The text ['%s:%d'] of sus-tool.py:231, 248. *)
Definition show_outpoint (hash : string) (n : Z) : string := String.append hash (String ":" (py_decimal n)).

(** sus-tool.py:90-92 [cmd_mkseal]. *)
Definition cmd_mkseal (ct : ctable) (P : chain) (o : outpoint) : result bytes :=
  do s <- construct ct (p_bseal P) [("outpoint", VOut o)]; ser_proof ct s.

(** [seal in seals] (sus-tool.py:123): some earlier seal has the same hash. *)
Fixpoint seal_among (ct : ctable) (s : val) (seals : list val) : result bool :=
  match seals with
  | [] => Ok false
  | s' :: seals' => do b <- proof_eq ct s s'; if b then Ok true else seal_among ct s seals'
  end.

(** sus-tool.py:120-129: the loop; [seals] are those of the files before. *)
Fixpoint collect_seals (ct : ctable) (P : chain) (files : list bytes) (seals : list val) : result (list val) :=
  match files with
  | [] => Ok seals
  | f :: files' =>
    do s <- deserialize ct (p_bseal P) f;
    do _ <- phash ct s;
    do b <- seal_among ct s seals;
    if b then Err SystemExit else
    do _ <- seal_outpoint ct s;
    collect_seals ct P files' (seals ++ [s])
  end.

(** sus-tool.py:119-134 [cmd_mkclosetx]: what is printed. *)
Definition cmd_mkclosetx (ct : ctable) (P : chain) (digest : bytes) (files : list bytes) (meth : string) : result string :=
  do seals <- collect_seals ct P files [];
  do t <- make_close_seal_tx_template ct digest seals meth 600;
  do b <- tx_ser t; Ok (b2x b).

(** sus-tool.py:169-173: index of the first input that spends the outpoint. *)
Fixpoint find_input (ct : ctable) (s : val) (i : Z) (vin : list txin) : result (option Z) :=
  match vin with
  | [] => Ok None
  | x :: vin' =>
    do o <- seal_outpoint ct s;
    do b <- outpoint_eq (i_prevout x) o;
    if b then Ok (Some i) else find_input ct s (i + 1) vin'
  end.

(** sus-tool.py:165-184: the witness for one seal file. *)
Definition witness_for (ct : ctable) (P : chain) (t : tx) (txproof : val) (f : bytes) : result bytes :=
  do s <- deserialize ct (p_bseal P) f;
  do i <- find_input ct s 0 (t_vin t);
  match i with
  | None => Err SystemExit
  | Some i =>
    do a <- construct ct (p_txin P) [("i", VPrim (PyInt i)); ("txproof", txproof)];
    do b <- construct ct (p_txout P) [("i", VPrim (PyInt 0)); ("txproof", txproof)];
    do w <- construct ct (p_bwit P) [("seal", s); ("txinproof", a); ("txoutproof", b)];
    ser_proof ct w
  end.
(** sus-tool.py:165-184: the loop over the seal files. *)
Fixpoint witnesses_for (ct : ctable) (P : chain) (t : tx) (txproof : val) (files : list bytes) : result (list bytes) :=
  match files with
  | [] => Ok []
  | f :: files' => do w <- witness_for ct P t txproof f; do r <- witnesses_for ct P t txproof files'; Ok (w :: r)
  end.
(** sus-tool.py:153-184 [cmd_mkwitness --tx]: the contents of the witness files (if it fails
    the files written before are not part of the result). *)
Definition cmd_mkwitness (ct : ctable) (P : chain) (serialized_tx : bytes) (files : list bytes) : result (list bytes) :=
  do t <- bdeserialize tx_de false serialized_tx;
  do p <- construct ct (p_tx P) [("tx", VTx t)];
  witnesses_for ct P t p files.

(** sus-tool.py:207-214 [cmd_verifywitness]. *)
Definition cmd_verifywitness (ct : ctable) (P : chain) (file : bytes) (digest : option bytes) : result unit :=
  do w <- deserialize ct (p_bwit P) file;
  let '(r, w) := run ct btc_verify w in
  do _ <- r;
  match digest with Some d => fst (run ct (btc_verify_hash d) w) | None => Ok tt end.

(** sus-tool.py:227-231 [cmd_sealinfo]: hash and outpoint printed. *)
Definition cmd_sealinfo (ct : ctable) (P : chain) (file : bytes) : result (string * string) :=
  do s <- deserialize ct (p_bseal P) file;
  do h <- phash ct s; do o <- seal_outpoint ct s;
  Ok (b2x h, show_outpoint (b2lx (o_hash o)) (o_n o)).

(** sus-tool.py:242-248 [cmd_witnessinfo]: hash, txid, seal hash and outpoint
    printed. *)
Definition cmd_witnessinfo (ct : ctable) (P : chain) (file : bytes) : result (string * string * string * string) :=
  do w <- deserialize ct (p_bwit P) file;
  do h <- phash ct w;
  do i <- peek ct w "txinproof"; do p <- peek ct i "txproof"; do t <- txhash ct p;
  do s <- peek ct w "seal"; do sh <- phash ct s; do o <- seal_outpoint ct s;
  Ok (b2x h, b2lx t, b2x sh, show_outpoint (b2x (o_hash o)) (o_n o)).
