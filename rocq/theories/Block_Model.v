(** Executable model of block headers, blocks and the context independent block
    checks of python-bitcoinlib:
    lib/python-bitcoinlib/bitcoin/core/__init__.py (cited as core.py),
    lib/python-bitcoinlib/bitcoin/core/serialize.py (cited as bserialize.py) and
    lib/python-bitcoinlib/bitcoin/core/script.py (cited as script.py). *)
From Verif Require Import Base Sha256 Tx_Model Script_Model.

(** ** Headers *)

(** core.py:386-398 [CBlockHeader.__init__]. *)
Record header := mkHeader {
  h_nVersion : Z; h_prev : bytes; h_merkle : bytes; h_nTime : Z; h_nBits : Z; h_nNonce : Z }.
(** core.py:386-398: the checks of the constructor. *)
Definition header_new (v : Z) (p m : bytes) (t b n : Z) : result header :=
  do _ <- assert (blen p =? 32)%N;
  do _ <- assert (blen m =? 32)%N;
  Ok (mkHeader v p m t b n).

(** core.py:400-408 [CBlockHeader.stream_deserialize]. *)
Definition header_de (s : bytes) : result (header * bytes) :=
  do (v, s) <- ser_read 4 s;
  do (p, s) <- ser_read 32 s;
  do (m, s) <- ser_read 32 s;
  do (t, s) <- ser_read 4 s;
  do (b, s) <- ser_read 4 s;
  do (n, s) <- ser_read 4 s;
  do h <- header_new (unpack_s 4 v) p m (Z.of_N (le_dec t)) (Z.of_N (le_dec b)) (Z.of_N (le_dec n));
  Ok (h, s).

(** core.py:410-418 [CBlockHeader.stream_serialize]. *)
Definition header_ser (h : header) : result bytes :=
  do v <- pack_s 4 (h_nVersion h);
  do _ <- assert (blen (h_prev h) =? 32)%N;
  do _ <- assert (blen (h_merkle h) =? 32)%N;
  do t <- pack_u 4 (h_nTime h);
  do b <- pack_u 4 (h_nBits h);
  do n <- pack_u 4 (h_nNonce h);
  Ok (v ++ h_prev h ++ h_merkle h ++ t ++ b ++ n).

(** bserialize.py:123-125 [GetHash] on a header. *)
Definition header_GetHash (h : header) : result bytes := do b <- header_ser h; Ok (Hash b).

(** ** Merkle trees of blocks *)

(** core.py:464-466, one iteration of the [for]: append the hash of two nodes of
    the level that starts at [j].  Both indices are in range, so the default of
    [nth] is never used ([merkle_for_levels] in Block_Proofs). *)
Definition merkle_step (j size : nat) (tree : list bytes) (i : nat) : list bytes :=
  let i2 := Nat.min (i + 1) (size - 1) in
  tree ++ [Hash (nth (j + i) tree [] ++ nth (j + i2) tree [])].

(** core.py:464: range(0, size, 2). *)
Definition range2 (size : nat) : list nat := map (fun k => 2 * k) (seq 0 ((size + 1) / 2)).

(** core.py:463-469, the [while].  [fuel] bounds the iterations; the size halves
    each time, so the initial size is enough. *)
Fixpoint merkle_while (fuel j size : nat) (tree : list bytes) : list bytes :=
  match fuel with
  | O => tree
  | S fuel' =>
    if 1 <? size then
      let tree := fold_left (merkle_step j size) (range2 size) tree in
      merkle_while fuel' (j + size) ((size + 1) / 2) tree
    else tree
  end.

(** core.py:443-471 [build_merkle_tree_from_txids]. *)
Definition build_merkle_tree (txids : list bytes) : list bytes :=
  merkle_while (List.length txids) 0 (List.length txids) txids.

(** Evaluation of a list comprehension whose body may raise, in order.  Used for core.py:477 and 494. *)
Fixpoint mapM {A B} (f : A -> result B) (l : list A) : result (list B) :=
  match l with
  | [] => Ok []
  | a :: l' => do b <- f a; do r <- mapM f l'; Ok (b :: r)
  end.

(** core.py:474-477 [build_merkle_tree_from_txs]. *)
Definition build_merkle_tree_from_txs (txs : list tx) : result (list bytes) :=
  do ids <- mapM tx_GetHash txs; Ok (build_merkle_tree ids).

(** ** Blocks *)

(** core.py:439-441: a header and its transactions.  The attribute vMerkleTree is
    a function of vtx ([block_merkle_tree] below); the cached GetHash is not modelled. *)
Record block := mkBlock { b_header : header; b_vtx : list tx }.

(** core.py:494-495, 503-504: what the attribute vMerkleTree is set to. *)
Definition block_merkle_tree (b : block) : result (list bytes) := build_merkle_tree_from_txs (b_vtx b).

(** core.py:490-496 [CBlock.__init__]; the transactions are immutable ones, which
    CTransaction.from_tx returns unchanged (core.py:350-351). *)
Definition block_new (v : Z) (p m : bytes) (t b n : Z) (vtx : list tx) : result block :=
  do h <- header_new v p m t b n;
  do _ <- build_merkle_tree_from_txs vtx;
  Ok (mkBlock h vtx).

(** core.py:480-488 [calc_merkle_root]. *)
Definition calc_merkle_root (b : block) : result bytes :=
  match b_vtx b with
  | [] => Err ValueError
  | _ => do t <- build_merkle_tree_from_txs (b_vtx b);
         match rev t with [] => Err IndexError | r :: _ => Ok r end
  end.

(** core.py:498-507 [CBlock.stream_deserialize]. *)
Definition block_de (s : bytes) : result (block * bytes) :=
  do (h, s) <- header_de s;
  do (vtx, s) <- vector_de tx_de s;
  do _ <- build_merkle_tree_from_txs vtx;
  Ok (mkBlock h vtx, s).

(** core.py:509-511 [CBlock.stream_serialize]. *)
Definition block_ser (b : block) : result bytes :=
  do h <- header_ser (b_header b);
  do v <- vector_ser tx_ser (b_vtx b); Ok (h ++ v).

(** core.py:513-523 [get_header]. *)
Definition get_header (b : block) : header := b_header b.

(** core.py:525-536 [CBlock.GetHash]: the hash of the header. *)
Definition block_GetHash (b : block) : result bytes := header_GetHash (get_header b).

(** ** Checks *)

(** core.py:26-29. *)
Definition COIN : Z := 100000000.
(** core.py:27. *)
Definition MAX_MONEY : Z := 21000000 * COIN.
(** core.py:28. *)
Definition MAX_BLOCK_SIZE : Z := 1000000.
(** core.py:29. *)
Definition MAX_BLOCK_SIGOPS : Z := 20000.

(** core.py:31-32 [MoneyRange]. *)
Definition MoneyRange (n : Z) : bool := ((0 <=? n) && (n <=? MAX_MONEY))%Z.

(** core.py:600-608: the loop over the outputs, with the running total. *)
Fixpoint check_outputs (total : Z) (l : list txout) : result unit :=
  match l with
  | [] => Ok tt
  | o :: l' =>
    if (o_nValue o <? 0)%Z then Err CheckTransactionError
    else if (MAX_MONEY <? o_nValue o)%Z then Err CheckTransactionError
    else let total := (total + o_nValue o)%Z in
         if negb (MoneyRange total) then Err CheckTransactionError
         else check_outputs total l'
  end.

(** bserialize.py:127-138: two outpoints are the same set element when they
    serialize to the same bytes (__eq__ and __hash__ both use serialize()). *)
Definition same_outpoint (a b : outpoint) : bool :=
  match outpoint_ser a, outpoint_ser b with Ok x, Ok y => bytes_eqb x y | _, _ => false end.

(** core.py:611-615: the loop over the inputs; [seen] is the set. *)
Fixpoint check_inputs (seen : list outpoint) (l : list txin) : result unit :=
  match l with
  | [] => Ok tt
  | i :: l' =>
    if existsb (same_outpoint (i_prevout i)) seen then Err CheckTransactionError
    else check_inputs (i_prevout i :: seen) l'
  end.

(** core.py:584-624 [CheckTransaction]. *)
Definition CheckTransaction (t : tx) : result unit :=
  match t_vin t, t_vout t with
  | [], _ => Err CheckTransactionError
  | _, [] => Err CheckTransactionError
  | i0 :: _, _ =>
    do enc <- tx_ser t;
    if (MAX_BLOCK_SIZE <? Z.of_N (blen enc))%Z then Err CheckTransactionError
    else
      do _ <- check_outputs 0 (t_vout t);
      do _ <- check_inputs [] (t_vin t);
      if tx_is_coinbase t then
        if ((2 <=? blen (i_scriptSig i0)) && (blen (i_scriptSig i0) <=? 100))%N then Ok tt
        else Err CheckTransactionError
      else
        if existsb (fun i => outpoint_is_null (i_prevout i)) (t_vin t) then Err CheckTransactionError
        else Ok tt
  end.

(** bserialize.py:299-305 [uint256_from_str]: struct.error when fewer than 32 bytes. *)
Definition uint256_from_str (s : bytes) : result Z :=
  if (blen s <? 32)%N then Err StructError else Ok (Z.of_N (le_dec (firstn 32 s))).

(** bserialize.py:308-315 [uint256_from_compact]: a negative shift count raises ValueError. *)
Definition uint256_from_compact (c : Z) : result Z :=
  let nbytes := Z.land (Z.shiftr c 24) 0xff in
  let k := (8 * (nbytes - 3))%Z in
  if (k <? 0)%Z then Err ValueError else Ok (Z.shiftl (Z.land c 0xffffff) k).

(** core.py:549 and 559: the limits of mainnet (and testnet) and of regtest. *)
Definition mainnet_limit : Z := Z.shiftr (2 ^ 256 - 1) 32.
(** core.py:559. *)
Definition regtest_limit : Z := Z.shiftr (2 ^ 256 - 1) 1.

(** core.py:636-650 [CheckProofOfWork]; [limit] is coreparams.PROOF_OF_WORK_LIMIT. *)
Definition CheckProofOfWork (limit : Z) (hash : bytes) (nBits : Z) : result unit :=
  do target <- uint256_from_compact nBits;
  if negb ((0 <? target) && (target <=? limit))%Z then Err CheckProofOfWorkError
  else
    do h <- uint256_from_str hash;
    if (target <? h)%Z then Err CheckProofOfWorkError else Ok tt.

(** core.py:653-670 [CheckBlockHeader].  [cur_time] is the time in whole seconds
    (given, or time.time() rounded down; nTime is an integer, so rounding does
    not change the comparison). *)
Definition CheckBlockHeader (limit : Z) (h : header) (fCheckPoW : bool) (cur_time : Z) : result unit :=
  do _ <- (if fCheckPoW then do x <- header_GetHash h; CheckProofOfWork limit x (h_nBits h) else Ok tt);
  if (cur_time + 2 * 60 * 60 <? h_nTime h)%Z then Err CheckBlockHeaderError else Ok tt.

(** script.py:759-770: the loop of [GetSigOpCount] over the items yielded.  The
    opcode is a plain int, which has no method decode_op_n (764-766). *)
Fixpoint sigop_loop (fAccurate : bool) (n last : N) (l : list (N * option bytes * nat)) : result N :=
  match l with
  | [] => Ok n
  | (op, _, _) :: l' =>
    do n <- (if ((op =? 0xac) || (op =? 0xad))%N then Ok (n + 1)%N
             else if ((op =? 0xae) || (op =? 0xaf))%N then
               if fAccurate && ((0x51 <=? last) && (last <=? 0x60))%N then Err AttributeError
               else Ok (n + 20)%N
             else Ok n);
    sigop_loop fAccurate n op l'
  end.
(** script.py:752-771 [GetSigOpCount]; the exception that ends raw_iter propagates. *)
Definition GetSigOpCount (fAccurate : bool) (s : bytes) : result N :=
  let '(l, e) := raw_iter s in
  do n <- sigop_loop fAccurate 0 0xff l;
  match e with None => Ok n | Some x => Err x end.

(** core.py:676-682 [GetLegacySigOpCount]. *)
Fixpoint sum_sigops (l : list bytes) : result N :=
  match l with
  | [] => Ok 0%N
  | s :: l' => do n <- GetSigOpCount false s; do m <- sum_sigops l'; Ok (n + m)%N
  end.
(** core.py:676-682: over all inputs and outputs. *)
Definition GetLegacySigOpCount (t : tx) : result N :=
  sum_sigops (map i_scriptSig (t_vin t) ++ map o_scriptPubKey (t_vout t)).

(** core.py:717-730: the loop of [CheckBlock] over vtx[1:]; [seen] is the set of txids. *)
Fixpoint check_rest (seen : list bytes) (nSigOps : N) (l : list tx) : result unit :=
  match l with
  | [] => Ok tt
  | t :: l' =>
    if tx_is_coinbase t then Err CheckBlockError
    else
      do _ <- CheckTransaction t;
      do txid <- tx_GetHash t;
      if existsb (bytes_eqb txid) seen then Err CheckBlockError
      else
        do k <- GetLegacySigOpCount t;
        let nSigOps := (nSigOps + k)%N in
        if (MAX_BLOCK_SIGOPS <? Z.of_N nSigOps)%Z then Err CheckBlockError
        else check_rest (txid :: seen) nSigOps l'
  end.

(** core.py:685-734 [CheckBlock]. *)
Definition CheckBlock (limit : Z) (b : block) (fCheckPoW fCheckMerkleRoot : bool) (cur_time : Z) : result unit :=
  do _ <- CheckBlockHeader limit (get_header b) fCheckPoW cur_time;
  match b_vtx b with
  | [] => Err CheckBlockError
  | t0 :: rest =>
    do enc <- block_ser b;
    if (MAX_BLOCK_SIZE <? Z.of_N (blen enc))%Z then Err CheckBlockError
    else if negb (tx_is_coinbase t0) then Err CheckBlockError
    else
      do _ <- check_rest [] 0 rest;
      if fCheckMerkleRoot then
        do r <- calc_merkle_root b;
        if bytes_eqb (h_merkle (b_header b)) r then Ok tt else Err CheckBlockError
      else Ok tt
  end.
