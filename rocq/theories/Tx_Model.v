(** Executable model of the transaction codec of python-bitcoinlib:
    lib/python-bitcoinlib/bitcoin/core/serialize.py (cited as bserialize.py) and
    lib/python-bitcoinlib/bitcoin/core/__init__.py (cited as core.py).

    A stream being read is the list of bytes not yet read. *)
From Verif Require Import Base Sha256.

(** ** struct.pack / struct.unpack, little-endian *)

(** [k] little-endian bytes of [n] (struct '<H', '<I', '<Q' without the range check).
    Used in core.py:142, 202, 264, 331, 334 and bserialize.py:200-206. *)
Fixpoint le_enc (k : nat) (n : N) : bytes :=
  match k with
  | O => []
  | S k' => Nb (n mod 256) :: le_enc k' (n / 256)
  end.

(** The number written by little-endian bytes.  Used in core.py:136, 196, 259, 324, 327 and bserialize.py:214-218. *)
Fixpoint le_dec (b : bytes) : N :=
  match b with
  | [] => 0
  | x :: b' => bN x + 256 * le_dec b'
  end%N.

(** struct.pack('<I'...) of an int: struct.error when out of range.  core.py:142, 202, 334 and bserialize.py:200-206. *)
Definition pack_u (k : nat) (v : Z) : result bytes :=
  if ((0 <=? v) && (v <? 2 ^ (8 * Z.of_nat k)))%Z then Ok (le_enc k (Z.to_N v)) else Err StructError.

(** struct.pack('<i', '<q'): two's complement.  core.py:264, 331. *)
Definition pack_s (k : nat) (v : Z) : result bytes :=
  let h := (2 ^ (8 * Z.of_nat k - 1))%Z in
  if ((- h <=? v) && (v <? h))%Z
  then Ok (le_enc k (Z.to_N (if (v <? 0)%Z then v + 2 * h else v)%Z)) else Err StructError.

(** struct.unpack('<i', '<q') of exactly [k] bytes.  core.py:259, 324. *)
Definition unpack_s (k : nat) (b : bytes) : Z :=
  let h := (2 ^ (8 * Z.of_nat k - 1))%Z in
  let n := Z.of_N (le_dec b) in
  if (h <=? n)%Z then (n - 2 * h)%Z else n.

(** ** bserialize.py *)

(** bserialize.py:34. *)
Definition MAX_SIZE : N := 0x02000000.

(** bserialize.py:70-82 [ser_read]. *)
Definition ser_read (n : N) (s : bytes) : result (bytes * bytes) :=
  if (MAX_SIZE <? n)%N then Err SerializationError
  else if (blen s <? n)%N then Err SerializationTruncationError
  else Ok (firstn (N.to_nat n) s, skipn (N.to_nat n) s).

(** bserialize.py:190-206 [VarIntSerializer.stream_serialize]. *)
Definition varint_ser (i : Z) : result bytes :=
  if (i <? 0)%Z then Err ValueError
  else if (i <? 0xfd)%Z then Ok [Nb (Z.to_N i)]
  else if (i <=? 0xffff)%Z then do b <- pack_u 2 i; Ok (xfd :: b)
  else if (i <=? 0xffffffff)%Z then do b <- pack_u 4 i; Ok (xfe :: b)
  else do b <- pack_u 8 i; Ok (xff :: b).

(** bserialize.py:208-218 [VarIntSerializer.stream_deserialize]. *)
Definition varint_de (s : bytes) : result (N * bytes) :=
  do (r, s) <- ser_read 1 s;
  let r := le_dec r in
  if (r <? 0xfd)%N then Ok (r, s)
  else if (r =? 0xfd)%N then do (b, s) <- ser_read 2 s; Ok (le_dec b, s)
  else if (r =? 0xfe)%N then do (b, s) <- ser_read 4 s; Ok (le_dec b, s)
  else do (b, s) <- ser_read 8 s; Ok (le_dec b, s).

(** bserialize.py:221-231 [BytesSerializer]. *)
Definition bytes_ser (b : bytes) : result bytes :=
  do l <- varint_ser (Z.of_N (blen b)); Ok (l ++ b).
(** bserialize.py:228-231: reading. *)
Definition bytes_de (s : bytes) : result (bytes * bytes) :=
  do (l, s) <- varint_de s; ser_read l s.

(** bserialize.py:236-240 [VectorSerializer.stream_serialize]: the loop. *)
Fixpoint objs_ser {A} (f : A -> result bytes) (l : list A) : result bytes :=
  match l with
  | [] => Ok []
  | a :: l' => do x <- f a; do r <- objs_ser f l'; Ok (x ++ r)
  end.
(** bserialize.py:236-240. *)
Definition vector_ser {A} (f : A -> result bytes) (l : list A) : result bytes :=
  do n <- varint_ser (Z.of_nat (List.length l)); do r <- objs_ser f l; Ok (n ++ r).

(** bserialize.py:245-248: the loop, [n] iterations.  [fuel] bounds them; every
    item reader consumes at least one byte, so the length of the stream is
    enough ([objs_de_no_fuel] in Tx_Proofs). *)
Fixpoint objs_de {A} (f : bytes -> result (A * bytes)) (fuel : nat) (n : N) (s : bytes) : result (list A * bytes) :=
  if (n =? 0)%N then Ok ([], s)
  else match fuel with
       | O => Err OutOfFuel
       | S fuel' =>
         do (a, s) <- f s; do (r, s) <- objs_de f fuel' (n - 1) s; Ok (a :: r, s)
       end.
(** bserialize.py:242-248 [VectorSerializer.stream_deserialize]. *)
Definition vector_de {A} (f : bytes -> result (A * bytes)) (s : bytes) : result (list A * bytes) :=
  do (n, s) <- varint_de s; objs_de f (S (List.length s)) n s.

(** bserialize.py:105-121 [Serializable.deserialize(buf)] (allow_padding false / true). *)
Definition bdeserialize {A} (f : bytes -> result (A * bytes)) (allow_padding : bool) (buf : bytes) : result A :=
  do (r, padding) <- f buf;
  if allow_padding then Ok r
  else match padding with [] => Ok r | _ => Err DeserializationExtraDataError end.

(** ** core.py: COutPoint, CTxIn, CTxOut, CTransaction.
    The mutable variants (CMutable...) have the same fields and codec; object
    identity, mutation and the cached GetHash of immutable objects are not modelled. *)

(** core.py:121-131. *)
Record outpoint := mkOutPoint { o_hash : bytes; o_n : Z }.
(** core.py:121-131: the constructor. *)
Definition outpoint_new (hash : bytes) (n : Z) : result outpoint :=
  if negb (blen hash =? 32)%N then Err ValueError
  else if negb ((0 <=? n) && (n <=? 0xffffffff))%Z then Err ValueError
  else Ok (mkOutPoint hash n).

(** core.py:133-137 [stream_deserialize]. *)
Definition outpoint_de (s : bytes) : result (outpoint * bytes) :=
  do (hash, s) <- ser_read 32 s;
  do (n, s) <- ser_read 4 s;
  do o <- outpoint_new hash (Z.of_N (le_dec n)); Ok (o, s).

(** core.py:139-142 [stream_serialize]. *)
Definition outpoint_ser (o : outpoint) : result bytes :=
  do _ <- assert (blen (o_hash o) =? 32)%N;
  do n <- pack_u 4 (o_n o); Ok (o_hash o ++ n).

(** core.py:144-145 [is_null]. *)
Definition outpoint_is_null (o : outpoint) : bool :=
  bytes_eqb (o_hash o) (repeat x00 32) && (o_n o =? 0xffffffff)%Z.

(** core.py:176-190. *)
Record txin := mkTxIn { i_prevout : outpoint; i_scriptSig : bytes; i_nSequence : Z }.
(** core.py:176-190: the constructor. *)
Definition txin_new (p : outpoint) (s : bytes) (q : Z) : result txin :=
  if negb ((0 <=? q) && (q <=? 0xffffffff))%Z then Err ValueError else Ok (mkTxIn p s q).

(** core.py:192-197. *)
Definition txin_de (s : bytes) : result (txin * bytes) :=
  do (p, s) <- outpoint_de s;
  do (sc, s) <- bytes_de s;
  do (q, s) <- ser_read 4 s;
  do i <- txin_new p sc (Z.of_N (le_dec q)); Ok (i, s).

(** core.py:199-202. *)
Definition txin_ser (i : txin) : result bytes :=
  do p <- outpoint_ser (i_prevout i);
  do sc <- bytes_ser (i_scriptSig i);
  do q <- pack_u 4 (i_nSequence i); Ok (p ++ sc ++ q).

(** core.py:245-255. *)
Record txout := mkTxOut { o_nValue : Z; o_scriptPubKey : bytes }.

(** core.py:257-261. *)
Definition txout_de (s : bytes) : result (txout * bytes) :=
  do (v, s) <- ser_read 8 s;
  do (sc, s) <- bytes_de s;
  Ok (mkTxOut (unpack_s 8 v) sc, s).

(** core.py:263-265. *)
Definition txout_ser (o : txout) : result bytes :=
  do v <- pack_s 8 (o_nValue o);
  do sc <- bytes_ser (o_scriptPubKey o); Ok (v ++ sc).

(** core.py:303-320. *)
Record tx := mkTx { t_vin : list txin; t_vout : list txout; t_nLockTime : Z; t_nVersion : Z }.
(** core.py:303-320: the constructor. *)
Definition tx_new (vin : list txin) (vout : list txout) (lock ver : Z) : result tx :=
  if negb ((0 <=? lock) && (lock <=? 0xffffffff))%Z then Err ValueError else Ok (mkTx vin vout lock ver).

(** core.py:322-328. *)
Definition tx_de (s : bytes) : result (tx * bytes) :=
  do (v, s) <- ser_read 4 s;
  do (vin, s) <- vector_de txin_de s;
  do (vout, s) <- vector_de txout_de s;
  do (l, s) <- ser_read 4 s;
  do t <- tx_new vin vout (Z.of_N (le_dec l)) (unpack_s 4 v); Ok (t, s).

(** core.py:330-334. *)
Definition tx_ser (t : tx) : result bytes :=
  do v <- pack_s 4 (t_nVersion t);
  do vin <- vector_ser txin_ser (t_vin t);
  do vout <- vector_ser txout_ser (t_vout t);
  do l <- pack_u 4 (t_nLockTime t); Ok (v ++ vin ++ vout ++ l).

(** core.py:336-337 [is_coinbase]. *)
Definition tx_is_coinbase (t : tx) : bool :=
  match t_vin t with [i] => outpoint_is_null (i_prevout i) | _ => false end.

(** bserialize.py:123-125 [GetHash]. *)
Definition tx_GetHash (t : tx) : result bytes := do b <- tx_ser t; Ok (Hash b).
