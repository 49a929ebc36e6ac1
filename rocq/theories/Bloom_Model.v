(** Executable model of lib/python-bitcoinlib/bitcoin/bloom.py (cited as bloom.py). *)
From Coq Require Import QArith Qround.
From Verif Require Import Base Tx_Model.
Local Open Scope Z_scope.

(** ** MurmurHash3 *)

(** The mask written out all over bloom.py:23-85. *)
Definition M32 : Z := 0xFFFFFFFF.

(** bloom.py:23-25 [_ROTL32]. *)
Definition ROTL32 (x r : Z) : result Z :=
  do _ <- assert (x <=? M32);
  Ok (Z.lor (Z.land (Z.shiftl x r) M32) (Z.shiftr x (32 - r))).

(** bloom.py:36-37. *)
Definition c1 : Z := 0xcc9e2d51.
(** bloom.py:37. *)
Definition c2 : Z := 0x1b873593.

(** bloom.py:46-48 and 72-74: scrambling one word. *)
Definition scramble (k1 : Z) : result Z :=
  let k1 := Z.land (k1 * c1) M32 in
  do k1 <- ROTL32 k1 15;
  Ok (Z.land (k1 * c2) M32).

(** bloom.py:39-54, the [while].  [fuel] bounds the iterations; [i] grows by 4 each
    time, so the length of the data is enough.  The slice has four bytes whenever it is
    read, so struct.unpack does not raise. *)
Fixpoint body_loop (fuel : nat) (data : bytes) (i : nat) (h1 : Z) : result Z :=
  match fuel with
  | O => Ok h1
  | S fuel' =>
    let n := List.length data in
    if ((i <? n - n mod 4) && (4 <=? n - i))%nat then
      let k1 := Z.of_N (le_dec (firstn 4 (skipn i data))) in
      do k1 <- scramble k1;
      let h1 := Z.lxor h1 k1 in
      do h1 <- ROTL32 h1 13;
      let h1 := Z.land (Z.land (h1 * 5) M32 + 0xe6546b64) M32 in
      body_loop fuel' data (i + 4) h1
    else Ok h1
  end.

(** vDataToHash[i], bloom.py:64-69: IndexError outside the string. *)
Definition at_ (data : bytes) (i : nat) : result Z :=
  match nth_error data i with Some b => Ok (bZ b) | None => Err IndexError end.

(** bloom.py:56-69, the last one, two or three bytes. *)
Definition tail_word (data : bytes) : result Z :=
  let n := List.length data in
  let j := (n / 4 * 4)%nat in
  let low := Z.land (Z.of_nat n) 3 in
  do k1 <- (if 3 <=? low then do b <- at_ data (j + 2); Ok (Z.lxor 0 (Z.shiftl b 16)) else Ok 0);
  do k1 <- (if 2 <=? low then do b <- at_ data (j + 1); Ok (Z.lxor k1 (Z.shiftl b 8)) else Ok k1);
  (if 1 <=? low then do b <- at_ data j; Ok (Z.lxor k1 b) else Ok k1).

(** bloom.py:77-85, the finalization: products are not masked before the next line. *)
Definition finish (h1 : Z) (n : nat) : Z :=
  let h1 := Z.lxor h1 (Z.land (Z.of_nat n) M32) in
  let h1 := Z.lxor h1 (Z.shiftr (Z.land h1 M32) 16) in
  let h1 := h1 * 0x85ebca6b in
  let h1 := Z.lxor h1 (Z.shiftr (Z.land h1 M32) 13) in
  let h1 := h1 * 0xc2b2ae35 in
  let h1 := Z.lxor h1 (Z.shiftr (Z.land h1 M32) 16) in
  Z.land h1 M32.

(** bloom.py:27-85 [MurmurHash3]. *)
Definition MurmurHash3 (seed : Z) (data : bytes) : result Z :=
  do _ <- assert (seed <=? M32);
  do h1 <- body_loop (List.length data) data 0 seed;
  do k1 <- tail_word data;
  do k1 <- scramble (Z.land k1 M32);
  Ok (finish (Z.lxor h1 k1) (List.length data)).

(** ** CBloomFilter *)

(** bloom.py:117-120: the attributes. *)
Record filter := mkFilter { f_vData : bytes; f_nHashFuncs : Z; f_nTweak : Z; f_nFlags : Z }.

(** bloom.py:90-91. *)
Definition MAX_BLOOM_FILTER_SIZE : Z := 36000.
(** bloom.py:91. *)
Definition MAX_HASH_FUNCS : Z := 50.

(** A Python float: a rational number, an infinity or nan.  bloom.py:115-118 computes
    with them; what the arithmetic and math.log give is not modelled, see [filter_new]. *)
Inductive float := Fin (q : Q) | PosInf | NegInf | NaN.

(** min(x, k) of a float and an int: the second one when it is smaller (bloom.py:117-118). *)
Definition fmin (x : float) (k : Z) : float :=
  match x with
  | Fin q => if Qlt_le_dec (inject_Z k) q then Fin (inject_Z k) else x
  | PosInf => Fin (inject_Z k)
  | NegInf => NegInf
  | NaN => NaN
  end.

(** x / 8 of a float; exact, except that denormal numbers are not rounded (bloom.py:117). *)
Definition fdiv8 (x : float) : float := match x with Fin q => Fin (q / 8)%Q | _ => x end.

(** int(x) of a float: towards zero; OverflowError and ValueError (bloom.py:117-118). *)
Definition fint (x : float) : result Z :=
  match x with
  | Fin q => Ok (Z.quot (Qnum q) (QDen q))
  | PosInf | NegInf => Err OverflowError
  | NaN => Err ValueError
  end.

(** bytearray(n) of an int (bloom.py:117): zero bytes, ValueError when negative. *)
Definition bytearray_new (n : Z) : result bytes :=
  if n <? 0 then Err ValueError else Ok (repeat x00 (Z.to_nat n)).

(** bloom.py:98-120 [__init__].  [size] is what
    -1 / LN2SQUARED * nElements * math.log(nFPRate) gives, [funcs n] what
    n * 8 / nElements * LN2 gives for n bytes; both may raise. *)
Definition filter_new (size : result float) (funcs : Z -> result float) (nTweak nFlags : Z) : result filter :=
  do x <- size;
  do n <- fint (fdiv8 (fmin x (MAX_BLOOM_FILTER_SIZE * 8)));
  do vData <- bytearray_new n;
  do y <- funcs (Z.of_N (blen vData));
  do k <- fint (fmin y MAX_HASH_FUNCS);
  Ok (mkFilter vData k nTweak nFlags).

(** bloom.py:122-123 [bloom_hash]. *)
Definition bloom_hash (f : filter) (nHashNum : Z) (data : bytes) : result Z :=
  do h <- MurmurHash3 (Z.land (nHashNum * 0xFBA4C795 + f_nTweak f) M32) data;
  let m := Z.of_N (blen (f_vData f)) * 8 in
  if m =? 0 then Err ZeroDivisionError else Ok (h mod m).

(** bloom.py:125 [__bit_mask]. *)
Definition bit_mask (k : Z) : Z :=
  nth (Z.to_nat k) [0x01; 0x02; 0x04; 0x08; 0x10; 0x20; 0x40; 0x80] 0.

(** What may be given to insert and contains (bloom.py:129, 145). *)
Inductive elem := EBytes (b : bytes) | EOut (o : outpoint).

(** bloom.py:131-132, 147-148. *)
Definition elem_bytes (e : elem) : result bytes :=
  match e with EBytes b => Ok b | EOut o => outpoint_ser o end.

(** bloom.py:134, 150. *)
Definition is_full (vData : bytes) : bool :=
  match vData with [b] => (bN b =? 0xff)%N | _ => false end.

(** vData[i] |= m, bloom.py:140: IndexError outside the array. *)
Fixpoint or_at (l : bytes) (i : nat) (m : N) : result bytes :=
  match l, i with
  | [], _ => Err IndexError
  | b :: l', O => Ok (Nb (N.lor (bN b) m) :: l')
  | b :: l', S i' => do r <- or_at l' i' m; Ok (b :: r)
  end.

(** range(0, n), bloom.py:137, 153. *)
Definition range0 (n : Z) : list Z := map Z.of_nat (seq 0 (Z.to_nat n)).

(** bloom.py:137-140, the [for]. *)
Fixpoint insert_loop (is : list Z) (f : filter) (data : bytes) : result filter :=
  match is with
  | [] => Ok f
  | i :: is' =>
    do nIndex <- bloom_hash f i data;
    do v <- or_at (f_vData f) (Z.to_nat (Z.shiftr nIndex 3)) (Z.to_N (bit_mask (Z.land 7 nIndex)));
    insert_loop is' (mkFilter v (f_nHashFuncs f) (f_nTweak f) (f_nFlags f)) data
  end.

(** bloom.py:126-140 [insert]: the filter afterwards. *)
Definition insert (f : filter) (e : elem) : result filter :=
  do data <- elem_bytes e;
  if is_full (f_vData f) then Ok f else insert_loop (range0 (f_nHashFuncs f)) f data.

(** bloom.py:153-157, the [for]. *)
Fixpoint contains_loop (is : list Z) (f : filter) (data : bytes) : result bool :=
  match is with
  | [] => Ok true
  | i :: is' =>
    do nIndex <- bloom_hash f i data;
    do b <- at_ (f_vData f) (Z.to_nat (Z.shiftr nIndex 3));
    if Z.land b (bit_mask (Z.land 7 nIndex)) =? 0 then Ok false else contains_loop is' f data
  end.

(** bloom.py:142-157 [contains]. *)
Definition contains (f : filter) (e : elem) : result bool :=
  do data <- elem_bytes e;
  if is_full (f_vData f) then Ok true else contains_loop (range0 (f_nHashFuncs f)) f data.

(** bloom.py:159-160 [IsWithinSizeConstraints]. *)
Definition IsWithinSizeConstraints (f : filter) : bool :=
  (Z.of_N (blen (f_vData f)) <=? MAX_BLOOM_FILTER_SIZE) && (f_nHashFuncs f <=? MAX_HASH_FUNCS).

(** bloom.py:162-164: takes two arguments and always raises; called on a filter with a
    transaction and its hash it gets three, hence TypeError. *)
Definition IsRelevantAndUpdate (f : filter) (t : tx) (tx_hash : bytes) : result bool := Err TypeError.

(** bloom.py:180-186 [stream_serialize]; Python 3. *)
Definition filter_ser (f : filter) : result bytes :=
  do v <- bytes_ser (f_vData f);
  do h <- pack_u 4 (f_nHashFuncs f);
  do t <- pack_u 4 (f_nTweak f);
  do g <- pack_u 1 (f_nFlags f);
  Ok (v ++ h ++ t ++ g).

(** bloom.py:167-178 [stream_deserialize]: [self] is read before it is assigned.  Nothing is
    ever returned, so the type of the value does not matter. *)
Definition filter_de (s : bytes) : result (filter * bytes) :=
  do (vData, s) <- bytes_de s;
  Err UnboundLocalError.

(** bserialize.py:105-121 [deserialize] (with allow_padding False). *)
Definition filter_deserialize (s : bytes) : result filter :=
  do (f, s) <- filter_de s;
  match s with [] => Ok f | _ => Err DeserializationExtraDataError end.
