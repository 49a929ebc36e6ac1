(** Executable model of lib/python-proofmarshal/proofmarshal/serialize.py
    (cited as serialize.py) and of class BitsSerializer of
    lib/python-proofmarshal/proofmarshal/bits.py (cited as bits.py).

    A stream being read is the list of bytes not yet read; a reader returns the
    value together with the remaining stream.  A writer returns the bytes it
    appends.  Resource limits of the interpreter are not modelled: streams and
    integers are unbounded (io.BytesIO.read raises OverflowError for a length of
    2**63 or more; here such a read is a TruncationError). *)
From Verif Require Import Base Bits_Model Sha256.

(** ** Contexts (serialize.py:139-221) *)

(** serialize.py:161-168, the loop of [write_varuint].  [fuel] bounds the number
    of iterations; [write_varuint_unfold] (Serialize_Proofs) shows it never runs
    out.  [bytes([b])] cannot raise here since 0 <= b < 256. *)
Fixpoint write_varuint_loop (fuel : nat) (value : Z) : bytes :=
  match fuel with
  | O => []
  | S fuel' =>
    if (value =? 0)%Z then []
    else
      let b := Z.land value 127 in
      let b := if (127 <? value)%Z then Z.lor b 128 else b in
      Nb (Z.to_N b) :: (if (value <=? 127)%Z then [] else write_varuint_loop fuel' (Z.shiftr value 7))
  end.

(** serialize.py:155-168 [write_varuint]; the value may be negative (nothing
    checks), in which case a single byte is written. *)
Definition write_varuint (value : Z) : bytes :=
  if (value =? 0)%Z then [x00] else write_varuint_loop (S (Z.to_nat (Z.log2 value))) value.

(** serialize.py:183-188 [fd_read]. *)
Definition fd_read (l : N) (s : bytes) : result (bytes * bytes) :=
  if (blen s <? l)%N then Err TruncationError
  else Ok (firstn (N.to_nat l) s, skipn (N.to_nat l) s).

(** serialize.py:206-211, the loop of [read_varuint]; each iteration consumes a
    byte, so the stream itself is the recursion argument. *)
Fixpoint read_varuint_loop (value shift : N) (s : bytes) : result (N * bytes) :=
  match s with
  | [] => Err TruncationError
  | b :: s' =>
    let value := N.lor value (N.shiftl (N.land (bN b) 127) shift) in
    if (N.land (bN b) 128 =? 0)%N then Ok (value, s')
    else read_varuint_loop value (shift + 7) s'
  end.

(** serialize.py:202-213 [read_varuint]. *)
Definition read_varuint (s : bytes) : result (N * bytes) := read_varuint_loop 0 0 s.

(** serialize.py:190-200 [read_bool]. *)
Definition read_bool (s : bytes) : result (bool * bytes) :=
  do (r, s') <- fd_read 1 s;
  match r with
  | b :: _ =>
    if (bN b =? 255)%N then Ok (true, s')
    else if (bN b =? 0)%N then Ok (false, s')
    else Err DeserializationError
  | [] => Err IndexError
  end.

(** serialize.py:144-153 [write_bool] on an actual bool. *)
Definition write_bool (v : bool) : bytes := if v then [xff] else [x00].

(** ** Primitive serializers (serialize.py:284-414) *)

(** A Python object as the primitive serializers see it: they only look at
    whether its class is bool, int or bytes.  Everything else is [PyOther].
    serialize.py:287-289, 317-322, 362-368, 389-394. *)
Inductive pyval := PyBool (b : bool) | PyInt (z : Z) | PyBytes (b : bytes) | PyOther.

(** The primitive serializer classes: SerBool (284-297), FixedBytes(n) (299-330),
    VarBytes(min,max) (332-381), UInt with MAX_INT (386-414). *)
Inductive sprim := SBool | SFixed (n : N) | SVarBytes (mn mx : N) | SUInt (mx : Z).

(** serialize.py:383-384. *)
Definition Digest : sprim := SFixed 32.
(** serialize.py:407-414. *)
Definition UInt8 : sprim := SUInt (2 ^ 8 - 1).
(** serialize.py:409-410. *)
Definition UInt16 : sprim := SUInt (2 ^ 16 - 1).
(** serialize.py:411-412. *)
Definition UInt32 : sprim := SUInt (2 ^ 32 - 1).
(** serialize.py:413-414. *)
Definition UInt64 : sprim := SUInt (2 ^ 64 - 1).

(** serialize.py:303-314 [FixedBytes(expected_length)] (an int argument). *)
Definition fixedbytes_new (n : Z) : result sprim :=
  if (n <? 0)%Z then Err ValueError else Ok (SFixed (Z.to_N n)).

(** serialize.py:337-359 [VarBytes(max_or_min_length, max_length=None)] (int arguments). *)
Definition varbytes_new (a : Z) (b : option Z) : result sprim :=
  let '(mn, mx) := match b with None => (0%Z, a) | Some mx => (a, mx) end in
  if ((0 <=? mn) && (mn <? mx))%Z then Ok (SVarBytes (Z.to_N mn) (Z.to_N mx)) else Err ValueError.

(** serialize.py:286-289, 316-322, 361-368, 388-394 [check_instance]. *)
Definition prim_check (s : sprim) (v : pyval) : result unit :=
  match s, v with
  | SBool, PyBool _ => Ok tt
  | SBool, _ => Err SerializerTypeError
  | SFixed n, PyBytes b => if (blen b =? n)%N then Ok tt else Err SerializerValueError
  | SFixed _, _ => Err SerializerTypeError
  | SVarBytes mn mx, PyBytes b =>
    if ((mn <=? blen b) && (blen b <=? mx))%N then Ok tt else Err SerializerValueError
  | SVarBytes _ _, _ => Err SerializerTypeError
  | SUInt mx, PyInt z => if ((0 <=? z) && (z <=? mx))%Z then Ok tt else Err SerializerValueError
  | SUInt _, _ => Err SerializerTypeError
  end.

(** serialize.py:291-293, 324-326, 370-373, 396-398 [ctx_serialize]; nothing is
    checked here.  An object of a class the operation does not support raises
    TypeError ([PyOther]: assumed not to emulate bytes or int). *)
Definition prim_ser (s : sprim) (v : pyval) : result bytes :=
  match s, v with
  | SBool, PyBool b => Ok (write_bool b)
  | SFixed _, PyBytes b => Ok b
  | SVarBytes _ _, PyBytes b => Ok (write_varuint (Z.of_N (blen b)) ++ b)
  | SUInt _, PyInt z => Ok (write_varuint z)
  | SUInt _, PyBool b => Ok (write_varuint (Z.b2z b))
  | _, _ => Err TypeError
  end.

(** serialize.py:295-297, 328-330, 375-381, 400-405 [ctx_deserialize]. *)
Definition prim_de (s : sprim) (st : bytes) : result (pyval * bytes) :=
  match s with
  | SBool => do (b, st) <- read_bool st; Ok (PyBool b, st)
  | SFixed n => do (b, st) <- fd_read n st; Ok (PyBytes b, st)
  | SVarBytes mn mx =>
    do (l, st) <- read_varuint st;
    if ((mn <=? l) && (l <=? mx))%N
    then do (b, st) <- fd_read l st; Ok (PyBytes b, st)
    else Err DeserializationError
  | SUInt mx =>
    do (r, st) <- read_varuint st;
    if ((0 <=? Z.of_N r) && (Z.of_N r <=? mx))%Z then Ok (PyInt (Z.of_N r), st)
    else Err DeserializationError
  end.

(** serialize.py:269-274 [serialize] and 276-282 [deserialize] for a primitive:
    bytes left over after the value are silently dropped (281). *)
Definition prim_deserialize (s : sprim) (buf : bytes) : result pyval :=
  do (v, _) <- prim_de s buf; Ok v.

(** ** BitsSerializer (bits.py:295-316) *)

(** bits.py:296-298 [check_instance] returns a bool and never raises. *)
Definition bits_check_raises : bool := false.

(** bits.py:300-306 [ctx_serialize]. *)
Definition bits_ser (b : Bits) : result bytes :=
  let hd := write_varuint (Z.of_nat (b_len b)) ++ full_width_prefix b in
  if (b_len b mod 8 =? 0)%nat then Ok hd
  else do t <- tail_bits b; do x <- pybyte t; Ok (hd ++ [x]).

(** bits.py:308-316 [ctx_deserialize]; [buf[-1]] raises IndexError on empty. *)
Definition bits_de (s : bytes) : result (Bits * bytes) :=
  do (length, s) <- read_varuint s;
  do (buf, s) <- fd_read (length / 8 + (if (length mod 8 =? 0)%N then 0 else 1)) s;
  do r <- bits_from_bytes buf (Some (Z.of_N length));
  do t <- tail_bits r;
  do l <- match buf with [] => Err IndexError | _ => Ok (bN (List.last buf x00)) end;
  do _ <- assert (t =? l)%N;
  Ok (r, s).

(** ** HashTag (serialize.py:439-469) *)

(** serialize.py:466-469 [__call__(msg).digest()]. *)
Definition tag_hash (tag msg : bytes) : bytes := sha256 (tag ++ msg).

(** serialize.py:455. *)
Definition derive_root : bytes := uuid "8125d227-981c-4ca0-afa7-ab9911352c85".

(** serialize.py:450-457 [derive]. *)
Definition tag_derive (self subtag : bytes) : bytes :=
  firstn 16 (tag_hash derive_root (self ++ subtag)).
