(** Executable model of lib/python-proofmarshal/proofmarshal/bits.py (class Bits).
    The serializer class of that file is in Serialize_Model.v. *)
From Verif Require Import Base PySlice.

(** bits.py:23 -- the two slots [__length] and [__buf].  The length is a
    natural number; the constructors never make it negative (bits.py:84-85). *)
Record Bits := mkBits { b_len : nat; b_buf : bytes }.

(** [buf[i]] on bytes for a non-negative index: an int, or IndexError.  Used in bits.py:96, 109, 152, 199, 259, 271. *)
Definition byte_at (buf : bytes) (i : nat) : result N :=
  match nth_error buf i with Some b => Ok (bN b) | None => Err IndexError end.

(** [bytes(list_of_ints)]: ValueError when an int is outside 0..255. *)
Fixpoint bytes_of_ints (l : list N) : result bytes :=
  match l with
  | [] => Ok []
  | n :: l' => do b <- pybyte n; do r <- bytes_of_ints l'; Ok (b :: r)
  end.

(** bits.py:27-35 [Bits()] (the singleton is a plain value here). *)
Definition bits_empty : Bits := mkBits 0 [].

(** bits.py:44-51, the loop body; [it] are the truth values of the iterable. *)
Fixpoint bits_new_loop (it : list bool) (buf : list N) (byte : N) (length : nat)
  : list N * N * nat :=
  match it with
  | [] => (buf, byte, length)
  | bit :: it' =>
    let byte := N.lor byte (N.shiftl (N.b2n bit) (N.of_nat (7 - length mod 8))) in
    let length := S length in
    if (length mod 8 =? 0)%nat
    then bits_new_loop it' (buf ++ [byte]) 0%N length
    else bits_new_loop it' buf byte length
  end.

(** bits.py:25-61 [Bits(iterable)] for an iterable that is neither None nor Bits
    (those two cases return the empty value / the argument itself). *)
Definition bits_new (it : list bool) : result Bits :=
  let '(buf, byte, length) := bits_new_loop it [] 0%N 0 in
  let buf := buf ++ [byte] in
  if (length =? 0)%nat then Ok bits_empty
  else do b <- bytes_of_ints buf; Ok (mkBits length b).

(** bits.py:67-92 [Bits.from_bytes(buf, length=None)]; the class checks on [buf]
    and [length] (76-77, 82-83) hold by typing. *)
Definition bits_from_bytes (buf : bytes) (length : option Z) : result Bits :=
  let l := match length with None => Z.of_nat (List.length buf) * 8 | Some l => l end%Z in
  if (l <? 0)%Z then Err ValueError
  else if (Z.of_nat (List.length buf) * 8 <? l)%Z then Err ValueError
  else Ok (mkBits (Z.to_nat l) (if (l =? 0)%Z then [] else buf)).

(** bits.py:96 and 152: bit [i] of the buffer, as the int 0 or 1. *)
Definition bit_at (buf : bytes) (i : nat) : result N :=
  do b <- byte_at buf (i / 8);
  Ok (N.land (N.shiftr b (N.of_nat (7 - i mod 8))) 1).

(** bits.py:94-96: a generator or comprehension whose body may raise, run to its end in order. *)
Fixpoint map_res {A B} (f : A -> result B) (l : list A) : result (list B) :=
  match l with
  | [] => Ok []
  | a :: l' => do b <- f a; do r <- map_res f l'; Ok (b :: r)
  end.

(** bits.py:94-96 [__iter__], the yielded ints. *)
Definition bits_iter (b : Bits) : result (list N) :=
  map_res (bit_at (b_buf b)) (seq 0 (b_len b)).

(** bits.py:98-99 [__len__]. *)
Definition bits_len (b : Bits) : nat := b_len b.

(** bits.py:101-103 [__full_width_prefix]: [buf[0:length//8]]. *)
Definition full_width_prefix (b : Bits) : bytes := firstn (b_len b / 8) (b_buf b).

(** bits.py:105-112 [__tail_bits]. *)
Definition tail_bits (b : Bits) : result N :=
  let odd_bits := b_len b mod 8 in
  if (odd_bits =? 0)%nat then Ok 0%N
  else
    do x <- byte_at (b_buf b) (b_len b / 8);
    Ok (N.land x (N.shiftl 255 (N.of_nat (8 - odd_bits)))).

(** bits.py:114-126 [__eq__] between two Bits. *)
Definition bits_eq (a b : Bits) : result bool :=
  if negb (b_len a =? b_len b)%nat then Ok false
  else if negb (bytes_eqb (full_width_prefix a) (full_width_prefix b)) then Ok false
  else do x <- tail_bits a; do y <- tail_bits b; Ok (x =? y)%N.

(** Python's [<] on bytes objects: lexicographic.  Used in bits.py:134, 138. *)
Fixpoint bytes_ltb (a b : bytes) : bool :=
  match a, b with
  | _, [] => false
  | [], _ :: _ => true
  | x :: a', y :: b' => (bN x <? bN y)%N || (Byte.eqb x y && bytes_ltb a' b')
  end.

(** bits.py:128-141 [__lt__] between two Bits. *)
Definition bits_lt (a b : Bits) : result bool :=
  let fa := full_width_prefix a in
  let fb := full_width_prefix b in
  if bytes_ltb fa fb then Ok true
  else if bytes_eqb fa fb then do x <- tail_bits a; do y <- tail_bits b; Ok (x <? y)%N
  else Ok false.

(** bits.py:144-152 [__getitem__] with an int. *)
Definition bits_getitem (b : Bits) (idx : Z) : result N :=
  let idx := if (idx <? 0)%Z then (Z.of_nat (b_len b) + idx)%Z else idx in
  if negb ((0 <=? idx) && (idx <? Z.of_nat (b_len b)))%Z then Err IndexError
  else bit_at (b_buf b) (Z.to_nat idx).

(** bits.py:154-173 [__getitem__] with a slice. *)
Definition bits_slice (b : Bits) (s : slice) : result Bits :=
  do (start, stop, step) <- slice_indices s (Z.of_nat (b_len b));
  if ((step =? 1) && (start =? 0))%Z then
    if (stop =? 0)%Z then Ok bits_empty
    else if (stop =? Z.of_nat (b_len b))%Z then Ok b
    else Ok (mkBits (Z.to_nat stop) (b_buf b))
  else
    do all <- bits_iter b;
    do sel <- py_slice all s;
    bits_new (map (fun n => negb (n =? 0)%N) sel).

(** bits.py:202-209, the byte-merging loop of [__add__]. *)
Fixpoint add_loop (rhs_offset : nat) (tail : N) (bs : bytes) : list N :=
  match bs with
  | [] => [tail]                                    (* bits.py:212 *)
  | byte :: bs' =>
    N.lor tail (N.shiftr (bN byte) (N.of_nat rhs_offset))
      :: add_loop rhs_offset
           (N.land (N.shiftl (bN byte) (N.of_nat (8 - rhs_offset))) 255) bs'
  end.

(** bits.py:179-218 [__add__] between two Bits. *)
Definition bits_add (a b : Bits) : result Bits :=
  if (b_len a =? 0)%nat then Ok b
  else if (b_len b =? 0)%nat then Ok a
  else
    let rhs_offset := b_len a mod 8 in
    do rhs_buf <-
      (if (rhs_offset =? 0)%nat then Ok (b_buf b)
       else
         do x <- byte_at (b_buf a) (b_len a / 8);
         let tail := N.land x (N.shiftl 255 (N.of_nat (8 - b_len a mod 8))) in
         bytes_of_ints
           (add_loop rhs_offset tail
              (firstn (b_len b / 8 + (if (b_len b mod 8 =? 0)%nat then 0 else 1)) (b_buf b))));
    Ok (mkBits (b_len a + b_len b) (firstn (b_len a / 8) (b_buf a) ++ rhs_buf)).

(** bits.py:220-230 [__invert__]; [~byte & 0xff] is [byte xor 0xff]. *)
Definition bits_invert (a : Bits) : result Bits :=
  if (b_len a =? 0)%nat then Ok a
  else
    do inv <- bytes_of_ints (map (fun byte => N.lxor (bN byte) 255) (firstn (b_len a / 8 + 1) (b_buf a)));
    bits_from_bytes inv (Some (Z.of_nat (b_len a))).

(** bits.py:232-245 [startswith]. *)
Definition bits_startswith (a prefix : Bits) : result bool :=
  if (b_len a <? b_len prefix)%nat then Ok false
  else if (b_len prefix =? b_len a)%nat then bits_eq prefix a
  else do s <- bits_slice a (Slice None (Some (Z.of_nat (b_len prefix))) None); bits_eq s prefix.

(** bits.py:258-262, the scan over full-width bytes: the index of the first
    difference, if any.  [n] iterations remain, starting at [i]. *)
Fixpoint first_diff (lhs rhs : bytes) (i n : nat) : result (option nat) :=
  match n with
  | O => Ok None
  | S n' =>
    do x <- byte_at lhs i;
    do y <- byte_at rhs i;
    if negb (x =? y)%N then Ok (Some i) else first_diff lhs rhs (S i) n'
  end.

(** bits.py:275-277, the shift loop; [fuel] bounds the iterations
    ([lhs.__length - common_prefix_length] of them suffice because the loop
    condition compares the two). *)
Fixpoint shift_loop (fuel : nat) (len cpl : nat) (diff : N) : nat :=
  match fuel with
  | O => cpl
  | S fuel' =>
    if (cpl <? len)%nat && (N.land diff 128 =? 0)%N
    then shift_loop fuel' len (S cpl) (N.land (N.shiftl diff 1) 255)
    else cpl
  end.

(** bits.py:247-290 [common_prefix] between two Bits. *)
Definition bits_common_prefix (a b : Bits) : result Bits :=
  let '(lhs, rhs) := if (b_len a <=? b_len b)%nat then (a, b) else (b, a) in
  do fd <- first_diff (b_buf lhs) (b_buf rhs) 0 (b_len lhs / 8);
  let '(cpl, fwb_eq) :=
    match fd with Some i => (i * 8, false) | None => (b_len lhs / 8 * 8, true) end in
  do cpl <-
    (if (cpl <? b_len lhs)%nat then
       do x <- byte_at (b_buf lhs) (cpl / 8);
       do y <- byte_at (b_buf rhs) (cpl / 8);
       Ok (shift_loop (b_len lhs - cpl) (b_len lhs) cpl (N.lxor x y))
     else Ok cpl);
  do _ <- assert (cpl <=? b_len lhs)%nat;
  if (cpl =? b_len lhs)%nat then do _ <- assert fwb_eq; Ok lhs
  else bits_from_bytes (b_buf lhs) (Some (Z.of_nat cpl)).

(** Comparison operators added by @functools.total_ordering (bits.py:19) from
    [__lt__] and [__eq__]: [a > b] is [not a < b and a != b], [a <= b] is
    [a < b or a == b], [a >= b] is [not a < b]. *)
Definition bits_gt (a b : Bits) : result bool :=
  do l <- bits_lt a b; if l then Ok false else do e <- bits_eq a b; Ok (negb e).
(** bits.py:19 [a <= b]. *)
Definition bits_le (a b : Bits) : result bool :=
  do l <- bits_lt a b; if l then Ok true else bits_eq a b.
(** bits.py:19 [a >= b]. *)
Definition bits_ge (a b : Bits) : result bool :=
  do l <- bits_lt a b; Ok (negb l).
