(** What a Bits value means: the list of its bits, most significant bit of
    each byte first. *)
From Verif Require Import Base Bits_Model.

(** The eight bits of a byte, most significant first. *)
Definition byte_bits (b : byte) : list bool :=
  map (N.testbit (bN b)) [7; 6; 5; 4; 3; 2; 1; 0]%N.

(** The bits of a byte string. *)
Definition bytes_bits (b : bytes) : list bool := flat_map byte_bits b.

(** The buffer is long enough.  Everything beyond the first [b_len] bits of the
    buffer is arbitrary ("dirty tail"). *)
Definition bits_ok (b : Bits) : Prop := b_len b <= 8 * List.length (b_buf b).

(** The bits of a Bits value. *)
Definition bits_of (b : Bits) : list bool := firstn (b_len b) (bytes_bits (b_buf b)).

(** Python's 0/1 for a bit. *)
Definition bit (x : bool) : N := if x then 1%N else 0%N.

(** [p] is an initial segment of [l]. *)
Definition is_prefix {A} (p l : list A) : Prop := exists r, l = p ++ r.

(** [p] is the longest common initial segment of [a] and [b]. *)
Definition longest_common_prefix {A} (p a b : list A) : Prop :=
  is_prefix p a /\ is_prefix p b /\
  forall q, is_prefix q a -> is_prefix q b -> is_prefix q p.

(** Iterating over [b] yields exactly the bits [l]. *)
Definition yields (b : Bits) (l : list bool) : Prop := bits_iter b = Ok (map bit l).

(** The Bits values a program can obtain through the public operations. *)
Inductive api_bits : Bits -> Prop :=
| api_new it b : bits_new it = Ok b -> api_bits b
| api_from_bytes buf l b : bits_from_bytes buf l = Ok b -> api_bits b
| api_slice a s b : api_bits a -> bits_slice a s = Ok b -> api_bits b
| api_add a b r : api_bits a -> api_bits b -> bits_add a b = Ok r -> api_bits r
| api_invert a r : api_bits a -> bits_invert a = Ok r -> api_bits r
| api_common_prefix a b r : api_bits a -> api_bits b -> bits_common_prefix a b = Ok r -> api_bits r.

(** Lexicographic order on bit lists, 0 before 1, a proper prefix first. *)
Fixpoint bits_lex (a b : list bool) : bool :=
  match a, b with
  | [], [] => false
  | [], _ :: _ => true
  | _ :: _, [] => false
  | x :: a', y :: b' => if Bool.eqb x y then bits_lex a' b' else negb x
  end.
