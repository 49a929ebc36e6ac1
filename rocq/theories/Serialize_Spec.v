(** Independent specification of the encodings. *)
From Verif Require Import Base.

(** A little-endian base-128 numeral: the low seven bits of each byte are a
    digit, least significant first. *)
Fixpoint varuint_value (enc : bytes) : N :=
  match enc with
  | [] => 0
  | b :: enc' => bN b mod 128 + 128 * varuint_value enc'
  end%N.

(** Every byte but the last has its high bit set, the last one has it clear. *)
Fixpoint varuint_framed (enc : bytes) : Prop :=
  match enc with
  | [] => False
  | [b] => (bN b < 128)%N
  | b :: enc' => (128 <= bN b)%N /\ varuint_framed enc'
  end.

(** The encoding ends in a zero digit although it has more than one digit. *)
Definition varuint_padded (enc : bytes) : Prop :=
  exists e b, enc = e ++ [b] /\ e <> [] /\ bN b = 0%N.

(** Two different inputs of [h] with the same output. *)
Definition collision (h : bytes -> bytes) (m1 m2 : bytes) : Prop := m1 <> m2 /\ h m1 = h m2.

(** The bit sequences that survive BitsSerializer (C07). *)
Definition bits_survive (l : list bool) : Prop :=
  List.length l mod 8 <> 0 \/ (l <> [] /\ skipn (List.length l - 8) l = repeat false 8).
