(** Vocabulary for C187: texts of hexadecimal digits. *)
From Verif Require Import Base Base58_Model.

(** The text [s] consists of the digits of [n], most significant first, perhaps after zeros. *)
Inductive hex_of : text -> N -> Prop :=
| hex_none : hex_of [] 0
| hex_more : forall s n c d, hex_of s n -> nth_error (list_ascii_of_string "0123456789abcdef") (N.to_nat d) = Some c -> hex_of (s ++ [c]) (16 * n + d).
