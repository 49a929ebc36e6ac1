(** The order the class Bits really has, on the lists of bits (C08). *)
From Verif Require Import Base Bits_Model Bits_Spec.

(** The bits that fill whole bytes. *)
Definition whole (l : list bool) : list bool := firstn (8 * (List.length l / 8)) l.

(** The bits beyond the whole bytes, filled up with zeros to eight. *)
Definition padded (l : list bool) : list bool :=
  let r := skipn (8 * (List.length l / 8)) l in r ++ repeat false (8 - List.length r).

(** [a] comes before [b]: its whole bytes come first in the lexicographic order,
    or they are the same and its filled up rest comes first. *)
Definition precedes (a b : list bool) : Prop :=
  bits_lex (whole a) (whole b) = true \/ (whole a = whole b /\ bits_lex (padded a) (padded b) = true).

(** [a] and [b] differ only in zeros at the end that do not fill a byte. *)
Definition same_but_zeros (a b : list bool) : Prop :=
  List.length a / 8 = List.length b / 8 /\
  exists c m n, a = c ++ repeat false m /\ b = c ++ repeat false n.
