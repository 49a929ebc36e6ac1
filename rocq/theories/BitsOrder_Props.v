(** Property C08, continued: what the order of Bits is on all values. *)
From Verif Require Import Base PySlice PySlice_Proofs Bits_Model Bits_Spec Bits_Proofs BitsOrder_Spec BitsOrder_Proofs.

(** All four operators, on any two values. *)
Theorem C08_bits_operators_partial : forall a b la lb, api_bits a -> api_bits b -> yields a la -> yields b lb ->
  exists lt gt le ge, bits_lt a b = Ok lt /\ bits_gt a b = Ok gt /\ bits_le a b = Ok le /\ bits_ge a b = Ok ge /\
    (lt = true <-> precedes la lb) /\ (gt = true <-> ~ precedes la lb /\ la <> lb) /\
    (le = true <-> precedes la lb \/ la = lb) /\ (ge = true <-> ~ precedes la lb).
Proof. exact derived_operators. Qed.
Print Assumptions C08_bits_operators_partial.

Example C08_operators_instance :
  let a := mk_bits [true] in let b := mk_bits [false;false;false;false;false;false;false;true;true] in
  precedes [true] [false;false;false;false;false;false;false;true;true] /\
  bits_lt a b = Ok true /\ bits_gt a b = Ok false /\ bits_le a b = Ok true /\ bits_ge a b = Ok false /\
  bits_lt b a = Ok false /\ bits_gt b a = Ok true /\ bits_le b a = Ok false /\ bits_ge b a = Ok true.
Proof. split; [left; reflexivity|]. repeat split. Qed.

(** Neither of two values comes before the other exactly when they differ at most
    in zeros at the end that do not fill a byte: the only failures of totality. *)
Theorem C08_bits_unordered_partial : forall a b la lb, api_bits a -> api_bits b -> yields a la -> yields b lb ->
  ((bits_lt a b = Ok false /\ bits_lt b a = Ok false) <-> same_but_zeros la lb).
Proof. exact unordered_iff. Qed.
Print Assumptions C08_bits_unordered_partial.

Example C08_unordered_instance :
  same_but_zeros [true;false] [true;false;false;false] /\
  bits_lt (mk_bits [true;false]) (mk_bits [true;false;false;false]) = Ok false /\
  bits_lt (mk_bits [true;false;false;false]) (mk_bits [true;false]) = Ok false /\
  bits_lt (mk_bits [true;false]) (mk_bits [true;false;false;false;false;false;false;false]) = Ok true /\
  bits_lt (mk_bits [true;false;false;false;false;false;false;false]) (mk_bits [true;false]) = Ok false.
Proof. split; [split; [reflexivity|]; exists [true], 1, 3; split; reflexivity|]. repeat split. Qed.

(** On values of the same length all operators are those of the lexicographic order. *)
Theorem C08_bits_operators_same_length_partial : forall a b la lb, api_bits a -> api_bits b -> yields a la -> yields b lb ->
  List.length la = List.length lb ->
  bits_gt a b = Ok (bits_lex lb la) /\ bits_le a b = Ok (negb (bits_lex lb la)) /\ bits_ge a b = Ok (negb (bits_lex la lb)).
Proof. exact same_length_operators. Qed.
Print Assumptions C08_bits_operators_same_length_partial.

Example C08_operators_same_length_instance :
  let a := mk_bits [false;true;true] in let b := mk_bits [false;true;false] in
  yields a [false;true;true] /\ yields b [false;true;false] /\
  bits_gt a b = Ok true /\ bits_le a b = Ok false /\ bits_ge a b = Ok true /\ bits_ge a a = Ok true /\ bits_le a a = Ok true.
Proof. repeat split. Qed.
