(** Properties C01-C05 and C08: the class Bits. *)
From Verif Require Import Base PySlice PySlice_Proofs Bits_Model Bits_Spec Bits_Proofs.

(** C01: construction from any iterable. *)
Theorem C01_bits_from_iterable : forall it : list bool, exists b,
  bits_new it = Ok b /\ api_bits b /\ yields b it /\ bits_len b = List.length it.
Proof. exact bits_new_observed. Qed.
Print Assumptions C01_bits_from_iterable.

Example C01_from_iterable_instance : exists b, bits_new [true;false;true] = Ok b /\ bits_len b = 3 /\ bits_iter b = Ok [1;0;1]%N.
Proof. eexists. repeat split. Qed.

(** C01: construction from a buffer and a length, for every buffer and every integer length. *)
Theorem C01_bits_from_buffer : forall (buf : bytes) (l : Z),
  if ((0 <=? l) && (l <=? 8 * Z.of_nat (List.length buf)))%Z
  then exists b, bits_from_bytes buf (Some l) = Ok b /\ yields b (firstn (Z.to_nat l) (bytes_bits buf)) /\
                 bits_len b = Z.to_nat l
  else bits_from_bytes buf (Some l) = Err ValueError.
Proof. exact bits_from_bytes_observed. Qed.
Print Assumptions C01_bits_from_buffer.

Example C01_from_buffer_instance : (exists b, bits_from_bytes [xb2; xff] (Some 11%Z) = Ok b /\
    bits_iter b = Ok [1;0;1;1;0;0;1;0;1;1;1]%N) /\
  bits_from_bytes [xb2; xff] (Some 17%Z) = Err ValueError /\ bits_from_bytes [xb2] (Some (-1)%Z) = Err ValueError.
Proof. split; [eexists; split; reflexivity|split; reflexivity]. Qed.

Theorem C01_bits_from_buffer_default_length : forall buf : bytes, exists b,
  bits_from_bytes buf None = Ok b /\ yields b (bytes_bits buf) /\ bits_len b = 8 * List.length buf.
Proof. exact bits_from_bytes_default. Qed.
Print Assumptions C01_bits_from_buffer_default_length.

Example C01_default_length_instance : exists b, bits_from_bytes [xb2] None = Ok b /\ bits_iter b = Ok [1;0;1;1;0;0;1;0]%N.
Proof. eexists. split; reflexivity. Qed.

(** C01: every Bits value a program can obtain behaves as one list of bits:
    iteration, length and indexing (all integers, negative ones too) agree. *)
Theorem C01_bits_is_a_sequence : forall b, api_bits b -> exists l,
  yields b l /\ bits_len b = List.length l /\
  forall i : Z, bits_getitem b i = match py_index l i with Ok x => Ok (bit x) | Err e => Err e end.
Proof. exact bits_sequence. Qed.
Print Assumptions C01_bits_is_a_sequence.

Definition b11 := mk_bits [true;false;true;true;false;false;true;false;true;true;true].

Example C01_instance : api_bits b11 /\ bits_len b11 = 11 /\ bits_iter b11 = Ok [1;0;1;1;0;0;1;0;1;1;1]%N /\
  bits_getitem b11 (-2) = Ok 1%N /\ bits_getitem b11 11 = Err IndexError /\ bits_getitem b11 (-12) = Err IndexError.
Proof. split; [apply mk_bits_api|]. repeat split. Qed.

(** C02: slicing is list slicing, for every start/stop/step. *)
Theorem C02_bits_slice_is_list_slice : forall b l s, api_bits b -> yields b l ->
  match py_slice l s with
  | Ok r => exists b', bits_slice b s = Ok b' /\ api_bits b' /\ yields b' r
  | Err e => bits_slice b s = Err e
  end.
Proof. exact bits_slice_observed. Qed.
Print Assumptions C02_bits_slice_is_list_slice.

(** The only error of list slicing is ValueError for step zero. *)
Theorem C02_slice_errors : forall (l : list bool) s,
  (py_slice l s = Err ValueError /\ sl_step s = Some 0%Z) \/ (exists r, py_slice l s = Ok r /\ sl_step s <> Some 0%Z).
Proof. exact (@py_slice_total bool). Qed.
Print Assumptions C02_slice_errors.

Example C02_step_zero_instance : py_slice [true;false] (Slice None None (Some 0%Z)) = Err ValueError /\
  bits_slice (mk_bits [true;false]) (Slice None None (Some 0%Z)) = Err ValueError.
Proof. split; reflexivity. Qed.

Example C02_instance : exists r, bits_slice b11 (Slice (Some (-2)%Z) None (Some (-2)%Z)) = Ok r /\ bits_iter r = Ok [1;0;0;1;0]%N.
Proof. eexists. split; reflexivity. Qed.

(** C03: equality of Bits is equality of the bits they yield. *)
Theorem C03_bits_eq_iff_same_bits : forall a b la lb, api_bits a -> api_bits b -> yields a la -> yields b lb ->
  exists r, bits_eq a b = Ok r /\ (r = true <-> la = lb).
Proof. exact bits_eq_observed. Qed.
Print Assumptions C03_bits_eq_iff_same_bits.

(** A dirty tail: the same three bits over buffers b'\xbf' and b'\xa0'. *)
Example C03_instance :
  bits_from_bytes [xbf] (Some 3%Z) = Ok (mkBits 3 [xbf]) /\ bits_from_bytes [xa0] (Some 3%Z) = Ok (mkBits 3 [xa0]) /\
  bits_eq (mkBits 3 [xbf]) (mkBits 3 [xa0]) = Ok true /\ yields (mkBits 3 [xbf]) [true;false;true].
Proof. repeat split. Qed.

(** C04: concatenation and inversion. *)
Theorem C04_bits_add_is_append : forall a b la lb, api_bits a -> api_bits b -> yields a la -> yields b lb ->
  exists r, bits_add a b = Ok r /\ api_bits r /\ yields r (la ++ lb).
Proof. exact bits_add_observed. Qed.
Print Assumptions C04_bits_add_is_append.

Theorem C04_bits_invert_is_negation : forall a la, api_bits a -> yields a la ->
  exists r, bits_invert a = Ok r /\ api_bits r /\ yields r (map negb la).
Proof. exact bits_invert_observed. Qed.
Print Assumptions C04_bits_invert_is_negation.

Example C04_invert_instance : exists r, bits_invert (mkBits 5 [xb7]) = Ok r /\ bits_iter r = Ok [0;1;0;0;1]%N.
Proof. eexists. split; reflexivity. Qed.

(** The left operand has a dirty tail (5 of 8 bits used). *)
Example C04_instance : exists r, bits_add (mkBits 5 [xff]) b11 = Ok r /\
  bits_iter r = Ok [1;1;1;1;1;1;0;1;1;0;0;1;0;1;1;1]%N.
Proof. eexists. split; reflexivity. Qed.

(** C05: startswith and common_prefix. *)
Theorem C05_bits_startswith_iff_prefix : forall a p la lp, api_bits a -> api_bits p -> yields a la -> yields p lp ->
  exists r, bits_startswith a p = Ok r /\ (r = true <-> is_prefix lp la).
Proof. exact bits_startswith_observed. Qed.
Print Assumptions C05_bits_startswith_iff_prefix.

Example C05_startswith_instance : bits_startswith b11 (mkBits 3 [xbf]) = Ok true /\
  bits_startswith b11 (mkBits 3 [xff]) = Ok false /\ bits_startswith (mkBits 3 [xbf]) b11 = Ok false.
Proof. repeat split. Qed.

Theorem C05_bits_common_prefix_longest : forall a b la lb, api_bits a -> api_bits b -> yields a la -> yields b lb ->
  exists r p, bits_common_prefix a b = Ok r /\ api_bits r /\ yields r p /\ longest_common_prefix p la lb.
Proof. exact bits_common_prefix_observed. Qed.
Print Assumptions C05_bits_common_prefix_longest.

Example C05_instance : exists r,
  bits_common_prefix b11 (mk_bits [true;false;true;true;false;false;true;false;true;false]) = Ok r /\ bits_len r = 9.
Proof. eexists. split; reflexivity. Qed.

(** C08: the full claim (exactly one of a<b, a==b, b<a) is false of the code:
    [0] and [0,0] are neither equal nor ordered, and with the derived operators
    each is greater than the other; and the order is not lexicographic. *)
Theorem C08_bits_order_total_refuted : exists a b, api_bits a /\ api_bits b /\
  bits_lt a b = Ok false /\ bits_eq a b = Ok false /\ bits_lt b a = Ok false /\
  bits_gt a b = Ok true /\ bits_gt b a = Ok true.
Proof. exists (mk_bits [false]), (mk_bits [false;false]). split; [apply mk_bits_api|]. split; [apply mk_bits_api|]. repeat split. Qed.
Print Assumptions C08_bits_order_total_refuted.

Theorem C08_bits_order_lexicographic_refuted : exists a b la lb, api_bits a /\ api_bits b /\
  yields a la /\ yields b lb /\ bits_lt a b = Ok true /\ bits_lex lb la = true.
Proof.
  exists (mk_bits [true]), (mk_bits (repeat false 8)), [true], (repeat false 8).
  split; [apply mk_bits_api|]. split; [apply mk_bits_api|]. repeat split.
Qed.
Print Assumptions C08_bits_order_lexicographic_refuted.

(** What does hold: on equal lengths it is the total lexicographic order ... *)
Theorem C08_bits_order_partial : forall a b la lb, api_bits a -> api_bits b -> yields a la -> yields b lb ->
  List.length la = List.length lb ->
  bits_lt a b = Ok (bits_lex la lb) /\
  (bits_lt a b = Ok true \/ bits_eq a b = Ok true \/ bits_lt b a = Ok true).
Proof. exact bits_order_same_length. Qed.
Print Assumptions C08_bits_order_partial.

Example C08_same_length_instance : yields (mkBits 3 [x5f]) [false;true;false] /\ yields (mkBits 3 [x60]) [false;true;true] /\
  bits_lt (mkBits 3 [x5f]) (mkBits 3 [x60]) = Ok true.
Proof. repeat split. Qed.

(** ... and on all values it is irreflexive and transitive. *)
Theorem C08_bits_order_strict_partial : forall a b c, api_bits a -> api_bits b -> api_bits c ->
  bits_lt a a = Ok false /\ (bits_lt a b = Ok true -> bits_lt b c = Ok true -> bits_lt a c = Ok true).
Proof. exact bits_order_strict. Qed.
Print Assumptions C08_bits_order_strict_partial.

Example C08_instance : bits_lt (mk_bits [false;true;false]) (mk_bits [false;true;true]) = Ok true /\
  bits_lt (mk_bits [false;true;true]) (mk_bits [true;false;false]) = Ok true.
Proof. split; reflexivity. Qed.
