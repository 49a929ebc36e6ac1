(** Properties C06, C07, C09-C14: serialize.py and BitsSerializer. *)
From Verif Require Import Base Bits_Model Bits_Spec Bits_Proofs Sha256 Serialize_Model Serialize_Spec Serialize_Proofs.

(** C06: equal Bits have the same encoding; encodings are prefix-free. *)
Theorem C06_bits_encoding_canonical_prefix_free : forall a b la lb,
  api_bits a -> api_bits b -> yields a la -> yields b lb ->
  exists ea eb, bits_ser a = Ok ea /\ bits_ser b = Ok eb /\ (la = lb -> ea = eb) /\
    (forall r1 r2, ea ++ r1 = eb ++ r2 -> la = lb).
Proof. exact bits_ser_observed. Qed.
Print Assumptions C06_bits_encoding_canonical_prefix_free.

Example C06_instance : bits_ser (mkBits 3 [xbf]) = Ok [x03; xa0] /\ bits_ser (mkBits 3 [xa0]) = Ok [x03; xa0] /\
  yields (mkBits 3 [xbf]) [true;false;true] /\ yields (mkBits 3 [xa0]) [true;false;true].
Proof. repeat split. Qed.

(** C07: the full claim is false of the code. *)
Theorem C07_bits_roundtrip_refuted : exists b enc, api_bits b /\ bits_ser b = Ok enc /\
  bits_de enc = Err AssertionError.
Proof. exists (mk_bits (repeat true 8)), [x08; xff]. split; [apply mk_bits_api|]. split; reflexivity. Qed.
Print Assumptions C07_bits_roundtrip_refuted.

Theorem C07_bits_roundtrip_empty_refuted : exists b enc, api_bits b /\ yields b [] /\ bits_ser b = Ok enc /\
  bits_de enc = Err IndexError.
Proof. exists (mk_bits []), [x00]. split; [apply mk_bits_api|]. split; [apply mk_bits_api|]. split; reflexivity. Qed.
Print Assumptions C07_bits_roundtrip_empty_refuted.

(** Exactly which bit sequences survive, for every value and continuation:
    length not a multiple of eight, or non-empty with eight zero bits at the end. *)
Theorem C07_bits_roundtrip_partial : forall b l rest, api_bits b -> yields b l -> exists enc, bits_ser b = Ok enc /\
  ((List.length l mod 8 <> 0 \/ (l <> [] /\ skipn (List.length l - 8) l = repeat false 8)) ->
     exists r, bits_de (enc ++ rest) = Ok (r, rest) /\ yields r l /\ bits_eq r b = Ok true) /\
  (~ (List.length l mod 8 <> 0 \/ (l <> [] /\ skipn (List.length l - 8) l = repeat false 8)) ->
     bits_de (enc ++ rest) = Err (if (List.length l =? 0)%nat then IndexError else AssertionError)).
Proof. exact bits_roundtrip_observed. Qed.
Print Assumptions C07_bits_roundtrip_partial.

Example C07_instance : exists r, bits_de [x0b; xb2; xe0; x77] = Ok (r, [x77]) /\
  bits_iter r = Ok [1;0;1;1;0;0;1;0;1;1;1]%N.
Proof. eexists. split; reflexivity. Qed.

(** C09: varuints. *)
Theorem C09_varuint_roundtrip : forall v rest, (0 <= v)%Z ->
  read_varuint (write_varuint v ++ rest) = Ok (Z.to_N v, rest).
Proof. exact read_write_varuint. Qed.
Print Assumptions C09_varuint_roundtrip.

Example C09_roundtrip_instance : read_varuint (write_varuint 300 ++ [x99]) = Ok (300%N, [x99]).
Proof. reflexivity. Qed.

Theorem C09_varuint_shortest : forall v enc rest, (0 <= v)%Z ->
  read_varuint (enc ++ rest) = Ok (Z.to_N v, rest) ->
  List.length (write_varuint v) <= List.length enc /\
  (List.length enc = List.length (write_varuint v) -> enc = write_varuint v).
Proof. exact varuint_shortest_observed. Qed.
Print Assumptions C09_varuint_shortest.

Example C09_shortest_instance : read_varuint ([xac; x82; x00] ++ [x99]) = Ok (300%N, [x99]) /\ write_varuint 300 = [xac; x02].
Proof. split; reflexivity. Qed.

(** What reading means, independently of the reader's loop. *)
Theorem C09_varuint_reader_meaning : forall s v rest, read_varuint s = Ok (v, rest) <->
  exists enc, s = enc ++ rest /\ varuint_framed enc /\ v = varuint_value enc.
Proof. exact read_varuint_iff. Qed.
Print Assumptions C09_varuint_reader_meaning.

Example C09_instance : write_varuint (2 ^ 64 - 1) = hex "ffffffffffffffffff01" /\
  read_varuint (hex "e58e26aa") = Ok (624485%N, [xaa]).
Proof. split; vm_compute; reflexivity. Qed.

(** C10: the full claim is false of the code. *)
Theorem C10_varuint_unique_refuted : exists e1 e2 v, e1 <> e2 /\
  read_varuint e1 = Ok (v, []) /\ read_varuint e2 = Ok (v, []).
Proof. exists [x80; x00], [x00], 0%N. repeat split. discriminate. Qed.
Print Assumptions C10_varuint_unique_refuted.

(** The only alternatives are encodings padded with a final zero digit. *)
Theorem C10_varuint_unique_partial : forall e1 e2 v,
  read_varuint e1 = Ok (v, []) -> read_varuint e2 = Ok (v, []) ->
  ~ varuint_padded e1 -> ~ varuint_padded e2 -> e1 = e2.
Proof. exact varuint_unique_canonical. Qed.
Print Assumptions C10_varuint_unique_partial.

Example C10_instance : read_varuint [xe5; x8e; x26] = Ok (624485%N, []) /\ ~ varuint_padded [xe5; x8e; x26].
Proof.
  split; [reflexivity|]. intros (e & b & E & _ & Hb).
  change [xe5; x8e; x26] with ([xe5; x8e] ++ [x26]) in E. apply app_inj_tail in E. destruct E as [_ <-]. discriminate Hb.
Qed.

(** C11: primitive serializers. *)
Theorem C11_primitive_roundtrip : forall s v, prim_check s v = Ok tt -> exists enc, prim_ser s v = Ok enc /\
  forall rest, prim_de s (enc ++ rest) = Ok (v, rest).
Proof. exact prim_roundtrip. Qed.
Print Assumptions C11_primitive_roundtrip.

Theorem C11_primitive_deserialized_is_valid : forall s st v rest,
  prim_de s st = Ok (v, rest) -> prim_check s v = Ok tt.
Proof. exact prim_de_checked. Qed.
Print Assumptions C11_primitive_deserialized_is_valid.

Example C11_deserialized_instance : prim_de (SVarBytes 2 5) [x03;x01;x02;x03;x77] = Ok (PyBytes [x01;x02;x03], [x77]).
Proof. reflexivity. Qed.

Example C11_instance :
  varbytes_new 2 (Some 5%Z) = Ok (SVarBytes 2 5) /\ prim_check (SVarBytes 2 5) (PyBytes [x01;x02;x03]) = Ok tt /\
  prim_ser (SVarBytes 2 5) (PyBytes [x01;x02;x03]) = Ok [x03;x01;x02;x03] /\
  prim_check UInt16 (PyInt 65536) = Err SerializerValueError /\ prim_check UInt8 (PyBool true) = Err SerializerTypeError /\
  prim_de (SVarBytes 2 5) [x06;x01;x02;x03;x04;x05;x06] = Err DeserializationError.
Proof. repeat split. Qed.

(** A serializer accepts, and returns, exactly the lengths it was declared with: VarBytes(hi), VarBytes(lo, hi), FixedBytes(n);
    other declarations raise ValueError.  The UIntX take exactly the numbers of X bits. *)
Theorem C11_declared_lengths : forall a b lo hi, (b = None /\ lo = 0 /\ hi = a \/ b = Some hi /\ lo = a)%Z ->
  (varbytes_new a b = Err ValueError /\ ~ (0 <= lo < hi)%Z) \/
  exists s, varbytes_new a b = Ok s /\ (0 <= lo < hi)%Z /\
    (forall v, prim_check s v = Ok tt <-> exists bs, v = PyBytes bs /\ (lo <= Z.of_N (blen bs) <= hi)%Z) /\
    (forall st v rest, prim_de s st = Ok (v, rest) -> exists bs, v = PyBytes bs /\ (lo <= Z.of_N (blen bs) <= hi)%Z).
Proof.
  intros a b lo hi H. assert (E : varbytes_new a b = if ((0 <=? lo) && (lo <? hi))%Z then Ok (SVarBytes (Z.to_N lo) (Z.to_N hi)) else Err ValueError).
  { destruct H as [(-> & -> & ->)|(-> & ->)]; reflexivity. }
  rewrite E. destruct ((0 <=? lo) && (lo <? hi))%Z eqn:B; [right|left; split; [reflexivity|lia]].
  eexists. split; [reflexivity|]. split; [lia|].
  assert (C : forall v, prim_check (SVarBytes (Z.to_N lo) (Z.to_N hi)) v = Ok tt <-> exists bs, v = PyBytes bs /\ (lo <= Z.of_N (blen bs) <= hi)%Z).
  { intros v. cbn [prim_check]. split.
    - destruct v as [| |bs|]; try discriminate. destruct ((Z.to_N lo <=? blen bs) && (blen bs <=? Z.to_N hi))%N eqn:L; [|discriminate]. intros _. exists bs. split; [reflexivity|lia].
    - intros (bs & -> & L). destruct ((Z.to_N lo <=? blen bs) && (blen bs <=? Z.to_N hi))%N eqn:L'; [reflexivity|lia]. }
  split; [exact C|]. intros st v rest D. apply C. exact (prim_de_checked _ _ _ _ D).
Qed.
Theorem C11_declared_length : forall n, (fixedbytes_new n = Err ValueError /\ (n < 0)%Z) \/
  exists s, fixedbytes_new n = Ok s /\ (0 <= n)%Z /\
    (forall v, prim_check s v = Ok tt <-> exists bs, v = PyBytes bs /\ Z.of_N (blen bs) = n) /\
    (forall st v rest, prim_de s st = Ok (v, rest) -> exists bs, v = PyBytes bs /\ Z.of_N (blen bs) = n).
Proof.
  intros n. unfold fixedbytes_new. destruct (n <? 0)%Z eqn:B; [left; split; [reflexivity|lia]|right]. eexists. split; [reflexivity|]. split; [lia|].
  assert (C : forall v, prim_check (SFixed (Z.to_N n)) v = Ok tt <-> exists bs, v = PyBytes bs /\ Z.of_N (blen bs) = n).
  { intros v. cbn [prim_check]. split.
    - destruct v as [| |bs|]; try discriminate. destruct (blen bs =? Z.to_N n)%N eqn:L; [|discriminate]. intros _. exists bs. split; [reflexivity|lia].
    - intros (bs & -> & L). destruct (blen bs =? Z.to_N n)%N eqn:L'; [reflexivity|lia]. }
  split; [exact C|]. intros st v rest D. apply C. exact (prim_de_checked _ _ _ _ D).
Qed.
Theorem C11_declared_widths : forall s k, In (s, k) [(UInt8, 8); (UInt16, 16); (UInt32, 32); (UInt64, 64)]%Z ->
  (forall v, prim_check s v = Ok tt <-> exists z, v = PyInt z /\ (0 <= z < 2 ^ k)%Z) /\
  (forall st v rest, prim_de s st = Ok (v, rest) -> exists z, v = PyInt z /\ (0 <= z < 2 ^ k)%Z).
Proof.
  intros s k H. assert (exists mx, s = SUInt mx /\ mx = 2 ^ k - 1)%Z as (mx & -> & M).
  { cbn [In] in H. destruct H as [H|[H|[H|[H|[]]]]]; injection H as <- <-; eexists; (split; reflexivity). }
  assert (C : forall v, prim_check (SUInt mx) v = Ok tt <-> exists z, v = PyInt z /\ (0 <= z < 2 ^ k)%Z).
  { intros v. cbn [prim_check]. split.
    - destruct v as [|z| |]; try discriminate. destruct ((0 <=? z) && (z <=? mx))%Z eqn:L; [|discriminate]. intros _. exists z. split; [reflexivity|lia].
    - intros (z & -> & L). destruct ((0 <=? z) && (z <=? mx))%Z eqn:L'; [reflexivity|lia]. }
  split; [exact C|]. intros st v rest D. apply C. exact (prim_de_checked _ _ _ _ D).
Qed.
Print Assumptions C11_declared_lengths.
Print Assumptions C11_declared_length.
Print Assumptions C11_declared_widths.

Example C11_declared_instance : varbytes_new 5 None = Ok (SVarBytes 0 5) /\ varbytes_new 2 (Some 5)%Z = Ok (SVarBytes 2 5) /\
  varbytes_new 5 (Some 5)%Z = Err ValueError /\ varbytes_new 0 None = Err ValueError /\ fixedbytes_new 0 = Ok (SFixed 0) /\
  prim_check (SVarBytes 2 5) (PyBytes [x00; x01]) = Ok tt /\ prim_de (SVarBytes 2 5) [x01; x07] = Err DeserializationError /\
  prim_check UInt8 (PyInt 255) = Ok tt /\ prim_check UInt8 (PyInt 256) = Err SerializerValueError.
Proof. repeat split; vm_compute; reflexivity. Qed.

(** C12: truncated data (primitives and Bits; proofs are in Proof_Props.v). *)
Theorem C12_primitive_truncated : forall s v enc p q,
  prim_check s v = Ok tt -> prim_ser s v = Ok enc -> enc = p ++ q -> q <> [] -> prim_de s p = Err TruncationError.
Proof. exact prim_truncated. Qed.
Print Assumptions C12_primitive_truncated.

Theorem C12_bits_truncated : forall b enc p q,
  api_bits b -> bits_ser b = Ok enc -> enc = p ++ q -> q <> [] -> bits_de p = Err TruncationError.
Proof. exact bits_truncated_observed. Qed.
Print Assumptions C12_bits_truncated.

Example C12_bits_instance : bits_ser (mk_bits (repeat true 11)) = Ok ([x0b; xff] ++ [xe0]) /\ bits_de [x0b; xff] = Err TruncationError.
Proof. split; reflexivity. Qed.

Example C12_instance : prim_ser (SVarBytes 0 300) (PyBytes (repeat x07 200)) = Ok ([xc8] ++ [x01] ++ repeat x07 200) /\
  prim_de (SVarBytes 0 300) [xc8] = Err TruncationError /\ bits_de [x0b; xb2] = Err TruncationError.
Proof. repeat split. Qed.

(** C13: the full claim is false of the code: trailing bytes and padded lengths are accepted. *)
Theorem C13_exact_encodings_refuted : exists s buf v enc, prim_deserialize s buf = Ok v /\
  prim_ser s v = Ok enc /\ buf <> enc.
Proof. exists SBool, [xff; x00], (PyBool true), [xff]. repeat split. discriminate. Qed.
Print Assumptions C13_exact_encodings_refuted.

Theorem C13_no_trailing_but_not_exact_refuted : exists s buf v enc, prim_de s buf = Ok (v, []) /\
  prim_ser s v = Ok enc /\ buf <> enc.
Proof. exists (SVarBytes 0 5), [x81; x00; x41], (PyBytes [x41]), [x01; x41]. repeat split. discriminate. Qed.
Print Assumptions C13_no_trailing_but_not_exact_refuted.

(** What holds: an accepted buffer is never shorter than the serialization of the
    value returned, and of the same length only if it is that serialization. *)
Theorem C13_exact_encodings_partial : forall s buf v, prim_deserialize s buf = Ok v ->
  exists can, prim_ser s v = Ok can /\ List.length can <= List.length buf /\ (List.length buf = List.length can -> buf = can).
Proof. exact prim_exact. Qed.
Print Assumptions C13_exact_encodings_partial.

Example C13_instance : prim_deserialize (SVarBytes 0 5) [x81; x00; x41] = Ok (PyBytes [x41]) /\
  prim_deserialize (SVarBytes 0 5) [x01; x41] = Ok (PyBytes [x41]) /\ prim_ser (SVarBytes 0 5) (PyBytes [x41]) = Ok [x01; x41].
Proof. repeat split. Qed.

(** C14: tagged hashing. *)
Theorem C14_tagged_hash_binds : forall t1 m1 t2 m2, List.length t1 = List.length t2 ->
  tag_hash t1 m1 = tag_hash t2 m2 -> (t1 = t2 /\ m1 = m2) \/ collision sha256 (t1 ++ m1) (t2 ++ m2).
Proof. exact tag_hash_binding. Qed.
Print Assumptions C14_tagged_hash_binds.

(** Tags have 16 bytes; two messages under two of them. *)
Example C14_binds_instance :
  let t1 := uuid "6d0ef952-6621-4a85-8f4c-23ae0427c937" in let t2 := uuid "0790a99e-0a12-4677-b4c6-57054039b9cf" in
  List.length t1 = 16 /\ List.length t2 = 16 /\ tag_hash t1 [x01] <> tag_hash t2 [x01] /\ tag_hash t1 [x01] <> tag_hash t1 [x02].
Proof.
  cbv zeta. split; [vm_compute; reflexivity|]. split; [vm_compute; reflexivity|]. split;
    intros E; apply (f_equal (firstn 1)) in E; vm_compute in E; discriminate.
Qed.

Theorem C14_derived_tags_differ : forall b1 s1 b2 s2, List.length b1 = List.length b2 ->
  tag_derive b1 s1 = tag_derive b2 s2 ->
  (b1 = b2 /\ s1 = s2) \/ collision (fun m => firstn 16 (sha256 m)) (derive_root ++ b1 ++ s1) (derive_root ++ b2 ++ s2).
Proof. exact tag_derive_binding2. Qed.
Print Assumptions C14_derived_tags_differ.

(** Known answer: the constant asserted by the shipped unit test of derive. *)
Example C14_instance :
  tag_derive (uuid "6d0ef952-6621-4a85-8f4c-23ae0427c937") (uuid "0790a99e-0a12-4677-b4c6-57054039b9cf")
  = uuid "498430c5-4ed1-8dd5-3f09-97e0725c3407".
Proof. vm_compute. reflexivity. Qed.
