(** Vocabulary: the exceptions with which bytes that are no proof are refused. *)
From Verif Require Import Base Proof_Model Proof_Spec.
Local Open Scope list_scope.

(** What reading a proof of a class may raise, by the declaration of the class.  Any proof may be
    cut short or have a bad flag; the number of a variant may be unknown; for the rest it is the
    declared attributes that count. *)
Inductive refusal (ct : ctable) : cid -> exn -> Prop :=
| cut_short c : refusal ct c TruncationError
| malformed c : refusal ct c DeserializationError
| no_such_variant c u : c_kind (ct c) = Variant u -> refusal ct c NameError
| by_attribute c k name sr e : declared ct c k -> In (name, sr) (c_attrs (ct k)) -> attr_refusal ct sr e -> refusal ct c e
with attr_refusal (ct : ctable) : ser -> exn -> Prop :=
| bits_empty : attr_refusal ct SerBits IndexError
| bits_tail : attr_refusal ct SerBits AssertionError
| tx_size : attr_refusal ct SerTx SerializationError
| tx_short : attr_refusal ct SerTx SerializationTruncationError
| tx_long : attr_refusal ct SerTx DeserializationExtraDataError
| out_short : attr_refusal ct SerOut SerializationTruncationError
| out_long : attr_refusal ct SerOut DeserializationExtraDataError
| no_such_member cs : attr_refusal ct (SerUnion cs) NameError
| in_member cs c e : In c cs -> refusal ct c e -> attr_refusal ct (SerUnion cs) e
| in_proof c e : refusal ct c e -> attr_refusal ct (SerProof c) e
| variant_hidden c u : c_kind (ct c) = Variant u -> attr_refusal ct (SerProof c) SerializerTypeError.

(** A set of classes that have no variants and only numbers, byte strings, truth values and each other as attributes. *)
Definition simple_classes (ct : ctable) (S : cid -> Prop) : Prop := forall c, S c -> c_kind (ct c) = Plain /\
  forall name sr, In (name, sr) (c_attrs (ct c)) -> (exists p, sr = SerPrim p) \/ (exists c', sr = SerProof c' /\ S c').

(** The claim C174 in full: what is no proof is refused as such; TruncationError is a subclass of DeserializationError. *)
Definition refused_as_malformed : Prop := forall ct c s e, wf_table ct -> deserialize ct c s = Err e -> e = DeserializationError \/ e = TruncationError.
