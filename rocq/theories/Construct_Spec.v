(** Vocabulary for C22 and C23. *)
From Verif Require Import Base Serialize_Model Proof_Model Proof_Spec.

(** ** is_pruned *)

(** A proof whose attributes are proofs only where a proof was declared; it may contain
    pruned proofs and live views. *)
Inductive shaped (ct : ctable) : val -> Prop :=
| Sd_leaf v : is_proof v = false -> shaped ct v
| Sd_hash c dh : shaped ct (PHash c dh)
| Sd_view c o st : shaped ct (PView c o st)
| Sd_full c fs : shaped_all ct (c_attrs (ct c)) fs -> shaped ct (PFull c fs)
with shaped_all (ct : ctable) : list (string * ser) -> list val -> Prop :=
| SdA_nil : shaped_all ct [] []
| SdA_cons name sr attrs f fs : shaped ct f ->
    (is_proof f = true -> match sr with SerProof _ | SerUnion _ => True | _ => False end) ->
    shaped_all ct attrs fs -> shaped_all ct ((name, sr) :: attrs) (f :: fs).

(** No attribute is declared with a ProofUnion. *)
Definition no_unions (ct : ctable) : Prop := forall c name cs, ~ In (name, SerUnion cs) (c_attrs (ct c)).

(** ** Constructors *)

(** The values a serializer is for: a proof class accepts its instances (or those of its
    variants), a union those of its members, CTransaction and COutPoint serializers objects of
    those classes, BitsSerializer Bits, primitives what [prim_ok] says. *)
Definition accepts (ct : ctable) (sr : ser) (v : val) : Prop :=
  match sr with
  | SerPrim s => prim_ok s (to_py v)
  | SerBits => exists l, v = VBits l
  | SerTx => exists t, v = VTx t
  | SerOut => exists o, v = VOut o
  | SerProof c => exists k, class_of v = Some k /\
      match c_kind (ct c) with Plain => subclass ct k c | Variant u => exists m, In m u /\ subclass ct k m end
  | SerUnion cs => exists k m, class_of v = Some k /\ In m cs /\ subclass ct k m
  end.

(** The serializers whose check is complete: primitives, classes with variants, unions. *)
Definition checked (ct : ctable) (sr : ser) : Prop :=
  match sr with
  | SerPrim _ | SerUnion _ => True
  | SerProof c => exists u, c_kind (ct c) = Variant u
  | _ => False
  end.

(** The keyword arguments supply [vs] for the attributes, each one accepted. *)
Inductive supplied (ct : ctable) (kw : list (string * val)) : list (string * ser) -> list val -> Prop :=
| Su_nil : supplied ct kw [] []
| Su_cons name sr attrs v vs : assoc name kw = Some v -> accepts ct sr v -> supplied ct kw attrs vs ->
    supplied ct kw ((name, sr) :: attrs) (v :: vs).

(** The first attribute that is missing or not accepted raises [e]. *)
Inductive complains (ct : ctable) (kw : list (string * val)) : list (string * ser) -> exn -> Prop :=
| Co_missing name sr attrs : assoc name kw = None -> complains ct kw ((name, sr) :: attrs) KeyError
| Co_bad name sr attrs v e : assoc name kw = Some v -> ~ accepts ct sr v ->
    e = SerializerTypeError \/ e = SerializerValueError -> complains ct kw ((name, sr) :: attrs) e
| Co_later name sr attrs v e : assoc name kw = Some v -> accepts ct sr v -> complains ct kw attrs e ->
    complains ct kw ((name, sr) :: attrs) e.

(** Superclasses of [c] among the classes of [h] declare the same attributes as [c]. *)
Definition harmless (ct : ctable) (c : cid) (h : list (cid * list (string * val))) : Prop :=
  forall d, In d (map fst h) -> subclass ct c d -> c_attrs (ct d) = c_attrs (ct c).

(** The attributes of a complete instance, by name. *)
Definition named (ct : ctable) (r : result val) : result (list (string * val)) :=
  do p <- r; match p with PFull c vs => Ok (combine (map fst (c_attrs (ct c))) vs) | _ => Err AttributeError end.
