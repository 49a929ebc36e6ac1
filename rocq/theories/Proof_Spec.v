(** Vocabulary for the properties of proof.py: class declarations that make sense,
    values that fit a declaration, complete values, the byte strings hashed, read
    sequences and computations. *)
From Verif Require Import Base Sha256 Serialize_Model Serialize_Spec Tx_Model Tx_Spec Proof_Model.

(** ** Class declarations *)

Definition subclass (ct : ctable) (k c : cid) : Prop := In c (c_supers (ct k)).

(** The classes an attribute declared with proof class [c] can hold. *)
Definition declared (ct : ctable) (c k : cid) : Prop :=
  match c_kind (ct c) with Plain => k = c | Variant u => In k u end.

(** The classes an attribute declared with [sr] can hold. *)
Definition standing (ct : ctable) (sr : ser) (k : cid) : Prop :=
  match sr with
  | SerProof c => declared ct c k
  | SerUnion cs => exists c, In c cs /\ declared ct c k
  | _ => False
  end.

(** What a set of Python class statements provides: distinct attribute names; a class is a
    subclass of itself; every variant sees the list it is a member of and is not a
    subclass of an earlier variant; a class standing for one member of a ProofUnion is not a
    subclass of an earlier member; TxProof has its one attribute. *)
Record wf_table (ct : ctable) : Prop := {
  wf_names : forall c, NoDup (map fst (c_attrs (ct c)));
  wf_self : forall c, subclass ct c c;
  wf_variants : forall c u i k, c_kind (ct c) = Variant u -> nth_error u i = Some k ->
    c_kind (ct k) = Variant u /\ forall j m, j < i -> nth_error u j = Some m -> ~ subclass ct k m;
  wf_unions : forall c name cs i m k, In (name, SerUnion cs) (c_attrs (ct c)) ->
    nth_error cs i = Some m -> declared ct m k ->
    subclass ct k m /\ forall j m', j < i -> nth_error cs j = Some m' -> ~ subclass ct k m';
  wf_tx_class : forall c, c_hash (ct c) = HTx -> c_kind (ct c) = Plain /\ exists name, c_attrs (ct c) = [(name, SerTx)] }.

(** Hash tags: 16 bytes, and two different classes that can stand for the same attribute
    both have one and they differ. *)
Record wf_tags (ct : ctable) : Prop := {
  tag_len : forall c t, c_hash (ct c) = HTag (Some t) -> List.length t = 16;
  tag_distinct : forall c name sr k1 k2, In (name, sr) (c_attrs (ct c)) -> standing ct sr k1 -> standing ct sr k2 ->
    k1 = k2 \/ exists t1 t2, c_hash (ct k1) = HTag (Some t1) /\ c_hash (ct k2) = HTag (Some t2) /\ t1 <> t2 }.

(** ** Values *)

(** The values a primitive serializer is for. *)
Definition prim_ok (s : sprim) (v : pyval) : Prop :=
  match s, v with
  | SBool, PyBool _ => True
  | SFixed n, PyBytes b => blen b = n
  | SVarBytes mn mx, PyBytes b => (mn <= blen b <= mx)%N
  | SUInt mx, PyInt z => (0 <= z <= mx)%Z
  | _, _ => False
  end.

(** [fits ct Q sr v]: [v] is a value for an attribute declared with [sr], its sub-proofs are
    of the declared classes (complete, or fully pruned to their data hash), and every Bits in
    it satisfies [Q]. *)
Inductive fits (ct : ctable) (Q : list bool -> Prop) : ser -> val -> Prop :=
| F_prim s v : prim_ok s v -> fits ct Q (SerPrim s) (VPrim v)
| F_bits l : Q l -> fits ct Q SerBits (VBits l)
| F_tx t : wf_tx t -> fits ct Q SerTx (VTx t)
| F_out o : wf_outpoint o -> fits ct Q SerOut (VOut o)
| F_full c k fs : declared ct c k -> fits_all ct Q (c_attrs (ct k)) fs -> fits ct Q (SerProof c) (PFull k fs)
| F_hash c dh : declared ct c c -> List.length dh = 32 -> fits ct Q (SerProof c) (PHash c dh)
| F_union cs c v : In c cs -> fits ct Q (SerProof c) v -> fits ct Q (SerUnion cs) v
with fits_all (ct : ctable) (Q : list bool -> Prop) : list (string * ser) -> list val -> Prop :=
| FA_nil : fits_all ct Q [] []
| FA_cons name sr attrs f fs : fits ct Q sr f -> fits_all ct Q attrs fs -> fits_all ct Q ((name, sr) :: attrs) (f :: fs).

(** No condition on Bits. *)
Definition any_bits (l : list bool) : Prop := True.

(** [holds ct sr v]: [v] is a value for an attribute declared with [sr], however it was
    obtained: every sub-proof is of one of the declared classes and is either there or
    replaced by any 32-byte data hash. *)
Inductive holds (ct : ctable) : ser -> val -> Prop :=
| Ho_leaf sr v : is_proof v = false -> fits ct any_bits sr v -> holds ct sr v
| Ho_full c k fs : declared ct c k -> holds_all ct (c_attrs (ct k)) fs -> holds ct (SerProof c) (PFull k fs)
| Ho_hash c k dh : declared ct c k -> List.length dh = 32 -> holds ct (SerProof c) (PHash k dh)
| Ho_union cs c v : In c cs -> holds ct (SerProof c) v -> holds ct (SerUnion cs) v
with holds_all (ct : ctable) : list (string * ser) -> list val -> Prop :=
| HoA_nil : holds_all ct [] []
| HoA_cons name sr attrs f fs : holds ct sr f -> holds_all ct attrs fs -> holds_all ct ((name, sr) :: attrs) (f :: fs).

(** Nothing reachable from the value is pruned. *)
Inductive complete : val -> Prop :=
| C_prim v : complete (VPrim v)
| C_bits l : complete (VBits l)
| C_tx t : complete (VTx t)
| C_out o : complete (VOut o)
| C_full c fs : Forall complete fs -> complete (PFull c fs).

(** The value contains no live view. *)
Inductive settled : val -> Prop :=
| S_prim v : settled (VPrim v)
| S_bits l : settled (VBits l)
| S_tx t : settled (VTx t)
| S_out o : settled (VOut o)
| S_hash c dh : settled (PHash c dh)
| S_full c fs : Forall settled fs -> settled (PFull c fs).

(** ** Hash binding *)

(** What attribute [f] declared with [sr] contributes to the data hash. *)
Definition part (ct : ctable) (a : string * ser) (f : val) (p : bytes) : Prop :=
  match snd a with
  | SerProof _ | SerUnion _ => phash ct f = Ok p
  | sr => ser_leaf sr f = Ok p
  end.
Inductive parts (ct : ctable) : list (string * ser) -> list val -> list bytes -> Prop :=
| P_nil : parts ct [] [] []
| P_cons a attrs f fs p ps : part ct a f p -> parts ct attrs fs ps -> parts ct (a :: attrs) (f :: fs) (p :: ps).

(** [m] is one of the byte strings given to SHA-256 when the hash of [v] is computed:
    the concatenated parts of a proof, its tag followed by the data hash, the serialized
    transaction and its first hash, or such a string of a sub-proof. *)
Inductive hashed (ct : ctable) : val -> bytes -> Prop :=
| H_data c fs ps : c_hash (ct c) <> HTx -> parts ct (c_attrs (ct c)) fs ps -> hashed ct (PFull c fs) (concat ps)
| H_tag c v t dh : class_of v = Some c -> c_hash (ct c) = HTag (Some t) -> data_hash ct v = Ok dh -> hashed ct v (t ++ dh)
| H_tx1 c t b : c_hash (ct c) = HTx -> tx_ser t = Ok b -> hashed ct (PFull c [VTx t]) b
| H_tx2 c t b : c_hash (ct c) = HTx -> tx_ser t = Ok b -> hashed ct (PFull c [VTx t]) (sha256 b)
| H_sub c fs f m : c_hash (ct c) <> HTx -> In f fs -> hashed ct f m -> hashed ct (PFull c fs) m.

(** Two byte strings hashed for [v1] and [v2] collide. *)
Definition hash_collision (ct : ctable) (v1 v2 : val) : Prop :=
  exists m1 m2, hashed ct v1 m1 /\ hashed ct v2 m2 /\ collision sha256 m1 m2.

(** Equal up to pruning: where one side is pruned to its data hash, the other has that
    class and data hash. *)
Inductive agree (ct : ctable) : val -> val -> Prop :=
| A_refl v : agree ct v v
| A_full c fs1 fs2 : Forall2 (agree ct) fs1 fs2 -> agree ct (PFull c fs1) (PFull c fs2)
| A_left c dh w : class_of w = Some c -> data_hash ct w = Ok dh -> agree ct (PHash c dh) w
| A_right c dh w : class_of w = Some c -> data_hash ct w = Ok dh -> agree ct w (PHash c dh).

(** ** Using a pruned view *)

(** What a program can do with a view: read [view.a.b.c], or serialize it or a sub-view
    reached by a path. *)
Inductive op := Read (path : list string) | Ser.

(** The view after one operation / after a sequence of them. *)
Definition step (ct : ctable) (v : val) (o : op) : val :=
  match o with Read path => snd (read ct v path) | Ser => after_ser ct v end.
Definition steps (ct : ctable) (v : val) (os : list op) : val := fold_left (step ct) os v.

(** What a program learns from a read: the value of a non-proof attribute, or a proof of
    some class (whose attributes it can read in turn), or an exception. *)
Inductive obs := OVal (v : val) | OProof (c : cid) | OErr (e : exn).
Definition observe (r : result val) : obs :=
  match r with
  | Err e => OErr e
  | Ok v => match class_of v with Some c => OProof c | None => OVal v end
  end.

(** An adaptive computation: read an attribute path or take the hash of the proof at a
    path, continue depending on what was learned, finally return something. *)
Inductive prog (R : Type) :=
| Ret (r : R)
| Get (path : list string) (k : obs -> prog R)
| Hsh (path : list string) (k : result bytes -> prog R).
Arguments Ret {R} r.
Arguments Get {R} path k.
Arguments Hsh {R} path k.

(** The hash of what was read. *)
Definition hash_of (ct : ctable) (r : result val) : result bytes :=
  match r with Ok x => phash ct x | Err e => Err e end.

(** Run a computation: its result and the proof afterwards. *)
Fixpoint run {R} (ct : ctable) (p : prog R) (v : val) : R * val :=
  match p with
  | Ret r => (r, v)
  | Get path k => let '(r, v') := read ct v path in run ct (k (observe r)) v'
  | Hsh path k => let '(r, v') := read ct v path in run ct (k (hash_of ct r)) v'
  end.

(** ** What a view has revealed *)

Definition dhash (ct : ctable) (v : val) : bytes := match data_hash ct v with Ok d => d | Err _ => [] end.

(** A sub-proof reduced to its data hash. *)
Definition sealed (ct : ctable) (v : val) : val :=
  match class_of v with Some c => PHash c (dhash ct v) | None => v end.

(** A view cut down to what was read: proofs of which no attribute was read are reduced to their
    data hash, the others keep their attributes.  (On values without views: the value itself.) *)
Fixpoint frozen (ct : ctable) (v : val) : val :=
  match v with
  | PView c o st =>
    if forallb is_none st then PHash c (dhash ct o)
    else match o with
         | PFull _ fs =>
           PFull c ((fix go (fs : list val) (st : list (option val)) {struct st} : list val :=
                       match fs, st with
                       | f :: fs', s :: st' =>
                         match s with Some x => frozen ct x | None => sealed ct f end :: go fs' st'
                       | _, _ => []
                       end) fs st)
         | _ => v
         end
  | _ => v
  end.

(** [P] holds of the class of every fully pruned proof in the value. *)
Inductive pruned_only (P : cid -> Prop) : val -> Prop :=
| PO_leaf v : class_of v = None -> pruned_only P v
| PO_full c fs : Forall (pruned_only P) fs -> pruned_only P (PFull c fs)
| PO_hash c dh : P c -> pruned_only P (PHash c dh).

(** Declarations without variants: every proof-typed attribute is declared with a plain
    class, or a union of plain classes, all of them tagged. *)
Definition plain_tagged (ct : ctable) (c : cid) : Prop :=
  c_kind (ct c) = Plain /\ exists t, c_hash (ct c) = HTag (Some t).
Definition plain_table (ct : ctable) : Prop := forall c name sr, In (name, sr) (c_attrs (ct c)) ->
  match sr with
  | SerProof k => plain_tagged ct k
  | SerUnion ks => forall k, In k ks -> plain_tagged ct k
  | _ => True
  end.

(** ** Two originals that look the same along the paths read *)

Definition starts (name : string) (p : list string) : bool :=
  match p with n :: _ => String.eqb n name | [] => false end.
(** The continuations of the paths through attribute [name]. *)
Definition through (name : string) (ps : list (list string)) : list (list string) :=
  map (@tl string) (filter (starts name) ps).
(** Some path reads an attribute of a proof of class [c]. *)
Definition visits (ct : ctable) (c : cid) (ps : list (list string)) : Prop :=
  exists name sr, In (name, sr) (c_attrs (ct c)) /\ existsb (starts name) ps = true.

(** The paths read by a sequence of operations. *)
Definition paths (os : list op) : list (list string) :=
  flat_map (fun o => match o with Read p => [p] | Ser => [] end) os.

(** Proofs that the paths do not visit have the same class and data hash; visited ones have the
    same class, the same non-proof attributes, and sub-proofs that look the same (nothing can be
    read from one that is itself only a data hash). *)
Inductive looks_same (ct : ctable) : list (list string) -> val -> val -> Prop :=
| L_leaf ps v : is_proof v = false -> looks_same ct ps v v
| L_hash ps c dh : looks_same ct ps (PHash c dh) (PHash c dh)
| L_unvisited ps c o1 o2 : class_of o1 = Some c -> class_of o2 = Some c -> data_hash ct o1 = data_hash ct o2 ->
    ~ visits ct c ps -> looks_same ct ps o1 o2
| L_visited ps c fs1 fs2 : visits ct c ps -> look_same_all ct ps (c_attrs (ct c)) fs1 fs2 ->
    looks_same ct ps (PFull c fs1) (PFull c fs2)
with look_same_all (ct : ctable) : list (list string) -> list (string * ser) -> list val -> list val -> Prop :=
| LA_nil ps : look_same_all ct ps [] [] []
| LA_cons ps name sr attrs f1 fs1 f2 fs2 : looks_same ct (through name ps) f1 f2 -> look_same_all ct ps attrs fs1 fs2 ->
    look_same_all ct ps ((name, sr) :: attrs) (f1 :: fs1) (f2 :: fs2).

(** ** Tables with variants *)

(** Attributes with variants are declared with the base class, which is not a subclass of any
    of its variants; members of unions have no variants. *)
Definition base_declared (ct : ctable) (b : cid) : Prop :=
  forall u k, c_kind (ct b) = Variant u -> In k u -> ~ subclass ct b k.
Definition variant_table (ct : ctable) : Prop := forall c name sr, In (name, sr) (c_attrs (ct c)) ->
  match sr with
  | SerProof b => base_declared ct b
  | SerUnion cs => forall m, In m cs -> c_kind (ct m) = Plain
  | _ => True
  end.
