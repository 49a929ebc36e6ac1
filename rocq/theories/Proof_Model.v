(** Executable model of lib/python-proofmarshal/proofmarshal/proof.py (cited as
    proof.py) over an arbitrary table of proof classes, together with the two
    serializers and the TxProof hash of proofchains/core/bitcoin.py (cited as
    pbitcoin.py).

    Objects are values.  A pruned view carries its own state (which attributes were
    brought back so far); reading an attribute returns the value and the view after
    the read.  Sharing of one mutable view between two places is not modelled, nor is
    pruning a view again: see [get].  The lazily cached slots [hash] and [data_hash]
    are recomputed.  The class-level cache SERIALIZED_ATTRS_BY_NAME is taken to hold
    the attributes of the class itself; Cache_Model.v models that cache. *)
From Verif Require Import Base Bits_Model Sha256 Serialize_Model Tx_Model.

(** ** Classes *)

(** A class is identified by a number.  proof.py:31-330: the classes of a program are finitely many. *)
Definition cid := nat.

(** The serializers that can be declared for an attribute: a primitive one,
    BitsSerializer (bits.py:295-316), CTransactionSerializer (pbitcoin.py:20-39),
    COutPointSerializer (41-60), a proof class (proof.py:31) or ProofUnion (292). *)
Inductive ser := SerPrim (s : sprim) | SerBits | SerTx | SerOut | SerProof (c : cid) | SerUnion (cs : list cid).

(** A direct subclass of Proof, or a subclass of VarProof with the UNION_CLASSES it
    sees (proof.py:237-267).  A VarProof without declared variants is not modelled. *)
Inductive ckind := Plain | Variant (union : list cid).

(** How [calc_hash] works: with HASHTAG (proof.py:171-177; None by default, 38), or
    as overridden by TxProof (pbitcoin.py:69-77). *)
Inductive chash := HTag (tag : option bytes) | HTx.

(** proof.py:38-42: SERIALIZED_ATTRS, kind, HASHTAG, and the classes this class is a
    subclass of, including itself. *)
Record class := mkClass {
  c_attrs : list (string * ser);
  c_kind : ckind;
  c_hash : chash;
  c_supers : list cid }.

(** All classes of a program.
    proof.py:31-42, 237-241, 292: subclasses of Proof, VarProof and ProofUnion with their SERIALIZED_ATTRS. *)
Definition ctable := cid -> class.

(** ** Values *)

(** What an attribute can hold.  [VBits l] is a Bits object with the bits [l]
    (which bits it has is all that equality and the encoding depend on: C03, C06).
    [PFull c fs]: a proof of class [c] made by [Proof.__new__] with its attributes in
    the order of SERIALIZED_ATTRS.  [PHash c dh]: a proof deserialized fully pruned
    (proof.py:217-227).  [PView c o st]: the result of [o.prune()] (91-106); [st] are
    the attributes set so far by [__getattr__] (144). *)
Inductive val :=
| VPrim (v : pyval) | VBits (l : list bool) | VTx (t : tx) | VOut (o : outpoint)
| PFull (c : cid) (fs : list val)
| PHash (c : cid) (dh : bytes)
| PView (c : cid) (o : val) (st : list (option val)).

(** [value.__class__] for a proof.  proof.py:100. *)
Definition class_of (v : val) : option cid :=
  match v with PFull c _ | PHash c _ | PView c _ _ => Some c | _ => None end.
(** [isinstance(value, Proof)].  proof.py:56, 73, 139. *)
Definition is_proof (v : val) : bool := match class_of v with Some _ => true | None => false end.

(** What the primitive serializers see.  serialize.py:284-414. *)
Definition to_py (v : val) : pyval := match v with VPrim p => p | _ => PyOther end.

(** [isinstance(v, c)].  proof.py:246, 271, 302, 324. *)
Definition isinst (ct : ctable) (v : val) (c : cid) : bool :=
  match class_of v with Some k => existsb (Nat.eqb c) (c_supers (ct k)) | None => false end.

(** The loops of proof.py:270-273 and 323-327: index of the first class of the union
    that [v] is an instance of. *)
Fixpoint union_index (ct : ctable) (cs : list cid) (v : val) : option nat :=
  match cs with
  | [] => None
  | c :: cs' => if isinst ct v c then Some 0 else option_map S (union_index ct cs' v)
  end.

(** ** Leaf serializers *)

(** pbitcoin.py:26-32, 47-53: length-prefixed. *)
Definition ser_prefixed (r : result bytes) : result bytes :=
  do b <- r; Ok (write_varuint (Z.of_N (blen b)) ++ b).
(** pbitcoin.py:34-39, 55-60. *)
Definition de_prefixed {A} (f : bytes -> result (A * bytes)) (s : bytes) : result (A * bytes) :=
  do (l, s) <- read_varuint s;
  do (b, s) <- fd_read l s;
  do a <- bdeserialize f false b; Ok (a, s).

(** [ser_cls.ctx_serialize(v, ctx)] for the non-proof serializers.  A value of an
    unexpected class raises AttributeError (simplified: the exact exception depends on
    that class).  proof.py:167, 185. *)
Definition ser_leaf (sr : ser) (v : val) : result bytes :=
  match sr, v with
  | SerPrim s, _ => prim_ser s (to_py v)
  | SerBits, VBits l => do b <- bits_new l; bits_ser b
  | SerTx, VTx t => ser_prefixed (tx_ser t)
  | SerOut, VOut o => ser_prefixed (outpoint_ser o)
  | _, _ => Err AttributeError
  end.

(** [ser_cls.ctx_deserialize(ctx)] for the non-proof serializers.  proof.py:208. *)
Definition de_leaf (sr : ser) (s : bytes) : result (val * bytes) :=
  match sr with
  | SerPrim p => do (v, s) <- prim_de p s; Ok (VPrim v, s)
  | SerBits => do (b, s) <- bits_de s; do l <- bits_iter b; Ok (VBits (map (fun n => negb (n =? 0)%N) l), s)
  | SerTx => do (t, s) <- de_prefixed tx_de s; Ok (VTx t, s)
  | SerOut => do (o, s) <- de_prefixed outpoint_de s; Ok (VOut o, s)
  | SerProof _ | SerUnion _ => Err AttributeError
  end.

(** ** Hashes *)

(** pbitcoin.py:67. *)
Definition TX_HASH_XOR_PAD : bytes :=
  hex "4cf810b73dc605fbe6c2156a7041e370f4750e39d2d1573199c772c7324bd054".
(** pbitcoin.py:77, 85: bytes([b^p for b,p in zip(h, TX_HASH_XOR_PAD)]). *)
Fixpoint xor_bytes (a b : bytes) : bytes :=
  match a, b with
  | x :: a', y :: b' => Nb (N.lxor (bN x) (bN y)) :: xor_bytes a' b'
  | _, _ => []
  end.
(** pbitcoin.py:77, 85, with the pad of line 67. *)
Definition xor_pad (h : bytes) : bytes := xor_bytes h TX_HASH_XOR_PAD.

(** proof.py:177 [self.HASHTAG(self.data_hash).digest()]; None is not callable. *)
Definition tagged (ct : ctable) (c : cid) (dh : result bytes) : result bytes :=
  do d <- dh;
  match c_hash (ct c) with HTag (Some t) => Ok (tag_hash t d) | _ => Err TypeError end.

(** proof.py:151-177 and pbitcoin.py:69-77: ([data_hash], [hash]) of a proof.
    [issubclass(ser_cls, HashingSerializer)] (163) holds for proof classes and unions. *)
Fixpoint hashes (ct : ctable) (v : val) : result bytes * result bytes :=
  match v with
  | PFull c fs =>
    let dh :=
      do m <- (fix go (attrs : list (string * ser)) (fs : list val) {struct fs} : result bytes :=
                 match attrs, fs with
                 | [], [] => Ok []
                 | (_, sr) :: attrs', f :: fs' =>
                   do x <- match sr with
                           | SerProof _ | SerUnion _ => snd (hashes ct f)
                           | _ => ser_leaf sr f
                           end;
                   do r <- go attrs' fs'; Ok (x ++ r)
                 | _, _ => Err AttributeError
                 end) (c_attrs (ct c)) fs;
      Ok (sha256 m) in
    (dh, match c_hash (ct c) with
         | HTx => match fs with
                  | [VTx t] => do h <- tx_GetHash t; Ok (xor_pad h)
                  | _ => Err AttributeError
                  end
         | HTag _ => tagged ct c dh
         end)
  | PHash c dh => (Ok dh, tagged ct c (Ok dh))
  | PView c o _ => hashes ct o
  | _ => (Err AttributeError, Err AttributeError)
  end.

(** proof.py:108-118: the attributes [data_hash] and [hash]. *)
Definition data_hash (ct : ctable) (v : val) : result bytes := fst (hashes ct v).
(** proof.py:115-118: [v.hash]. *)
Definition phash (ct : ctable) (v : val) : result bytes := snd (hashes ct v).

(** proof.py:72-77 [a == b] between two proofs. *)
Definition proof_eq (ct : ctable) (a b : val) : result bool :=
  do x <- phash ct a; do y <- phash ct b; Ok (bytes_eqb x y).

(** ** Construction *)

(** proof.py:49-60: the slot [is_pruned] (set at 104 and 224 for pruned instances). *)
Fixpoint is_pruned (ct : ctable) (v : val) : bool :=
  match v with
  | PFull c fs =>
    (fix go (attrs : list (string * ser)) (fs : list val) {struct fs} : bool :=
       match attrs, fs with
       | (_, SerProof _) :: attrs', f :: fs' => is_pruned ct f || go attrs' fs'
       | _ :: attrs', _ :: fs' => go attrs' fs'
       | _, _ => false
       end) (c_attrs (ct c)) fs
  | PHash _ _ | PView _ _ _ => true
  | _ => false
  end.

(** [ser_cls.check_instance(v)]: primitives; bits.py:296-298 (never raises);
    pbitcoin.py:21-24, 42-45 ([value] is undefined in the error message: NameError);
    proof.py:64-70 (nothing), 243-249, 299-305. *)
Definition check (ct : ctable) (sr : ser) (v : val) : result unit :=
  match sr with
  | SerPrim s => prim_check s (to_py v)
  | SerBits => Ok tt
  | SerTx => match v with VTx _ => Ok tt | _ => Err NameError end
  | SerOut => match v with VOut _ => Ok tt | _ => Err NameError end
  | SerProof c =>
    match c_kind (ct c) with
    | Plain => Ok tt
    | Variant u => if existsb (isinst ct v) u then Ok tt else Err SerializerTypeError
    end
  | SerUnion cs => if existsb (isinst ct v) cs then Ok tt else Err SerializerTypeError
  end.

(** Keyword arguments.  proof.py:52. *)
Fixpoint assoc {A} (name : string) (kw : list (string * A)) : option A :=
  match kw with
  | [] => None
  | (n, v) :: kw' => if String.eqb n name then Some v else assoc name kw'
  end.

(** proof.py:51-57: one attribute after the other; [value.is_pruned] is read for
    attributes declared with a proof class (56-57). *)
Fixpoint construct_loop (ct : ctable) (attrs : list (string * ser)) (kw : list (string * val)) : result (list val) :=
  match attrs with
  | [] => Ok []
  | (name, sr) :: attrs' =>
    do v <- match assoc name kw with Some v => Ok v | None => Err KeyError end;
    do _ <- check ct sr v;
    do _ <- match sr with SerProof _ => if is_proof v then Ok tt else Err AttributeError | _ => Ok tt end;
    do r <- construct_loop ct attrs' kw; Ok (v :: r)
  end.
(** proof.py:44-62 [cls( **kwargs)] and [Proof.__new__(cls, **kwargs)]. *)
Definition construct (ct : ctable) (c : cid) (kw : list (string * val)) : result val :=
  do fs <- construct_loop ct (c_attrs (ct c)) kw; Ok (PFull c fs).

(** ** Pruning and attribute access *)

(** Index of an attribute.  proof.py:123, 144. *)
Fixpoint attr_index (attrs : list (string * ser)) (name : string) : option nat :=
  match attrs with
  | [] => None
  | (n, _) :: attrs' => if String.eqb n name then Some 0 else option_map S (attr_index attrs' name)
  end.

(** proof.py:144: one attribute set. *)
Fixpoint set_nth {A} (n : nat) (x : A) (l : list A) : list A :=
  match l, n with
  | [], _ => []
  | _ :: l', O => x :: l'
  | y :: l', S n' => y :: set_nth n' x l'
  end.

(** proof.py:91-106 [prune]; non-proof values are left alone (139). *)
Definition prune (ct : ctable) (v : val) : val :=
  match class_of v with
  | Some c => PView c v (repeat None (List.length (c_attrs (ct c))))
  | None => v
  end.

(** proof.py:108-149 [getattr(v, name)] for a name that is not [hash]/[data_hash];
    returns the value and [v] after the read.  Only serialized attributes are modelled
    (methods, properties and slots of subclasses are not).  When the original is itself
    a view its state changes too; that the value returned then shares state with the
    original is not modelled here but in Heap_Model.v, and the theorems are about originals without views.
    Simplified: line 123 raises TypeError rather than PrunedError or AttributeError in a process that has not made an
    instance of the class yet; see Heap_Model.v and C117. *)
Fixpoint get (ct : ctable) (v : val) (name : string) : result (val * val) :=
  match v with
  | PFull c fs =>
    match attr_index (c_attrs (ct c)) name with
    | Some i => match nth_error fs i with Some x => Ok (x, v) | None => Err AttributeError end
    | None => Err AttributeError
    end
  | PHash c _ =>
    match attr_index (c_attrs (ct c)) name with Some _ => Err PrunedError | None => Err AttributeError end
  | PView c o st =>
    match attr_index (c_attrs (ct c)) name with
    | None => Err AttributeError
    | Some i =>
      match nth_error st i with
      | Some (Some x) => Ok (x, v)
      | _ =>
        do (y, o') <- get ct o name;
        let x := prune ct y in
        Ok (x, PView c o' (set_nth i (Some x) st))
      end
    end
  | _ => Err AttributeError
  end.

(** A child whose state changed, back in its place.  proof.py:144: the child is the object held by the attribute. *)
Definition put_back (ct : ctable) (v : val) (name : string) (x : val) : val :=
  match v with
  | PFull c fs =>
    match attr_index (c_attrs (ct c)) name with Some i => PFull c (set_nth i x fs) | None => v end
  | PView c o st =>
    match attr_index (c_attrs (ct c)) name with Some i => PView c o (set_nth i (Some x) st) | None => v end
  | _ => v
  end.

(** [v.a.b.c]: the value or exception, and [v] afterwards (changed also when a later
    attribute of the path fails).  proof.py:108-149, once for each name. *)
Fixpoint read (ct : ctable) (v : val) (path : list string) : result val * val :=
  match path with
  | [] => (Ok v, v)
  | name :: path' =>
    match get ct v name with
    | Err e => (Err e, v)
    | Ok (x, v') => let '(r, x') := read ct x path' in (r, put_back ct v' name x')
    end
  end.

(** ** Serialization *)

(** proof.py:269-276: the variant number written first. *)
Definition ser_variant (ct : ctable) (v : val) : result bytes :=
  match class_of v with
  | None => Err AttributeError
  | Some c =>
    match c_kind (ct c) with
    | Plain => Ok []
    | Variant u =>
      match union_index ct u v with Some i => Ok (write_varuint (Z.of_nat i)) | None => Err SerializerTypeError end
    end
  end.

(** proof.py:321-330: ProofUnion writes the number of the class first. *)
Definition ser_union (ct : ctable) (cs : list cid) (v : val) (b : result bytes) : result bytes :=
  match union_index ct cs v with
  | Some i => do x <- b; Ok (write_varuint (Z.of_nat i) ++ x)
  | None => Err SerializerTypeError
  end.

(** [is None] (proof.py:120, 152, 172). *)
Definition is_none {A} (o : option A) : bool := match o with None => true | Some _ => false end.

(** The value of attribute [name] without the state change.  proof.py:135. *)
Definition peek (ct : ctable) (v : val) (name : string) : result val :=
  do (x, _) <- get ct v name; Ok x.

(** proof.py:182-194 [ctx_serialize] with [_ctx_serialize] (also 269-278).  An attribute
    not read yet is fetched by getattr (184) and, if it is a proof, is a fresh view and
    written as 0xff followed by the data hash (188-190). *)
Fixpoint ser_proof (ct : ctable) (v : val) : result bytes :=
  match v with
  | PHash c dh => Ok (xff :: dh)
  | PFull c fs =>
    do ix <- ser_variant ct v;
    do body <- (fix go (attrs : list (string * ser)) (fs : list val) {struct fs} : result bytes :=
                  match attrs, fs with
                  | [], [] => Ok []
                  | (_, sr) :: attrs', f :: fs' =>
                    do x <- match sr with
                            | SerProof _ => ser_proof ct f
                            | SerUnion cs => ser_union ct cs f (ser_proof ct f)
                            | _ => ser_leaf sr f
                            end;
                    do r <- go attrs' fs'; Ok (x ++ r)
                  | _, _ => Err AttributeError
                  end) (c_attrs (ct c)) fs;
    Ok (x00 :: ix ++ body)
  | PView c o st =>
    if forallb is_none st then do dh <- data_hash ct o; Ok (xff :: dh)
    else
      do ix <- ser_variant ct v;
      do body <- (fix go (attrs : list (string * ser)) (st : list (option val)) {struct st} : result bytes :=
                    match attrs, st with
                    | [], [] => Ok []
                    | (name, sr) :: attrs', s :: st' =>
                      do x <- match s with
                              | Some f =>
                                match sr with
                                | SerProof _ => ser_proof ct f
                                | SerUnion cs => ser_union ct cs f (ser_proof ct f)
                                | _ => ser_leaf sr f
                                end
                              | None =>
                                do f <- peek ct o name;
                                let b := if is_proof f then do dh <- data_hash ct f; Ok (xff :: dh) else Err AttributeError in
                                match sr with
                                | SerProof _ => b
                                | SerUnion cs => ser_union ct cs f b
                                | _ => ser_leaf sr f
                                end
                              end;
                      do r <- go attrs' st'; Ok (x ++ r)
                    | _, _ => Err AttributeError
                    end) (c_attrs (ct c)) st;
      Ok (x00 :: ix ++ body)
  | _ => Err AttributeError
  end.

(** [ser_cls.ctx_serialize(v, ctx)] for any serializer.  proof.py:185, 326. *)
Definition ser_val (ct : ctable) (sr : ser) (v : val) : result bytes :=
  match sr with
  | SerProof _ => ser_proof ct v
  | SerUnion cs => ser_union ct cs v (ser_proof ct v)
  | _ => ser_leaf sr v
  end.

(** The state of a view after [ctx_serialize]: every attribute of a proof that is not
    fully pruned has been fetched (proof.py:183-185). *)
Fixpoint after_ser (ct : ctable) (v : val) : val :=
  match v with
  | PFull c fs => PFull c (map (after_ser ct) fs)
  | PView c o st =>
    if forallb is_none st then v
    else
      PView c o ((fix go (attrs : list (string * ser)) (st : list (option val)) {struct st} : list (option val) :=
                    match attrs, st with
                    | (name, _) :: attrs', s :: st' =>
                      match s with
                      | Some f => Some (after_ser ct f)
                      | None => match peek ct o name with Ok f => Some (prune ct f) | Err _ => None end
                      end :: go attrs' st'
                    | _, st' => st'
                    end) (c_attrs (ct c)) st)
  | _ => v
  end.

(** ** Deserialization *)

(** proof.py:213-230 [ctx_deserialize], 203-211 and 280-290 [_ctx_deserialize],
    332-342 (ProofUnion).  A class number out of range raises NameError, because
    DeserializationError is not imported (16, 288, 340).  [fuel] bounds the nesting
    depth; every level reads at least one byte, and [de_proof_enough_fuel] shows that the
    length of the stream is enough. *)
Fixpoint de_proof (ct : ctable) (fuel : nat) (c : cid) (s : bytes) : result (val * bytes) :=
  match fuel with
  | O => Err OutOfFuel
  | S fuel' =>
    do (fully_pruned, s) <- read_bool s;
    if fully_pruned : bool then
      do (dh, s) <- fd_read 32 s; Ok (PHash c dh, s)
    else
      do (uc, s) <- match c_kind (ct c) with
                    | Plain => Ok (c, s)
                    | Variant u =>
                      do (i, s) <- read_varuint s;
                      match (if (i <? N.of_nat (List.length u))%N then nth_error u (N.to_nat i) else None) with
                      | Some uc => Ok (uc, s)
                      | None => Err NameError
                      end
                    end;
      do (kw, s) <- (fix go (attrs : list (string * ser)) (s : bytes) : result (list (string * val) * bytes) :=
                       match attrs with
                       | [] => Ok ([], s)
                       | (name, sr) :: attrs' =>
                         do (v, s) <- match sr with
                                      | SerProof c' => de_proof ct fuel' c' s
                                      | SerUnion cs =>
                                        do (i, s) <- read_varuint s;
                                        match (if (i <? N.of_nat (List.length cs))%N then nth_error cs (N.to_nat i) else None) with
                                        | Some c' => de_proof ct fuel' c' s
                                        | None => Err NameError
                                        end
                                      | _ => de_leaf sr s
                                      end;
                         do (r, s) <- go attrs' s; Ok ((name, v) :: r, s)
                       end) (c_attrs (ct uc)) s;
      do p <- construct ct uc kw; Ok (p, s)
  end.

(** [ser_cls.ctx_deserialize(ctx)] for any serializer.  proof.py:208, 342. *)
Definition de_val (ct : ctable) (fuel : nat) (sr : ser) (s : bytes) : result (val * bytes) :=
  match sr with
  | SerProof c => de_proof ct fuel c s
  | SerUnion cs =>
    do (i, s) <- read_varuint s;
    match (if (i <? N.of_nat (List.length cs))%N then nth_error cs (N.to_nat i) else None) with
    | Some c => de_proof ct fuel c s
    | None => Err NameError
    end
  | _ => de_leaf sr s
  end.

(** [cls.ctx_deserialize] on a stream, and serialize.py:276-282 [cls.deserialize(buf)]:
    bytes left over are dropped. *)
Definition de_class (ct : ctable) (c : cid) (s : bytes) : result (val * bytes) :=
  de_proof ct (S (List.length s)) c s.
(** serialize.py:276-282 [cls.deserialize(buf)]. *)
Definition deserialize (ct : ctable) (c : cid) (buf : bytes) : result val :=
  do (p, _) <- de_class ct c buf; Ok p.
