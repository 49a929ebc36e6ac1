(** Executable model of how the classes come about: class statements, VarProof.declare_variant (proof.py:251-267) and the
    decorators make_mmr_subclass (mmr.py:273), make_MerbinnerTree_subclass (merbinnertree.py:233) and make_GuMap_subclass
    (gumap.py:35).  Only what serialization and hashing depend on is kept; methods are not. *)
From Verif Require Import Base Serialize_Model Proof_Model Mmr_Model Merbinner_Model.
Local Open Scope string_scope.
Local Open Scope list_scope.

(** The base named in the class statement.  proof.py:31 (Proof), 237 (VarProof), or a class made before. *)
Inductive parent := PProof | PVarProof | PClass (c : cid).
(** A class object: what the class statement and later assignments put into its own dictionary.  proof.py:38-42, 241: calc_hash
    of TxProof (pbitcoin.py:69), SERIALIZED_ATTRS, HASHTAG, UNION_CLASSES; None stands for a name that is not there. *)
Record klass := K { k_parent : parent; k_tx : bool; k_attrs : option (list (string * ser)); k_tag : option (option bytes); k_union : option (list cid) }.
(** The classes made so far, in order; proof.py:31-330. *)
Definition world := list klass.

(** The class and its ancestors, nearest first: the order in which Python looks for class attributes.  For proof.py:38-42, 241, 246, 260-265. *)
Fixpoint mro (fuel : nat) (w : world) (c : cid) : list cid :=
  match fuel with
  | O => []
  | S fuel => c :: match nth_error w c with Some (K (PClass b) _ _ _ _) => mro fuel w b | _ => [] end
  end.
(** The same; a class is made after its parent, so this is deep enough.  For proof.py:38-42. *)
Definition ancestors (w : world) (c : cid) : list cid := mro (S c) w c.
(** The first ancestor that has the attribute, with the value.  For proof.py:38-42, 241. *)
Fixpoint first_with {A} (get : klass -> option A) (w : world) (cs : list cid) : option (cid * A) :=
  match cs with
  | [] => None
  | c :: cs => match option_map get (nth_error w c) with Some (Some a) => Some (c, a) | _ => first_with get w cs end
  end.
(** [issubclass(c, VarProof)].  proof.py:257. *)
Definition is_var (w : world) (c : cid) : bool :=
  existsb (fun a => match nth_error w a with Some (K PVarProof _ _ _ _) => true | _ => false end) (ancestors w c).
(** Whether calc_hash is that of TxProof.  pbitcoin.py:69. *)
Definition is_tx (w : world) (c : cid) : bool :=
  existsb (fun a => match nth_error w a with Some k => k_tx k | _ => false end) (ancestors w c).

(** What an object of the class sees of it: the table of Proof_Model.v.  proof.py:38-42, 241.  A VarProof without UNION_CLASSES
    is given the empty list. *)
Definition table_of (w : world) : ctable := fun c =>
  mkClass (match first_with k_attrs w (ancestors w c) with Some (_, a) => a | None => [] end)
          (if is_var w c then Variant (match first_with k_union w (ancestors w c) with Some (_, u) => u | None => [] end) else Plain)
          (if is_tx w c then HTx else HTag (match first_with k_tag w (ancestors w c) with Some (_, t) => t | None => None end))
          (ancestors w c).

(** Assignment to a class attribute; proof.py:261, 263, 265. *)
Fixpoint change (f : klass -> klass) (w : world) (c : cid) : world :=
  match w, c with [], _ => [] | k :: w, O => f k :: w | k :: w, S c => k :: change f w c end.
(** [cls.UNION_CLASSES = u]; the same for [append], which changes the list of the class that has it.  proof.py:261, 265. *)
Definition set_union (u : list cid) (k : klass) : klass := K (k_parent k) (k_tx k) (k_attrs k) (k_tag k) (Some u).
(** [subclass.HASHTAG = t].  proof.py:263. *)
Definition set_tag (t : bytes) (k : klass) : klass := K (k_parent k) (k_tx k) (k_attrs k) (Some (Some t)) (k_union k).

(** proof.py:251-267 [declare_variant]; [sub] is the SUB_HASHTAG of the subclass.  Adding None to a tag raises TypeError. *)
Definition declare_variant (w : world) (c s : cid) (sub : bytes) : result world :=
  if negb (is_var w s) then Err TypeError
  else
    let w := match first_with k_union w (ancestors w c) with None => change (set_union []) w c | Some _ => w end in
    match first_with k_tag w (ancestors w c) with
    | Some (_, Some t) =>
      let w := change (set_tag (tag_derive sub t)) w s in
      match first_with k_union w (ancestors w c) with
      | Some (owner, u) => Ok (change (set_union (u ++ [s])) w owner)
      | None => Err TypeError
      end
    | _ => Err TypeError
    end.
(** A class statement with the decorator [@c.declare_variant] whose base is [c].  mmr.py:274, 322, 380, merbinnertree.py:234, 272, 310, gumap.py:36, 51, 107. *)
Definition variant (w : world) (c : cid) (attrs : list (string * ser)) (sub : bytes) : result world :=
  declare_variant (w ++ [K (PClass c) false (Some attrs) None None]) c (List.length w) sub.

(** mmr.py:273-387 [make_mmr_subclass]: the three node classes. *)
Definition make_mmr (w : world) (c : cid) (value : ser) : result world :=
  do w <- variant w c [] (uuid "390de307-8787-47b7-b25d-250aba02b1e5");
  do w <- variant w c [("value", value)] (uuid "4ea09c8e-87f5-4978-a829-78d42ab8638a");
  variant w c [("left", SerProof c); ("right", SerProof c); ("length", SerPrim UInt64)] (uuid "a7ca25ce-8fee-4063-b022-96b2dbcb392e").
(** merbinnertree.py:233-318 [make_MerbinnerTree_subclass]. *)
Definition make_mbt (w : world) (c : cid) (key value : ser) : result world :=
  do w <- variant w c [] (uuid "ca380e10-c7d5-44df-aef0-55bce2125329");
  do w <- variant w c [("key", key); ("value", value)] (uuid "f5cc855e-9d21-4f8d-ab42-7883c765c323");
  variant w c [("prefix", SerBits); ("left", SerProof c); ("right", SerProof c)] (uuid "66d74741-0ffd-4178-9a79-641a45e23dda").
(** gumap.py:35-118 [make_GuMap_subclass]; [fseal], [fwit] are FakeSingleUseSeal and FakeSealWitness. *)
Definition make_gumap (w : world) (c fseal fwit seal wit : cid) (key value : ser) : result world :=
  do w <- variant w c [("prefix", SerBits); ("seal", SerUnion [fseal; seal])] (uuid "dae47bef-d9a3-4971-a6a4-1c67c5f02c11");
  do w <- variant w c [("witness", SerUnion [fwit; wit]); ("key", key); ("value", value)] (uuid "0c60f344-9109-4930-aec1-432c5750fcba");
  variant w c [("prefix", SerBits); ("witness", SerUnion [fwit; wit]); ("left", SerProof c); ("right", SerProof c)] (uuid "6893cac7-e834-49cd-8e95-77707b0499b5").

(** The classes of the library that others are derived from: MerkleMountainRange (mmr.py:205), MerbinnerTree (merbinnertree.py:86)
    and GuMap (gumap.py:17-21, with HASHTAG = None). *)
Definition library : world := [K PVarProof false None None None; K PVarProof false None None None; K PVarProof false None (Some None) None].
(** mmr.py:205, merbinnertree.py:86, gumap.py:17: their numbers. *)
Definition MMR : cid := 0. Definition MBT : cid := 1. Definition GUMAP : cid := 2.

(** A declaration in a program: a class derived from Proof or another class, as in pbitcoin.py:62-117 and singleuseseal.py:30-89;
    TxProof (pbitcoin.py:62-77); or a decorated subclass of [b] with its HASHTAG, as in test_mmr.py:18-22, test_merbinnertree.py:30-43,
    test_gumap.py:25-36.  [None] for what the class statement does not set. *)
Inductive decl :=
| DClass (p : option cid) (attrs : option (list (string * ser))) (tag : option bytes)
| DTx (name : string)
| DMmr (b : cid) (tag : option bytes) (value : ser)
| DMbt (b : cid) (tag : option bytes) (key value : ser)
| DGumap (b : cid) (tag : option bytes) (fseal fwit seal wit : cid) (key value : ser).
(** The class statement of a decorated subclass.  test_mmr.py:18-22. *)
Definition derived (b : cid) (tag : option bytes) : klass := K (PClass b) false None (option_map Some tag) None.
(** What a declaration does.  For mmr.py:273, merbinnertree.py:233, gumap.py:35. *)
Definition declare (w : world) (d : decl) : result world :=
  match d with
  | DClass p attrs tag => Ok (w ++ [K (match p with Some b => PClass b | None => PProof end) false attrs (option_map Some tag) None])
  | DTx name => Ok (w ++ [K PProof true (Some [(name, SerTx)]) None None])
  | DMmr b tag value => make_mmr (w ++ [derived b tag]) (List.length w) value
  | DMbt b tag key value => make_mbt (w ++ [derived b tag]) (List.length w) key value
  | DGumap b tag fseal fwit seal wit key value => make_gumap (w ++ [derived b tag]) (List.length w) fseal fwit seal wit key value
  end.
(** A program that declares classes one after the other.  For mmr.py:273, merbinnertree.py:233, gumap.py:35. *)
Fixpoint declare_all (w : world) (ds : list decl) : result world :=
  match ds with [] => Ok w | d :: ds => do w <- declare w d; declare_all w ds end.
