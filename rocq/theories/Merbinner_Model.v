(** lib/python-proofmarshal/proofmarshal/merbinnertree.py: merkleized binary radix trees.
    Line numbers below are of that file.

    A node is one of the three variants made by [make_MerbinnerTree_subclass] (233-407) with its attributes,
    or a proof pruned to its data hash, whose attribute reads raise PrunedError and whose
    methods are those of its class.  Live pruned views are not represented: reading them
    gives what the original gives (property C18).

    Prefixes are Bits; here they are the list of their booleans, and len, ==, indexing,
    startswith and common_prefix are those of lists, as properties C01, C03 and C05 show.
    [k2p] is the class's [key2prefix] (97-99, to be overridden), assumed not to raise.
    Generators are lists; [descend] cannot raise after its first element. *)
From Verif Require Import Base Serialize_Model Tx_Model Proof_Model.

(** The class passed to [make_MerbinnerTree_subclass] and its variants: 234-267, 272-306, 310-403. *)
Record mbt_classes := MbtClasses { b_base : cid; b_empty : cid; b_leaf : cid; b_inner : cid }.

(** The class of a fully pruned node.  merbinnertree.py:86, 235, 273, 311. *)
Inductive bkind := BBase | BEmpty | BLeaf | BInner.

(** SERIALIZED_ATTRS: none (240), key and value (278-279), prefix, left and right (316-318). *)
Inductive mbt :=
| TEmpty
| TLeaf (key value : val)
| TInner (prefix : list bool) (left right : mbt)
| TPruned (k : bkind) (data_hash : bytes).

(** merbinnertree.py:86, 235, 273, 311: the classes. *)
Definition bkind_class (M : mbt_classes) (k : bkind) : cid :=
  match k with BBase => b_base M | BEmpty => b_empty M | BLeaf => b_leaf M | BInner => b_inner M end.

(** The proof object (proof.py:44-62) a node is. *)
Fixpoint bnode (M : mbt_classes) (t : mbt) : val :=
  match t with
  | TEmpty => PFull (b_empty M) []
  | TLeaf k v => PFull (b_leaf M) [k; v]
  | TInner p l r => PFull (b_inner M) [VBits p; bnode M l; bnode M r]
  | TPruned k dh => PHash (bkind_class M k) dh
  end.

(** [node.__class__].  merbinnertree.py:150, 174, 184, 379. *)
Definition bkind_of (t : mbt) : bkind :=
  match t with TEmpty => BEmpty | TLeaf _ _ => BLeaf | TInner _ _ _ => BInner | TPruned k _ => k end.
(** [a is b] for such classes (merbinnertree.py:218, 379). *)
Definition bkind_eqb (a b : bkind) : bool :=
  match a, b with BBase, BBase | BEmpty, BEmpty | BLeaf, BLeaf | BInner, BInner => true | _, _ => false end.

(** Python's [==] between two attribute values: int, bool and bytes; bits.py:114-126; serialized
    forms for transactions and outpoints (bitcoin/core/serialize.py:127-131); proof.py:72-77.
    Values of different sorts are unequal. *)
Definition prim_eq (a b : pyval) : bool :=
  match a, b with
  | PyBool x, PyBool y => Bool.eqb x y
  | PyInt x, PyInt y => (x =? y)%Z
  | PyBool x, PyInt y | PyInt y, PyBool x => (Z.b2z x =? y)%Z
  | PyBytes x, PyBytes y => bytes_eqb x y
  | _, _ => false
  end.
(** bits.py:114-126, as lists. *)
Fixpoint bools_eqb (a b : list bool) : bool :=
  match a, b with
  | [], [] => true
  | x :: a', y :: b' => Bool.eqb x y && bools_eqb a' b'
  | _, _ => false
  end.
(** merbinnertree.py:116, 176, 306 [a == b]. *)
Definition py_eq (ct : ctable) (a b : val) : result bool :=
  match a, b with
  | VPrim x, VPrim y => Ok (prim_eq x y)
  | VBits x, VBits y => Ok (bools_eqb x y)
  | VTx x, VTx y => do e <- tx_ser x; do f <- tx_ser y; Ok (bytes_eqb e f)
  | VOut x, VOut y => do e <- outpoint_ser x; do f <- outpoint_ser y; Ok (bytes_eqb e f)
  | _, _ => if is_proof a && is_proof b then proof_eq ct a b else Ok false
  end.

(** bits.py:232-245 and 247-288 on lists; likewise the equality above and the index below (144-152). *)
Fixpoint startswith (l p : list bool) {struct p} : bool :=
  match p, l with
  | [], _ => true
  | x :: p', y :: l' => Bool.eqb x y && startswith l' p'
  | _ :: _, [] => false
  end.
(** bits.py:247-288, as lists. *)
Fixpoint common_prefix (a b : list bool) : list bool :=
  match a, b with
  | x :: a', y :: b' => if Bool.eqb x y then x :: common_prefix a' b' else []
  | _, _ => []
  end.
(** [bits[i]], [i >= 0] *)
Definition bit (l : list bool) (i : nat) : result bool :=
  match nth_error l i with Some b => Ok b | None => Err IndexError end.

Section Tree.
Context (ct : ctable) (M : mbt_classes) (k2p : val -> list bool).

(** [node.prefix]: the class attribute 242, the property 281-283, the attribute 316; the base
    class has none.  (merbinnertree.py:242, 281-283, 316) *)
Definition prefix_of (t : mbt) : result (list bool) :=
  match t with
  | TEmpty => Ok []
  | TLeaf k _ => Ok (k2p k)
  | TInner p _ _ => Ok p
  | TPruned BEmpty _ => Ok []
  | TPruned BBase _ => Err AttributeError
  | TPruned _ _ => Err PrunedError
  end.

(** [LeafNodeClass(key, value)] 285-287. *)
Definition tleaf_new (k v : val) : result mbt :=
  do _ <- construct ct (b_leaf M) [("key"%string, k); ("value"%string, v)]; Ok (TLeaf k v).

(** [InnerNodeClass(first, second)] 320-340; both are nodes, so the test of 325-326 passes. *)
Definition tinner_new (first second : mbt) : result mbt :=
  do fp <- prefix_of first;
  do sp <- prefix_of second;
  do _ <- assert (negb (bools_eqb fp sp));
  let prefix := common_prefix fp sp in
  do _ <- assert ((List.length prefix <? List.length fp) && (List.length prefix <=? List.length sp));
  do b <- bit sp (List.length prefix);
  let '(l, r) := if b then (first, second) else (second, first) in
  do _ <- construct ct (b_inner M) [("left"%string, bnode M l); ("right"%string, bnode M r); ("prefix"%string, VBits prefix)];
  Ok (TInner prefix l r).

(** [list(node.descend(prefix))] 191-198, 262-263, 298-299, 353-368.
    (merbinnertree.py:191-198, 262-263, 298-299, 353-368) *)
Fixpoint descend (t : mbt) (prefix : list bool) : result (list mbt) :=
  match t with
  | TInner p l r =>
    if (List.length p <=? List.length prefix) && startswith prefix p then
      do b <- bit prefix (List.length p);
      if b then do s <- descend r prefix; Ok (s ++ [l]) else do s <- descend l prefix; Ok (s ++ [r])
    else Ok [t]
  | TPruned BBase _ => Err NotImplementedError
  | TPruned BInner _ => Err PrunedError
  | _ => Ok [t]
  end.

(** 112-120 [node[key]]; [.key] raises AttributeError on nodes that have none. *)
Definition key_of (t : mbt) : result val :=
  match t with
  | TLeaf k _ => Ok k
  | TPruned BLeaf _ => Err PrunedError
  | _ => Err AttributeError
  end.
(** merbinnertree.py:117 [closest_node.value]. *)
Definition value_of (t : mbt) : result val :=
  match t with
  | TLeaf _ v => Ok v
  | TPruned BLeaf _ => Err PrunedError
  | _ => Err AttributeError
  end.
(** merbinnertree.py:112-120 [node[key]]. *)
Definition tgetitem (t : mbt) (key : val) : result val :=
  do s <- descend t (k2p key);
  match s with
  | [] => Err ValueError
  | closest :: _ =>
    match (do k <- key_of closest; do e <- py_eq ct k key; if e then do v <- value_of closest; Ok (Some v) else Ok None) with
    | Ok (Some v) => Ok v
    | Ok None | Err AttributeError => Err KeyError
    | Err e => Err e
    end
  end.

(** [len(node)] 125-126, 253-254, 289-290, 342-343. *)
Fixpoint tlen (t : mbt) : result nat :=
  match t with
  | TEmpty => Ok 0
  | TLeaf _ _ => Ok 1
  | TInner _ l r => do a <- tlen l; do b <- tlen r; Ok (a + b)
  | TPruned BBase _ => Err NotImplementedError
  | TPruned BEmpty _ => Ok 0
  | TPruned BLeaf _ => Ok 1
  | TPruned BInner _ => Err PrunedError
  end.

(** [list(node.keys())], [list(node.values())] 135-138, 256-260, 292-296, 345-351.
    (merbinnertree.py:135-138, 256-260, 292-296, 345-351) *)
Fixpoint tkeys (t : mbt) : result (list val) :=
  match t with
  | TEmpty => Ok []
  | TLeaf k _ => Ok [k]
  | TInner _ l r => do a <- tkeys l; do b <- tkeys r; Ok (a ++ b)
  | TPruned BBase _ => Err NotImplementedError
  | TPruned BEmpty _ => Ok []
  | TPruned _ _ => Err PrunedError
  end.
(** merbinnertree.py:138, 259-260, 295-296, 349-351 [list(node.values())]. *)
Fixpoint tvalues (t : mbt) : result (list val) :=
  match t with
  | TEmpty => Ok []
  | TLeaf _ v => Ok [v]
  | TInner _ l r => do a <- tvalues l; do b <- tvalues r; Ok (a ++ b)
  | TPruned BBase _ => Err NotImplementedError
  | TPruned BEmpty _ => Ok []
  | TPruned _ _ => Err PrunedError
  end.
(** 131-133 [list(node.items())] *)
Definition titems (t : mbt) : result (list (val * val)) := do ks <- tkeys t; do vs <- tvalues t; Ok (combine ks vs).

(** 159-160, 183-185: [for sibling in siblings: new_tip = InnerNodeClass(new_tip, sibling)]; [chk] is the assertion of 184. *)
Fixpoint rebuild (chk : mbt -> result unit) (tip : mbt) (siblings : list mbt) : result mbt :=
  match siblings with
  | [] => Ok tip
  | s :: rest => do _ <- chk s; do tip <- tinner_new tip s; rebuild chk tip rest
  end.

(** 140-162 *)
Definition put (t : mbt) (key value : val) : result mbt :=
  do new_leaf <- tleaf_new key value;
  do p <- prefix_of new_leaf;
  do s <- descend t p;
  match s with
  | [] => Err StopIteration
  | closest :: siblings =>
    if bkind_eqb (bkind_of closest) BEmpty then Ok new_leaf
    else do tip <- tinner_new new_leaf closest; rebuild (fun _ => Ok tt) tip siblings
  end.

(** 165-189 *)
Definition remove (t : mbt) (key : val) : result mbt :=
  do s <- descend t (k2p key);
  match s with
  | [] => Err StopIteration
  | closest :: siblings =>
    if bkind_eqb (bkind_of closest) BLeaf then
      do k <- key_of closest;
      do e <- py_eq ct k key;
      if e then
        match siblings with
        | [] => Ok TEmpty
        | tip :: siblings => rebuild (fun s => assert (negb (bkind_eqb (bkind_of s) BEmpty))) tip siblings
        end
      else Err KeyError
    else Err KeyError
  end.

(** 101-110 [cls(iterable)] *)
Fixpoint put_all (t : mbt) (kvs : list (val * val)) : result mbt :=
  match kvs with
  | [] => Ok t
  | (k, v) :: kvs' => do t <- put t k v; put_all t kvs'
  end.
(** merbinnertree.py:101-110 [cls(iterable)]. *)
Definition mbt_new (kvs : list (val * val)) : result mbt := put_all TEmpty kvs.

(** [a == b] between nodes.  merbinnertree.py:221, 224, 371, 380, with proof.py:72-77. *)
Definition node_eq (a b : mbt) : result bool := proof_eq ct (bnode M a) (bnode M b).

(** 208-231 [issubset], given [_MerbinnerTree__issubset]; the pruned base class has another
    [__base__] than the variants. *)
Definition issubset_via (inner : mbt -> result bool) (self other : mbt) : result bool :=
  if negb (Bool.eqb (bkind_eqb (bkind_of self) BBase) (bkind_eqb (bkind_of other) BBase)) then Err TypeError
  else
    do e <- node_eq self other;
    if e then Ok true
    else
      do e <- node_eq other TEmpty;
      if e then Ok false else inner self.

(** [self._MerbinnerTree__issubset(them)] 200-206, 265-267, 301-306, 370-403.
    (merbinnertree.py:200-206, 265-267, 301-306, 370-403) *)
Fixpoint issubset_in (them self : mbt) {struct them} : result bool :=
  match self with
  | TEmpty | TPruned BEmpty _ => Ok true
  | TLeaf k v =>
    match tgetitem them k with
    | Ok w => py_eq ct v w
    | Err KeyError => Ok false
    | Err e => Err e
    end
  | TPruned BLeaf _ => Err PrunedError
  | TPruned BBase _ => Err NotImplementedError
  | TPruned BInner _ => do e <- node_eq self them; if e then Ok true else Err PrunedError
  | TInner p l r =>
    do e <- node_eq self them;
    if e then Ok true
    else
      do q <- prefix_of them;
      if bools_eqb p q then
        match them with
        | TInner _ tl tr =>
          do x <- node_eq l tl;
          do y <- (if x then node_eq r tr else Ok false);
          do _ <- assert (negb y);
          do a <- issubset_via (issubset_in tl) l tl;
          if a then issubset_via (issubset_in tr) r tr else Ok false
        | _ => Err AssertionError
        end
      else if startswith p q then
        do _ <- assert (List.length q <? List.length p);
        do b <- bit p (List.length q);
        match them with
        | TInner _ tl tr => if b then issubset_in tr self else issubset_in tl self
        | _ => Err AttributeError
        end
      else Ok false
  end.
(** merbinnertree.py:208-231 [self.issubset(other)]. *)
Definition issubset (self other : mbt) : result bool := issubset_via (issubset_in other) self other.
End Tree.
