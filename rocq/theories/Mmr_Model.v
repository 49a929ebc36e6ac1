(** lib/python-proofmarshal/proofmarshal/mmr.py: merkle mountain ranges.  Line numbers
    below are of that file.

    A node is one of the three variants made by [make_mmr_subclass] (273-507), with its
    attributes, or a proof pruned to its data hash, whose attribute reads raise PrunedError
    and whose methods are those of its class.  Live pruned views are not represented: reading
    them gives what the original gives (property C18).  Iterators are lists; an
    exception raised midway through an iteration is the result of the whole iteration. *)
From Verif Require Import Base PySlice Serialize_Model Proof_Model.
Local Open Scope Z_scope.

(** The classes of one MMR type: the class passed to [make_mmr_subclass] and the three
    variants it declares: 274-318, 322-375, 380-504. *)
Record mmr_classes := MmrClasses { m_base : cid; m_empty : cid; m_leaf : cid; m_inner : cid }.

(** The class of a fully pruned node.  mmr.py:205, 275, 323, 381. *)
Inductive kind := KBase | KEmpty | KLeaf | KInner.

(** SERIALIZED_ATTRS: none (280), value (328), left, right, length (386-388). *)
Inductive mmr :=
| Empty
| Leaf (value : val)
| Inner (left right : mmr) (length : Z)
| Pruned (k : kind) (data_hash : bytes).

(** mmr.py:205, 275, 323, 381: the classes. *)
Definition kind_class (M : mmr_classes) (k : kind) : cid :=
  match k with KBase => m_base M | KEmpty => m_empty M | KLeaf => m_leaf M | KInner => m_inner M end.

(** The proof object (proof.py:44-62) a node is. *)
Fixpoint node (M : mmr_classes) (t : mmr) : val :=
  match t with
  | Empty => PFull (m_empty M) []
  | Leaf v => PFull (m_leaf M) [v]
  | Inner l r n => PFull (m_inner M) [node M l; node M r; VPrim (PyInt n)]
  | Pruned k dh => PHash (kind_class M k) dh
  end.

(** [len(node)]: 218-219, 291-292, 333-334, 394-395; the builtin refuses a result above
    sys.maxsize (64 bit). *)
Definition py_len (n : Z) : result Z := if n <? 2 ^ 63 then Ok n else Err OverflowError.
(** mmr.py:218-219, 291-292, 333-334, 394-395 [len(node)] as the builtin gives it. *)
Definition mlen (t : mmr) : result Z :=
  match t with
  | Empty => Ok 0
  | Leaf _ => Ok 1
  | Inner _ _ n => py_len n
  | Pruned KBase _ => Err NotImplementedError
  | Pruned KEmpty _ => Ok 0
  | Pruned KLeaf _ => Ok 1
  | Pruned KInner _ => Err PrunedError
  end.

(** [LeafNodeClass(value)] 330-331, [InnerNodeClass(left, right)] 390-392 and
    [EmptyNodeClass()] 283-289, the latter always giving the same object. *)
Definition leaf_new (ct : ctable) (M : mmr_classes) (v : val) : result mmr :=
  do _ <- construct ct (m_leaf M) [("value"%string, v)]; Ok (Leaf v).
(** mmr.py:390-392 [InnerNodeClass(left, right)]. *)
Definition inner_new (ct : ctable) (M : mmr_classes) (l r : mmr) : result mmr :=
  do a <- mlen l;
  do b <- mlen r;
  let n := a + b in
  do _ <- construct ct (m_inner M) [("left"%string, node M l); ("right"%string, node M r); ("length"%string, VPrim (PyInt n))];
  Ok (Inner l r n).
(** mmr.py:283-289 [EmptyNodeClass()]. *)
Definition empty_new : mmr := Empty.

(** [node[idx]], an integer: 221-222, 294-296, 336-342, 397-414. *)
Fixpoint getitem (t : mmr) (idx : Z) : result val :=
  match t with
  | Empty => Err IndexError
  | Leaf v => if (idx =? 0) || (idx =? -1) then Ok v else Err IndexError
  | Inner l r n =>
    do idx <- (if idx <? 0 then do n <- py_len n; Ok (n + idx) else Ok idx);
    do n <- py_len n;
    if negb ((0 <=? idx) && (idx <? n)) then Err IndexError
    else
      do nl <- mlen l;
      if (0 <=? idx) && (idx <? nl) then getitem l idx
      else
        do nr <- mlen r;
        if (nl <=? idx) && (idx <? nl + nr) then getitem r (idx - nl)
        else Err AssertionError
  | Pruned KBase _ => Err NotImplementedError
  | Pruned KEmpty _ => Err IndexError
  | Pruned KLeaf _ => if (idx =? 0) || (idx =? -1) then Err PrunedError else Err IndexError
  | Pruned KInner _ => Err PrunedError
  end.

(** [list(node)] 224-225, 307-308, 363-364, 449-451 and [list(reversed(node))]
    227-228, 310-311, 366-367, 453-455. *)
Fixpoint items (t : mmr) : result (list val) :=
  match t with
  | Empty => Ok []
  | Leaf v => Ok [v]
  | Inner l r _ => do a <- items l; do b <- items r; Ok (a ++ b)
  | Pruned KBase _ => Err NotImplementedError
  | Pruned KEmpty _ => Ok []
  | Pruned _ _ => Err PrunedError
  end.
(** mmr.py:227-228, 310-311, 366-367, 453-455 [list(reversed(node))]. *)
Fixpoint items_reversed (t : mmr) : result (list val) :=
  match t with
  | Empty => Ok []
  | Leaf v => Ok [v]
  | Inner l r _ => do b <- items_reversed r; do a <- items_reversed l; Ok (b ++ a)
  | Pruned KBase _ => Err NotImplementedError
  | Pruned KEmpty _ => Ok []
  | Pruned _ _ => Err PrunedError
  end.

(** 267-270: the loop of [is_perfect_tree].  [l & 1] is the last binary digit of [l] and
    [l >>= 1] drops it; the loop stops at the first 1, there is one when [l] is positive.
    A negative [l] (no len() is) would end up odd with [l & ~1] nonzero. *)
Fixpoint drop_zeros (l : positive) : positive :=
  match l with xO l' => drop_zeros l' | _ => l end.
(** mmr.py:263-270 [is_perfect_tree] for a number. *)
Definition perfect (l : Z) : bool :=
  match l with
  | Z0 => false
  | Zpos p => Z.land (Zpos (drop_zeros p)) (Z.lnot 1) =? 0
  | Zneg _ => false
  end.
(** 263-270 *)
Definition is_perfect_tree (t : mmr) : result bool := do l <- mlen t; Ok (perfect l).

(** [InnerNode._merge_trees] 457-482; the other nodes have no such method.  (mmr.py:457-482) *)
Fixpoint merge_trees (ct : ctable) (M : mmr_classes) (t new_right : mmr) : result mmr :=
  match t with
  | Inner l r n =>
    do n <- py_len n;
    do nn <- mlen new_right;
    do _ <- assert (nn <=? n);
    if Z.land n nn =? 0 then inner_new ct M t new_right
    else if n =? nn then
      do p <- is_perfect_tree t;
      do _ <- assert p;
      inner_new ct M t new_right
    else
      do nr <- mlen r;
      do _ <- assert (negb (Z.land nr nn =? 0));
      do new_right <- merge_trees ct M r new_right;
      merge_trees ct M l new_right
  | Pruned KInner _ => Err PrunedError
  | _ => Err AttributeError
  end.

(** [node.append(value)]: 238-243, 313-318, 369-375, 484-504.  (mmr.py:238-243, 313-318, 369-375, 484-504) *)
Fixpoint append (ct : ctable) (M : mmr_classes) (t : mmr) (v : val) : result mmr :=
  match t with
  | Empty => leaf_new ct M v
  | Leaf _ => do new <- leaf_new ct M v; inner_new ct M t new
  | Inner l r n =>
    do n <- py_len n;
    if Z.land n 1 =? 0 then do new <- leaf_new ct M v; inner_new ct M t new
    else do new_right <- append ct M r v; merge_trees ct M l new_right
  | Pruned KBase _ => leaf_new ct M v
  | Pruned KEmpty _ => leaf_new ct M v
  | Pruned KLeaf _ => do new <- leaf_new ct M v; inner_new ct M t new
  | Pruned KInner _ => Err PrunedError
  end.

(** 245-254 *)
Fixpoint extend (ct : ctable) (M : mmr_classes) (t : mmr) (vs : list val) : result mmr :=
  match vs with
  | [] => Ok t
  | v :: vs' => do t <- append ct M t v; extend ct M t vs'
  end.

(** 212-216 [cls(iterable)] *)
Definition mmr_new (ct : ctable) (M : mmr_classes) (vs : list val) : result mmr := extend ct M empty_new vs.

(** [node[start:stop:step]]: 221-222, 298-302, 344-358, 416-444. *)
Fixpoint getslice (ct : ctable) (M : mmr_classes) (t : mmr) (s : slice) : result mmr :=
  match t with
  | Empty => do _ <- slice_indices s 0; Ok t
  | Leaf _ =>
    do (start, stop, step) <- slice_indices s 1;
    if negb (step =? 1) then Err NotImplementedError
    else if (start <=? 0) && (1 <=? stop) then Ok t
    else Ok empty_new
  | Inner l r n =>
    do n <- py_len n;
    do (start, stop, step) <- slice_indices s n;
    if negb (step =? 1) then Err NotImplementedError
    else if (start <=? 0) && (n <=? stop) then Ok t
    else
      do nl <- mlen l;
      if start <? nl then
        do a <- getslice ct M l (Slice (Some start) (Some stop) (Some step));
        if nl <? stop then
          do b <- getslice ct M r (Slice (Some 0) (Some (stop - nl)) (Some step));
          do vs <- items b;
          extend ct M a vs
        else Ok a
      else if (nl <=? start) && (start <? n) then
        getslice ct M r (Slice (Some (start - nl)) (Some (stop - nl)) (Some step))
      else Ok empty_new
  | Pruned KBase _ => Err NotImplementedError
  | Pruned KEmpty _ => do _ <- slice_indices s 0; Ok t
  | Pruned KLeaf _ =>
    do (start, stop, step) <- slice_indices s 1;
    if negb (step =? 1) then Err NotImplementedError
    else if (start <=? 0) && (1 <=? stop) then Ok t
    else Ok empty_new
  | Pruned KInner _ => Err PrunedError
  end.
