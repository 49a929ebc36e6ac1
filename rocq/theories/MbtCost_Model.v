(** Lookup, [put] and [remove] of lib/python-proofmarshal/proofmarshal/merbinnertree.py (cited as merbinnertree.py) with a count of the
    calls they make: of themselves, [descend] and the constructors.  Apart from the count they are those of Merbinner_Model.v. *)
From Verif Require Import Base Serialize_Model Proof_Model Merbinner_Model MmrCost_Model.

Section Cost.
Context (ct : ctable) (M : mbt_classes) (k2p : val -> list bool).

(** merbinnertree.py:191-198, 262-263, 298-299, 353-368 [list(node.descend(prefix))]. *)
Fixpoint cdescend (t : mbt) (prefix : list bool) : counted (list mbt) :=
  call match t with
  | TInner p l r =>
    if (List.length p <=? List.length prefix) && startswith prefix p then
      do# b <- free (bit prefix (List.length p));
      if b then do# s <- cdescend r prefix; free (Ok (s ++ [l])) else do# s <- cdescend l prefix; free (Ok (s ++ [r]))
    else free (Ok [t])
  | TPruned BBase _ => free (Err NotImplementedError)
  | TPruned BInner _ => free (Err PrunedError)
  | _ => free (Ok [t])
  end.

(** merbinnertree.py:112-120 [node[key]]. *)
Definition cgetitem (t : mbt) (key : val) : counted val :=
  call (
    do# s <- cdescend t (k2p key);
    match s with
    | [] => free (Err ValueError)
    | closest :: _ =>
      match (do k <- key_of closest; do e <- py_eq ct k key; if e then do v <- value_of closest; Ok (Some v) else Ok None) with
      | Ok (Some v) => free (Ok v)
      | Ok None | Err AttributeError => free (Err KeyError)
      | Err e => free (Err e)
      end
    end).

(** merbinnertree.py:159-160, 183-185. *)
Fixpoint crebuild (chk : mbt -> result unit) (tip : mbt) (siblings : list mbt) : counted mbt :=
  match siblings with
  | [] => free (Ok tip)
  | s :: rest => do# _ <- free (chk s); do# tip <- call (free (tinner_new ct M k2p tip s)); crebuild chk tip rest
  end.

(** merbinnertree.py:140-162 [put]. *)
Definition cput (t : mbt) (key value : val) : counted mbt :=
  call (
    do# new_leaf <- call (free (tleaf_new ct M key value));
    do# p <- free (prefix_of k2p new_leaf);
    do# s <- cdescend t p;
    match s with
    | [] => free (Err StopIteration)
    | closest :: siblings =>
      if bkind_eqb (bkind_of closest) BEmpty then free (Ok new_leaf)
      else do# tip <- call (free (tinner_new ct M k2p new_leaf closest)); crebuild (fun _ => Ok tt) tip siblings
    end).

(** merbinnertree.py:165-189 [remove]. *)
Definition cremove (t : mbt) (key : val) : counted mbt :=
  call (
    do# s <- cdescend t (k2p key);
    match s with
    | [] => free (Err StopIteration)
    | closest :: siblings =>
      if bkind_eqb (bkind_of closest) BLeaf then
        do# k <- free (key_of closest);
        do# e <- free (py_eq ct k key);
        if e then
          match siblings with
          | [] => call (free (Ok TEmpty))
          | tip :: siblings => crebuild (fun s => assert (negb (bkind_eqb (bkind_of s) BEmpty))) tip siblings
          end
        else free (Err KeyError)
      else free (Err KeyError)
    end).
End Cost.
