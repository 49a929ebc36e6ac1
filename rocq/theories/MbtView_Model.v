(** Lookup in lib/python-proofmarshal/proofmarshal/merbinnertree.py (cited as merbinnertree.py) on a pruned copy of a tree:
    what it gives, and the copy afterwards (Proof_Model.v, MmrView_Model.v). *)
From Verif Require Import Base Serialize_Model Proof_Model Merbinner_Model MmrView_Model.

Section View.
Context (ct : ctable) (k2p : val -> list bool).

(** [node.descend(prefix)] with all of it asked for, and then [m] done with the first node it gave (merbinnertree.py:114):
    262-263, 298-299, 353-368.  [t] is the tree that was pruned, taken to be complete; it tells the class of [self].  The
    sibling is read after the descent there and before it here, which makes no difference to the copy. *)
Fixpoint vdescend {A} (t : mbt) (prefix : list bool) (m : vmeth A) : vmeth A :=
  match t with
  | TInner _ l r =>
    let* p := vattr ct "prefix" in
    match p with
    | VBits p =>
      if ((List.length p <=? List.length prefix)%nat && startswith prefix p)%bool then
        match bit prefix (List.length p) with
        | Ok true => let* _ := vattr ct "left" in vin ct "right" (vdescend r prefix m)
        | Ok false => let* _ := vattr ct "right" in vin ct "left" (vdescend l prefix m)
        | Err e => vraise e
        end
      else m
    | _ => vraise AttributeError
    end
  | TPruned _ _ => vraise PrunedError
  | _ => m
  end.

(** merbinnertree.py:115-120: a node that has no key is not the one looked for. *)
Definition vclosest (key : val) : vmeth val :=
  fun self =>
    match (let* k := vattr ct "key" in
           match py_eq ct k key with Ok true => let* v := vattr ct "value" in vret (Some v) | Ok false => vret None | Err e => vraise e end) self with
    | (Ok (Some v), self) => (Ok v, self)
    | (Ok None, self) | (Err AttributeError, self) => (Err KeyError, self)
    | (Err e, self) => (Err e, self)
    end.
(** merbinnertree.py:112-120 [node[key]]. *)
Definition vlookup (t : mbt) (key : val) : vmeth val := vdescend t (k2p key) (vclosest key).
End View.
