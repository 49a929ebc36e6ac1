(** Printed forms of proofs and merkle mountain ranges.
    Models lib/python-proofmarshal/proofmarshal/proof.py:232-235 and mmr.py:256-261 [__repr__]. *)
From Verif Require Import Base Hex_Model Base58_Model Tx_Model Money_Model Repr_Model Serialize_Model Proof_Model Mmr_Model.
#[local] Open Scope list_scope.

(** [__module__] and [__qualname__] of the classes of a program (proof.py:234, mmr.py:261). *)
Record names := Names { n_module : cid -> text; n_qualname : cid -> text }.

(** proof.py:232-235 [Proof.__repr__]. *)
Definition proof_repr (nm : names) (ct : ctable) (v : val) : result text :=
  match class_of v with
  | None => Err AttributeError
  | Some c => do h <- phash ct v; Ok (n_module nm c ++ T "." ++ n_qualname nm c ++ T "(<" ++ T (b2x h) ++ T ">)")
  end.

(** [%r] of a value in a list (mmr.py:261).  Items that are themselves MMRs print as those (mmr.py:256-261); here they print like
    other proofs.  Transactions are of class CTransaction.  Values of other classes ([PyOther]) print in their own way; no
    serializer of the library accepts them. *)
Definition val_repr (nm : names) (ct : ctable) (v : val) : result text :=
  match v with
  | VPrim (PyBool b) => Ok (T (if b then "True" else "False"))
  | VPrim (PyInt z) => Ok (fmt_i z)
  | VPrim (PyBytes b) => Ok (bytes_repr b)
  | VPrim PyOther => Err NotImplementedError
  | VBits l => Ok (T "Bits([" ++ join (T ",") (map (fun b : bool => T (if b then "1" else "0")) l) ++ T "])")
  | VTx t => tx_repr Imm t
  | VOut o => Ok (outpoint_repr o)
  | PFull _ _ | PHash _ _ | PView _ _ _ => proof_repr nm ct v
  end.
(** mmr.py:261: the printed forms of the items of a list. *)
Fixpoint vals_repr (nm : names) (ct : ctable) (vs : list val) : result (list text) :=
  match vs with [] => Ok [] | v :: vs' => do s <- val_repr nm ct v; do l <- vals_repr nm ct vs'; Ok (s :: l) end.

(** mmr.py:256-261 [MerkleMountainRange.__repr__].  A node pruned as an instance of the base class itself fails the assertion.
    [list(self)] asks for the length first (the memory set aside for that many items is left out). *)
Definition mmr_repr (nm : names) (ct : ctable) (M : mmr_classes) (t : mmr) : result text :=
  match t with
  | Pruned KBase _ => Err AssertionError
  | _ =>
    do _ <- mlen t;
    do vs <- items t;
    do l <- vals_repr nm ct vs;
    Ok (n_qualname nm (m_base M) ++ T "(" ++ list_repr l ++ T ")")
  end.
