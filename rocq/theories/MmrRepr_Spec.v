(** Vocabulary for C160 and C161: Python literals, and MMRs rebuilt from their text. *)
From Verif Require Import Base Base58_Model PyText_Spec Serialize_Model Proof_Model Mmr_Model MmrRepr_Model.
#[local] Open Scope list_scope.

(** The values that a program can write as literals, and the literals. *)
Inductive literal : expr -> val -> Prop :=
| L_int z : (0 <= z)%Z -> literal (ENum z) (VPrim (PyInt z))
| L_neg z : (0 < z)%Z -> literal (ENeg (ENum z)) (VPrim (PyInt (- z)))
| L_bytes b : literal (EBytes b) (VPrim (PyBytes b))
| L_true : literal (EName (list_ascii_of_string "True")) (VPrim (PyBool true))
| L_false : literal (EName (list_ascii_of_string "False")) (VPrim (PyBool false)).
(** A value without parts that are objects. *)
Definition simple (v : val) : Prop := exists p, v = VPrim p /\ p <> PyOther.

(** Python reads [s] as a call of the class named [f] with the list of the values [vs]. *)
Definition reads_as (f : text) (vs : list val) (s : text) : Prop :=
  exists es, PyText_Spec.read s = Some (ECall f [EList es]) /\ Forall2 literal es vs.

(** A name of Python. *)
Definition identifier (t : text) : Prop := (exists c r, t = c :: r /\ is_letter c = true) /\ forallb is_ident t = true.

(** The name of a class, with its module. *)
Definition full_name (nm : names) (c : cid) : text := n_module nm c ++ ["."%char] ++ n_qualname nm c.
