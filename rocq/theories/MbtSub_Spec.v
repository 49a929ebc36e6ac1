(** Vocabulary for C178: comparing merbinner trees that are not complete. *)
From Verif Require Import Base Merbinner_Model.

(** How incomplete trees say that they do not know: PrunedError; an object pruned as a whole, as an instance of the base class, cannot be
    compared with one of another class (TypeError), and two of them only by their hashes. *)
Definition whole_pruned (t : mbt) : bool := match t with TPruned BBase _ => true | _ => false end.
Definition no_answer (t o : mbt) (e : exn) : Prop :=
  match whole_pruned t, whole_pruned o with
  | false, false => e = PrunedError
  | true, true => e = NotImplementedError
  | _, _ => e = TypeError
  end.
