(** Vocabulary for C182: what the info commands print. *)
From Verif Require Import Base.
Local Open Scope string_scope.

(** [stops out all]: what is printed is the beginning of [all]; either all of it is printed, or PrunedError is raised. *)
Definition stops (out : list string * result unit) (all : list string) : Prop :=
  (out = (all, Ok tt)) \/ exists rest, all = (fst out ++ rest)%list /\ snd out = Err PrunedError.
(** Two runs show the same, except that one may stop earlier. *)
Definition same_as_far (a b : list string * result unit) : Prop := exists all, stops a all /\ stops b all.
