(** What a difficulty should be: the ratio of two targets, and how doubles compare. *)
From Verif Require Import Base PyText_Spec.
Local Open Scope Z_scope.

(** Doubles by their values: [mant * 2 ^ expo] with no regard to how it is written. *)
Definition same (x y : double) : Prop := let '(a, b) := ratio x in let '(c, d) := ratio y in a * d = c * b.
Definition at_most (x y : double) : Prop := let '(a, b) := ratio x in let '(c, d) := ratio y in a * d <= c * b.

(** The target of difficulty 1. *)
Definition unit_target : Z := 0xffff * 256 ^ 26.
