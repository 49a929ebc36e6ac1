(** What is said of transaction objects: which objects are parts of which, and which cannot change. *)
From Verif Require Import Base Tx_Model Money_Model TxObj_Model.

(** The objects in the slots of an object (the elements, of a list or tuple). *)
Definition held (o : obj) : list ref :=
  match o with
  | OInput p _ _ => [p]
  | OTrans vi vo _ _ => [vi; vo]
  | OSeq l => l
  | OPoint _ _ | OOutput _ _ => []
  end.
(** [y] is [x] or found in it, at any depth. *)
Inductive part (s : store) : ref -> ref -> Prop :=
| part_self x : part s x x
| part_in x c y z : nth_error s x = Some c -> In y (held (c_obj c)) -> part s y z -> part s x z.
(** [x] and everything in it is of one class: the immutable ones (and tuples), or the mutable ones (and lists). *)
Definition throughout (k : cls) (s : store) (x : ref) : Prop :=
  forall y, part s x y -> exists c, nth_error s y = Some c /\ c_cls c = k.
(** The class of [x] itself. *)
Definition has_class (k : cls) (s : store) (x : ref) : Prop := exists c, nth_error s x = Some c /\ c_cls c = k.
(** There are some objects after a program has run. *)
Definition reached (pyhash : bytes -> Z) (s : store) : Prop := exists prog, s = snd (run pyhash prog start).
(** Objects a statement of a program sets attributes of, or changes in place. *)
Definition written (o : op) : list ref := match o with SetAttr r _ => [r] | Change r _ => [r] | _ => [] end.
(** None of the statements writes to a part of [x]. *)
Definition leaves_alone (s : store) (x : ref) (prog : list op) : Prop :=
  forall o y, In o prog -> In y (written o) -> ~ part s x y.
(** All that can be seen of an object without asking for hashes. *)
Definition looks (s s' : store) (x : ref) : Prop :=
  serialize s' x = serialize s x /\ tx_at s' x = tx_at s x /\ input_at s' x = input_at s x /\
  output_at s' x = output_at s x /\ point_at s' x = point_at s x /\ seq_at s' x = seq_at s x.
