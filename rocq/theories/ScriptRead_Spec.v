(** What iterating over a script and asking about it must give (C154). *)
From Verif Require Import Base Script_Model Script_Spec ScriptEval_Spec.

(** The operations [ops] are at the front of [s], and [rest], which follows them,
    does not begin with an operation. *)
Definition read_up_to (s : bytes) (ops : list operation) (rest : bytes) : Prop :=
  Forall spelled ops /\ s = text_of ops ++ rest /\ forall o r, spelled o -> rest <> op_text o ++ r.

(** The items yielded are the opcodes and data of the operations, with the places where they begin. *)
Definition lists (items : list (N * option bytes * nat)) (ops : list operation) : Prop :=
  map fst items = map (fun o => (op_code o, op_data o)) ops /\
  forall k c d i, nth_error items k = Some (c, d, i) -> i = List.length (text_of (firstn k ops)).

(** A push operation that ends before its length is complete. *)
Definition length_cut (rest : bytes) : Prop :=
  exists x r n, rest = x :: r /\ In (x, n) [(x4c, 1); (x4d, 2); (x4e, 4)] /\ List.length r < n.

(** What iterating gives for an operation: the data, the number for OP_1 to OP_16, else the opcode.
    (OP_1NEGATE stays an opcode.) *)
Definition gives (o : operation) (c : cooked) : Prop :=
  (forall d, op_data o = Some d -> c = CData d) /\
  (op_data o = None -> (0x51 <= op_code o <= 0x60)%N -> c = CInt (Z.of_N (op_code o) - 0x50)) /\
  (op_data o = None -> ~ (0x51 <= op_code o <= 0x60)%N -> c = COp (op_code o)).
