(** What it means that a scriptSig unlocks a scriptPubKey.  Uses the script language of ScriptEval_Spec. *)
From Verif Require Import Base Ripemd160 Tx_Model Tx_Spec Base58_Spec ScriptEval_Spec.

(** The top of the stack is true. *)
Definition accepting (st : list bytes) : Prop := exists a r, st = a :: r /\ truthy a.
(** Nothing above OP_16 (OP_RESERVED counts as a push). *)
Definition pushes_only (s : bytes) : Prop := exists ops, reads_as s ops /\ Forall (fun o => (op_code o <= 0x60)%N) ops.

Section Unlock.
Context (ecdsa : bytes -> bytes -> bytes -> bool) (t : tx) (i : nat).

(** The script [sc], started with what [ss] leaves on the stack, accepts. *)
Definition unlocks (ss sc : bytes) : Prop :=
  exists st1 st2, evaluates ecdsa t i [] ss st1 /\ evaluates ecdsa t i st1 sc st2 /\ accepting st2.
(** BIP16: if [sc] is pay-to-script-hash then [ss] only pushes, and its last push, as a script started
    with the rest of the stack, accepts. *)
Definition redeems (ss sc : bytes) : Prop :=
  forall h, List.length h = 20%nat -> sc = p2sh_script h ->
  pushes_only ss /\
  exists inner rest st, evaluates ecdsa t i [] ss (inner :: rest) /\ evaluates ecdsa t i rest inner st /\ accepting st.

(** Input [i] of [t] may spend the output of [from] it names. *)
Definition names_output (from : tx) (ss sc : bytes) : Prop :=
  exists inp out id, nth_error (t_vin t) i = Some inp /\ i_scriptSig inp = ss /\
    tx_GetHash from = Ok id /\ o_hash (i_prevout inp) = id /\ (0 <= o_n (i_prevout inp))%Z /\
    nth_error (t_vout from) (Z.to_nat (o_n (i_prevout inp))) = Some out /\ o_scriptPubKey out = sc.
End Unlock.

(** ** The usual scripts *)

(** What is signed to spend [p2pkh_script h]: the push of the key hash is left out in case the "signature" is that hash. *)
Definition p2pkh_signed (h sig s : bytes) : Prop := (sig <> h -> s = p2pkh_script h) /\ (sig = h -> s = [x76; xa9; x88; xac]).

(** The text that pushes [k], at most 75 bytes. *)
Definition short_push (k : bytes) : bytes := Nb (blen k) :: k.
(** OP_1 to OP_16. *)
Definition small_number (n : nat) : byte := Nb (0x50 + N.of_nat n).
(** OP_m, the keys, OP_n and OP_CHECKMULTISIG. *)
Definition multisig_script (m n : nat) (keys : list bytes) : bytes :=
  [small_number m] ++ concat (map short_push keys) ++ [small_number n; xae].
(** Signatures of the script with [all] keys do not cover those that are also among the signatures. *)
Definition keys_signed (sigs all keys : list bytes) : Prop :=
  keys = filter (fun k => negb (existsb (bytes_eqb k) sigs)) all.

(** ** Conditionals *)

Definition is_if (o : operation) : Prop := op_data o = None /\ (op_code o = 0x63 \/ op_code o = 0x64)%N.
Definition is_else (o : operation) : Prop := op_data o = None /\ op_code o = 0x67%N.
Definition is_endif (o : operation) : Prop := op_data o = None /\ op_code o = 0x68%N.
(** From [d] open conditionals to none, with every ELSE and ENDIF inside of one. *)
Inductive nested : nat -> list operation -> Prop :=
| nested_end : nested 0 []
| nested_if : forall d o l, is_if o -> nested (S d) l -> nested d (o :: l)
| nested_else : forall d o l, is_else o -> nested (S d) l -> nested (S d) (o :: l)
| nested_endif : forall d o l, is_endif o -> nested d l -> nested (S d) (o :: l)
| nested_other : forall d o l, ~ is_if o -> ~ is_else o -> ~ is_endif o -> nested d l -> nested d (o :: l).

(** How many of the 201 operations [l] takes if none is executed. *)
Fixpoint counted (l : list operation) : Z :=
  match l with [] => 0%Z | o :: l => ((if (0x60 <? op_code o)%N then 1 else 0) + counted l)%Z end.
(** What is asked of operations that are not executed. *)
Definition harmless (l : list operation) : Prop :=
  Forall (fun o => match op_data o with Some d => (blen d <= 520)%N | None => ~ forbidden (op_code o) end) l.

Section Part.
Context (ecdsa : bytes -> bytes -> bytes -> bool) (t : tx) (i : nat).
(** Executing the operations of the first list, which the second list follows. *)
Inductive passes : list operation -> list operation -> mach -> mach -> Prop :=
| passes_nil : forall rest m, passes [] rest m m
| passes_cons : forall o l rest m m1 m2, steps ecdsa t i (l ++ rest) o m m1 -> passes l rest m1 m2 -> passes (o :: l) rest m m2.
End Part.

(** The first branch after IF is taken if the condition is true, after NOTIF if it is not. *)
Definition taken (o : operation) (a : bytes) : Prop := if (op_code o =? 0x63)%N then truthy a else ~ truthy a.
