(** What pasting a printed object back into Python should give, apart from the code that prints. *)
From Verif Require Import Base Tx_Model Script_Model Hex_Model Block_Model Base58_Model Base58_Spec PyText_Spec.
Local Open Scope Z_scope.
Local Open Scope list_scope.

(** The shortest push of data [d], apart from OP_1 to OP_16. *)
Definition shortest_push (d : bytes) : bytes :=
  let l := blen d in
  if (l <? 76)%N then Nb l :: d
  else if (l <? 256)%N then x4c :: Nb l :: d
  else if (l <? 65536)%N then x4d :: le_enc 2 l ++ d
  else x4e :: le_enc 4 l ++ d.
(** One operation of a script, spelled that way. *)
Definition spelled (c : cooked) : bytes :=
  match c with
  | CData d => shortest_push d
  | CInt z => [Nb (Z.to_N (0x50 + z))]
  | COp n => [Nb n]
  end.
(** [s'] has the operations of [s], which can be parsed, each spelled that way. *)
Definition respelled (s s' : bytes) : Prop := exists ops, has_ops s ops /\ s' = flat_map spelled ops.

(** The number of satoshis that Python computes for the amount [v] written in coins: the decimal
    fraction as a double, times 100000000 as a double, cut to an integer. *)
Definition in_floats (v : Z) : Z := to_int (double_mul (nearest v (10 ^ 8)) (of_int (10 ^ 8))).
Definition pasted_amount (v : Z) : Z := if v <? 0 then v else in_floats v.

(** [t'] is [t] but for the spelling of scripts and what floating point does to amounts. *)
Definition pasted_txin (i i' : txin) : Prop :=
  i_prevout i' = i_prevout i /\ i_nSequence i' = i_nSequence i /\ respelled (i_scriptSig i) (i_scriptSig i').
Definition pasted_txout (o o' : txout) : Prop :=
  o_nValue o' = pasted_amount (o_nValue o) /\ respelled (o_scriptPubKey o) (o_scriptPubKey o').
Definition pasted_tx (t t' : tx) : Prop :=
  Forall2 pasted_txin (t_vin t) (t_vin t') /\ Forall2 pasted_txout (t_vout t) (t_vout t') /\
  t_nLockTime t' = t_nLockTime t /\ t_nVersion t' = t_nVersion t.

(** The scripts of a transaction. *)
Definition scripts (t : tx) : list bytes := map i_scriptSig (t_vin t) ++ map o_scriptPubKey (t_vout t).
Definition parses (s : bytes) : Prop := exists ops, has_ops s ops.

(** A push of one byte of value 16 or less. *)
Definition small_push (c : cooked) : Prop := match c with CData [b] => (bN b <= 16)%N | _ => False end.
