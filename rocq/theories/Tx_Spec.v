(** Well-formed transactions, stated field by field. *)
From Verif Require Import Base Tx_Model.

(** The field values a transaction on the wire can have. *)
Definition wf_outpoint (o : outpoint) : Prop :=
  List.length (o_hash o) = 32 /\ (0 <= o_n o < 2 ^ 32)%Z.
Definition wf_script (s : bytes) : Prop := (blen s <= MAX_SIZE)%N.
Definition wf_txin (i : txin) : Prop :=
  wf_outpoint (i_prevout i) /\ wf_script (i_scriptSig i) /\ (0 <= i_nSequence i < 2 ^ 32)%Z.
Definition wf_txout (o : txout) : Prop :=
  (- 2 ^ 63 <= o_nValue o < 2 ^ 63)%Z /\ wf_script (o_scriptPubKey o).
Definition wf_tx (t : tx) : Prop :=
  Forall wf_txin (t_vin t) /\ Forall wf_txout (t_vout t) /\
  (Z.of_nat (List.length (t_vin t)) < 2 ^ 64)%Z /\ (Z.of_nat (List.length (t_vout t)) < 2 ^ 64)%Z /\
  (0 <= t_nLockTime t < 2 ^ 32)%Z /\ (- 2 ^ 31 <= t_nVersion t < 2 ^ 31)%Z.
