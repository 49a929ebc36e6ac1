(** Vocabulary: seals and maps against the transactions of a block chain. *)
From Verif Require Import Base Sha256 Ripemd160 Serialize_Spec Tx_Model Tx_Spec Proof_Model Proof_Spec Chain_Model Chain_Spec Gumap_Model Gumap_Spec.
Local Open Scope list_scope.

(** No outpoint is spent by two of the confirmed transactions. *)
Definition no_double_spend (confirmed : tx -> Prop) : Prop := forall t1 t2 i1 i2 x1 x2, confirmed t1 -> confirmed t2 ->
  input t1 i1 x1 -> input t2 i2 x2 -> i_prevout x1 = i_prevout x2 -> t1 = t2.
(** Only one output of the transaction commits to a digest. *)
Definition commits_once (t : tx) : Prop := forall j1 j2 x1 x2 h1 h2, output t j1 x1 -> output t j2 x2 -> List.length h1 = 32 -> List.length h2 = 32 ->
  commitment h1 (o_scriptPubKey x1) -> commitment h2 (o_scriptPubKey x2) -> j1 = j2.

(** The parts of a witness: for outpoint [o], closed by [t], with the output of [t']. *)
Definition closing (P : chain) (w : val) (o : outpoint) (t t' : tx) : Prop :=
  exists n i j, w = Witness P (Seal P o n) (TxInProof P i (TxProof P t)) (TxOutProof P j (TxProof P t')).

(** The witness verifies, and its transaction is confirmed. *)
Definition on_chain (ct : ctable) (P : chain) (confirmed : tx -> Prop) (w : val) : Prop :=
  outcome ct btc_verify w = Ok tt /\ exists o t t', closing P w o t t' /\ confirmed t.
(** Every witness in the map is a fake one or passed verify() and is on the chain. *)
Definition all_on_chain (ct : ctable) (P : chain) (G : gumap) (confirmed : tx -> Prop) (m : val) : Prop :=
  forall p n w, node G m p n -> closed_with G n w -> (exists s, w = FakeWitness P s) \/ on_chain ct P confirmed w.

(** Two digests that closed nodes of the maps were sealed with collide under Hash160; the two transactions in a witness collide. *)
Definition digest_collision (ct : ctable) (G : gumap) (m1 m2 : val) : Prop :=
  exists p1 p2 n1 n2 w1 w2 d1 d2, node G m1 p1 n1 /\ node G m2 p2 n2 /\ sealed ct G n1 w1 d1 /\ sealed ct G n2 w2 d2 /\ collision Hash160 (sha256 d1) (sha256 d2).
Definition witness_collision (P : chain) (G : gumap) (m : val) : Prop :=
  exists p n w o t t', node G m p n /\ closed_with G n w /\ closing P w o t t' /\ tx_collision t t'.
