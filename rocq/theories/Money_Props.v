(** Properties of copies of transactions (C76) and of amounts as text (C77). *)
From Verif Require Import Base Tx_Model Tx_Spec Base58_Props Money_Model Money_Spec Money_Proofs SigHash_Props.
Local Open Scope string_scope. Local Open Scope list_scope. Local Open Scope Z_scope.

(** ** C76: conversion between mutable and immutable transactions *)

(** The full claim: whatever the classes of the inputs and outputs, the constructor makes an
    immutable transaction of them.  It is false in two ways.  Turning a transaction with inputs
    into a mutable one and back always fails. *)
Theorem C76_freeze_refuted : forall t, wf_tx (contents t) -> pt_vin t <> [] ->
  exists t', CMutableTransaction_from_tx t = Ok t' /\ contents t' = contents t /\ CTransaction_from_tx t' = Err AttributeError.
Proof.
  intros t W NE. destruct (thaw t W) as (t' & E & A & C). exists t'. split; [exact E|]. split; [exact C|].
  apply (freeze_thawed t t'); auto. destruct W as (_ & _ & _ & _ & L & _). exact L.
Qed.
Print Assumptions C76_freeze_refuted.

(** An outpoint that can still be changed goes into an immutable transaction as it is. *)
Theorem C76_mutable_part_refuted : exists vin t, CTransaction_new vin [] 0 1 = Ok t /\ pt_cls t = Imm /\
  exists i, In i (pt_vin t) /\ po_cls (pi_prevout i) = Mut.
Proof.
  exists [mkPin Imm (mkPout Mut (mkOutPoint (repeat x11 32) 0)) [] 0]. eexists. split; [reflexivity|]. split; [reflexivity|].
  eexists. split; [left; reflexivity|reflexivity].
Qed.
Print Assumptions C76_mutable_part_refuted.

(** What holds: with immutable inputs the copy is immutable throughout and has the same contents
    (missing: mutable inputs, and inputs with a mutable outpoint). *)
Theorem C76_freeze_partial : forall vin vout lock ver, Forall (in_class Imm) vin -> 0 <= lock < 2 ^ 32 ->
  exists t, CTransaction_new vin vout lock ver = Ok t /\ all_class Imm t /\ contents t = contents (mkPtx Imm vin vout lock ver).
Proof. exact new_frozen. Qed.
Print Assumptions C76_freeze_partial.

Theorem C76_thaw : forall t, wf_tx (contents t) ->
  exists t', CMutableTransaction_from_tx t = Ok t' /\ all_class Mut t' /\ contents t' = contents t.
Proof. exact thaw. Qed.
Print Assumptions C76_thaw.

(** One input and one output, and the mutable copy. *)
Example C76_thaw_instance : exists t, CMutableTransaction_from_tx
    (mkPtx Imm [mkPin Imm (mkPout Imm (mkOutPoint (repeat x11 32) 3)) [x51] 9] [mkPq Imm (mkTxOut 7 [x52])] 5 1) = Ok t /\
  all_class Mut t /\ contents t = mkTx [mkTxIn (mkOutPoint (repeat x11 32) 3) [x51] 9] [mkTxOut 7 [x52]] 5 1.
Proof. eexists. split; [vm_compute; reflexivity|]. split; [repeat split; repeat constructor|reflexivity]. Qed.

Definition frozen (t : tx) : ptx :=
  mkPtx Imm (map (fun i => mkPin Imm (mkPout Imm (i_prevout i)) (i_scriptSig i) (i_nSequence i)) (t_vin t))
        (map (mkPq Imm) (t_vout t)) (t_nLockTime t) (t_nVersion t).
Example C76_instance : wf_tx (contents (frozen three_two)) /\ pt_vin (frozen three_two) <> [] /\ all_class Imm (frozen three_two) /\
  Forall (in_class Imm) (pt_vin (frozen three_two)).
Proof. split; [exact three_two_wf|]. split; [discriminate|]. repeat split; repeat constructor. Qed.

(** ** C77: amounts as text *)

Theorem C77_text_reads_back_partial : forall v, 0 <= v -> exists s, str_money_value v = Ok s /\ reads s v /\ trimmed s.
Proof. exact money_reads. Qed.
Print Assumptions C77_text_reads_back_partial.

Theorem C77_text_unique : forall v w s, 0 <= v -> 0 <= w -> str_money_value v = Ok s -> str_money_value w = Ok s -> v = w.
Proof. exact money_injective. Qed.
Print Assumptions C77_text_unique.

Example C77_unique_instance : str_money_value 150000000 = Ok (txt "1.5") /\ str_money_value 15000000 = Ok (txt "0.15").
Proof. split; vm_compute; reflexivity. Qed.

(** A text has one meaning. *)
Theorem C77_one_meaning : forall s v w, reads s v -> reads s w -> v = w.
Proof. exact reads_unique. Qed.
Print Assumptions C77_one_meaning.

Example C77_meaning_instance : reads (txt "1.5") 150000000 /\ reads (txt "0.15") 15000000.
Proof.
  split; [destruct (money_reads 150000000 ltac:(lia)) as (s & E & R & _)|destruct (money_reads 15000000 ltac:(lia)) as (s & E & R & _)];
    vm_compute in E; injection E as <-; exact R.
Qed.

(** The full claim, for every integer, is false for negative amounts: one satoshi owed is
    written as if it were nearly two coins. *)
Theorem C77_negative_refuted : exists v s, str_money_value v = Ok s /\ s = txt "-1.99999999" /\ reads s (-199999999) /\ ~ reads s v.
Proof.
  exists (-1), (txt "-1.99999999"). split; [vm_compute; reflexivity|]. split; [reflexivity|].
  assert (R : reads (txt "-1.99999999") (-199999999)).
  { change (-199999999) with (- (199999999)). change (txt "-1.99999999") with ("-"%char :: txt "1.99999999").
    constructor; [discriminate|]. destruct (money_reads 199999999 ltac:(lia)) as (s & E & R & _).
    assert (s = txt "1.99999999") as -> by (vm_compute in E; inversion E; reflexivity). exact R. }
  split; [exact R|]. intros H. pose proof (reads_unique _ _ _ R H). discriminate.
Qed.
Print Assumptions C77_negative_refuted.

Example C77_instance : str_money_value 123456000 = Ok (txt "1.23456") /\ str_money_value 0 = Ok (txt "0.0") /\
  str_money_value 1 = Ok (txt "0.00000001") /\ str_money_value 2100000000000000 = Ok (txt "21000000.0").
Proof. repeat split; vm_compute; reflexivity. Qed.
