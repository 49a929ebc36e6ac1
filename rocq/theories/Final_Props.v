(** C190: which inputs are final. *)
From Verif Require Import Base Tx_Model Tx_Proofs Proof_Model Chain_Model Chain_Spec Chain_Examples Final_Model Final_Proofs.

(** An input is final exactly if its bytes end with four times 0xff ... *)
Theorem C190_final_written : forall i e, txin_ser i = Ok e ->
  txin_is_final i = true <-> exists p, e = p ++ [xff; xff; xff; xff].
Proof. exact final_ser. Qed.
Print Assumptions C190_final_written.

(** ... whether written or read, [r] being what follows the input. *)
Theorem C190_final_read : forall s i r, txin_de s = Ok (i, r) ->
  txin_is_final i = true <-> exists p, s = p ++ [xff; xff; xff; xff] ++ r.
Proof. exact final_de. Qed.
Print Assumptions C190_final_read.

(** All inputs of the transaction that closes seals are final, and it has no lock time. *)
Theorem C190_close_final : forall ct digest seals meth dust t,
  make_close_seal_tx_template ct digest seals meth dust = Ok t ->
  List.length (t_vin t) = List.length seals /\ (forall i, In i (t_vin t) -> txin_is_final i = true) /\ t_nLockTime t = 0%Z.
Proof. exact template_final. Qed.
Print Assumptions C190_close_final.

Definition an_outpoint : outpoint := mkOutPoint (repeat x11 32) 5.
Example C190_instance :
  txin_is_final (mkTxIn an_outpoint [xff; xff; xff; xff] 0xffffffff) = true /\
  txin_is_final (mkTxIn an_outpoint [xff; xff; xff; xff] 0xfffffffe) = false /\
  (exists e, txin_ser (mkTxIn an_outpoint [xff; xff; xff; xff] 0xfffffffe) = Ok e) /\
  txin_de (repeat x11 32 ++ [x05; x00; x00; x00; x01; xff; xff; xff; xff; xff; xaa]) = Ok (mkTxIn an_outpoint [xff] 0xffffffff, [xaa]).
Proof. split; [reflexivity|]. split; [reflexivity|]. split; [eexists; vm_compute; reflexivity|vm_compute; reflexivity]. Qed.
Example C190_close_instance : exists t,
  make_close_seal_tx_template ledger digest1 [Seal chain1 outpoint1 (repeat x01 16); Seal chain1 outpoint2 (repeat x02 16)] "op_return" 600 = Ok t.
Proof. eexists. vm_compute. reflexivity. Qed.
