(** Property C163: a closing transaction may be funded and signed before it is witnessed. *)
From Verif Require Import Base Sha256 Ripemd160 Serialize_Model Serialize_Spec Tx_Model Tx_Spec Tx_Proofs Proof_Model Proof_Spec
  Hex_Model Chain_Model Chain_Spec Chain_Proofs ChainPipe_Proofs Chain_Examples Chain_Props Fund_Spec Fund_Proofs.
From Coq Require Import ZifyBool ZifyNat ZifyN.
Local Open Scope string_scope.
Local Open Scope list_scope.
Local Open Scope Z_scope.

(** The template for two seals; an input that pays, with a script, and a change output. *)
Definition ons1 := [(outpoint1, nonce1); (outpoint2, nonce1)].
Definition template1 := close_tx [outpoint1; outpoint2] [out_p2pkh].
Definition paying := mkTxIn (mkOutPoint (repeat x07 32) 3) [x51; x52] 7.
Definition change := mkTxOut 12345 [x76; xa9; x14; x01; x02].
Definition change_last := mkTx [paying; mkTxIn outpoint2 [x53] 1; mkTxIn outpoint1 [x51] 2] [out_p2pkh; change] 500000 2.
Definition change_first := mkTx [paying; mkTxIn outpoint2 [x53] 1; mkTxIn outpoint1 [x51] 2] [change; out_p2pkh] 500000 2.

Lemma seal_files1 : seal_files ledger chain1 [seal_file1; seal_file2] ons1.
Proof. constructor; [vm_compute; reflexivity|constructor; [vm_compute; reflexivity|constructor]]. Qed.
Lemma printed1 : printed ledger chain1 digest1 [seal_file1; seal_file2] "p2pkh" template1.
Proof. exists (match tx_ser template1 with Ok b => b | _ => [] end). split; vm_compute; reflexivity. Qed.
Lemma funded_last : funded template1 change_last.
Proof.
  split. { repeat split; try (repeat constructor; vm_compute; congruence); cbn; lia. }
  split; [cbn; lia|]. split; [cbn; lia|]. split; [|intros x [<-|[]]; left; reflexivity].
  intros o [<-|[<-|[]]]; cbn; auto.
Qed.
Lemma funded_first1 : funded template1 change_first.
Proof.
  split. { repeat split; try (repeat constructor; vm_compute; congruence); cbn; lia. }
  split; [cbn; lia|]. split; [cbn; lia|]. split; [|intros x [<-|[]]; right; left; reflexivity].
  intros o [<-|[<-|[]]]; cbn; auto.
Qed.

(** The claim is false: mkwitness always points at the first output, wherever the commitment is. *)
Theorem C163_funding_refuted : ~ funding_allowed.
Proof.
  intros H. destruct (tx_file change_first (proj1 funded_first1)) as (raw & E & _).
  pose proof (H ledger chain1 digest1 _ ons1 "p2pkh" _ change_first raw ledger_chain ledger_wf ledger_variants seal_files1 eq_refl ltac:(unfold method; auto) printed1 funded_first1 E) as K.
  apply (proj2 (funded_exact ledger chain1 ledger_chain digest1 _ ons1 "p2pkh" _ change_first raw ledger_wf ledger_variants seal_files1 ltac:(discriminate) eq_refl ltac:(unfold method; auto) eq_refl printed1 funded_first1 E)) in K.
  destruct K as (y & (_ & Y) & [K|[K|K]]); cbn in Y; injection Y as <-; cbn [o_scriptPubKey change] in K; [discriminate K|discriminate K|].
  apply (f_equal (@List.length _)) in K. vm_compute in K. discriminate K.
Qed.
Print Assumptions C163_funding_refuted.

(** What is true: mkwitness writes a file per seal, each passes verifywitness, and they are
    accepted with the digest exactly when the first output of the transaction commits to it. *)
Theorem C163_first_output_decides_partial : forall ct P digest files ons meth t t' raw, is_chain ct P -> wf_table ct -> variant_table ct ->
  seal_files ct P files ons -> files <> [] -> List.length digest = 32%nat -> method meth -> Z.of_nat (List.length files) < 2 ^ 64 ->
  printed ct P digest files meth t -> funded t t' -> tx_ser t' = Ok raw ->
  (exists ws, cmd_mkwitness ct P raw files = Ok ws /\ List.length ws = List.length files /\ Forall (fun w => cmd_verifywitness ct P w None = Ok tt) ws) /\
  (witnessed ct P raw files digest <-> exists y, output t' 0 y /\ commitment digest (o_scriptPubKey y)).
Proof. intros ct P digest files ons meth t t' raw C. exact (funded_exact ct P C digest files ons meth t t' raw). Qed.
Print Assumptions C163_first_output_decides_partial.

(** In particular a wallet that leaves the first output first may change everything else. *)
Theorem C163_first_output_kept_partial : forall ct P digest files ons meth t t' raw, is_chain ct P -> wf_table ct -> variant_table ct ->
  seal_files ct P files ons -> List.length digest = 32%nat -> method meth -> Z.of_nat (List.length files) < 2 ^ 64 ->
  printed ct P digest files meth t -> funded t t' -> tx_ser t' = Ok raw -> hd_error (t_vout t') = hd_error (t_vout t) -> witnessed ct P raw files digest.
Proof. intros ct P digest files ons meth t t' raw C. exact (funded_first ct P C digest files ons meth t t' raw). Qed.
Print Assumptions C163_first_output_kept_partial.

(** And nothing is lost by another order but the tool's help: the library can make, for every
    funded transaction, witnesses that verifywitness accepts with the digest. *)
Theorem C163_library_witness : forall ct P digest files ons meth t t', is_chain ct P -> wf_table ct -> variant_table ct ->
  seal_files ct P files ons -> List.length digest = 32%nat -> method meth -> Z.of_nat (List.length files) < 2 ^ 64 ->
  printed ct P digest files meth t -> funded t t' ->
  exists j, forall o n, In (o, n) ons -> exists i w f, w = Witness P (Seal P o n) (TxInProof P i (TxProof P t')) (TxOutProof P j (TxProof P t')) /\
    ser_proof ct w = Ok f /\ deserialize ct (p_bwit P) f = Ok w /\ cmd_verifywitness ct P f (Some digest) = Ok tt.
Proof. intros ct P digest files ons meth t t' C. exact (funded_library ct P C digest files ons meth t t'). Qed.
Print Assumptions C163_library_witness.

Example C163_instance : seal_files ledger chain1 [seal_file1; seal_file2] ons1 /\ printed ledger chain1 digest1 [seal_file1; seal_file2] "p2pkh" template1 /\
  funded template1 change_last /\ funded template1 change_first /\ hd_error (t_vout change_last) = hd_error (t_vout template1) /\
  (do raw <- tx_ser change_last; do ws <- cmd_mkwitness ledger chain1 raw [seal_file1; seal_file2];
   Ok (map (fun w => cmd_verifywitness ledger chain1 w (Some digest1)) ws)) = Ok [Ok tt; Ok tt] /\
  (do raw <- tx_ser change_first; do ws <- cmd_mkwitness ledger chain1 raw [seal_file1; seal_file2];
   Ok (map (fun w => (cmd_verifywitness ledger chain1 w None, cmd_verifywitness ledger chain1 w (Some digest1))) ws)) = Ok [(Ok tt, Err AssertionError); (Ok tt, Err AssertionError)].
Proof.
  split; [exact seal_files1|]. split; [exact printed1|]. split; [exact funded_last|]. split; [exact funded_first1|]. split; [reflexivity|]. split; vm_compute; reflexivity.
Qed.
