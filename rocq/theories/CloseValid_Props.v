(** Properties C172 and C173: closing transactions are valid, and the owners of the sealed outputs, and only they, can make them. *)
From Verif Require Import Base Sha256 Ripemd160 Serialize_Model Serialize_Spec Tx_Model Tx_Spec Tx_Proofs Proof_Model Proof_Spec Block_Model Block_Spec Script_Model
  SigHash_Model SigHash_Spec ScriptEval_Model ScriptEval_Spec ScriptVerify_Spec Base58_Model Base58_Spec Key_Model Key_Spec KeyUse_Proofs Key_Examples
  Hex_Model Chain_Model Chain_Spec Chain_Proofs ChainPipe_Proofs Chain_Examples Chain_Props Fund_Spec Fund_Proofs Fund_Props CloseValid_Spec CloseValid_Proofs.
From Coq Require Import ZifyBool ZifyNat ZifyN.
Local Open Scope string_scope.
Local Open Scope list_scope.
Local Open Scope Z_scope.

(** ** C172: the transaction that mkclosetx prints is valid *)

(** Two seals of one output, that differ in the nonce. *)
Definition nonce2 := repeat x01 16.
Definition seal_file3 := match ser_proof ledger (Seal chain1 outpoint1 nonce2) with Ok f => f | _ => [] end.
Definition ons2 := [(outpoint1, nonce1); (outpoint1, nonce2)].
Definition template2 := close_tx [outpoint1; outpoint1] [out_p2pkh].
Lemma seal_files2 : seal_files ledger chain1 [seal_file1; seal_file3] ons2.
Proof. constructor; [vm_compute; reflexivity|constructor; [vm_compute; reflexivity|constructor]]. Qed.
Lemma printed2 : printed ledger chain1 digest1 [seal_file1; seal_file3] "p2pkh" template2.
Proof. exists (match tx_ser template2 with Ok b => b | _ => [] end). split; vm_compute; reflexivity. Qed.

(** The claim is false: two different seals may be on the same output, and the tool then prints a
    transaction that spends it twice. *)
Theorem C172_closing_valid_refuted : ~ closing_is_valid.
Proof.
  intros H. assert (K : CheckTransaction template2 = Ok tt).
  { apply (H ledger chain1 digest1 [seal_file1; seal_file3] ons2 "p2pkh" template2 ledger_chain ledger_wf ledger_variants seal_files2); [discriminate|cbn; lia|reflexivity|unfold method; auto| | |exact printed2].
    - constructor; [intros [B|[]]; discriminate B|constructor; [intros []|constructor]].
    - repeat constructor; intros (B & _); discriminate B. }
  vm_compute in K. discriminate K.
Qed.
Print Assumptions C172_closing_valid_refuted.

(** What is true: it is valid exactly if there is a seal, the seals are on different outputs, none
    of them on the outpoint that stands for no output, and the transaction has room for them. *)
Theorem C172_closing_valid_partial : forall ct P digest files ons meth t, is_chain ct P -> wf_table ct -> variant_table ct ->
  seal_files ct P files ons -> List.length digest = 32%nat -> method meth -> Z.of_nat (List.length files) < 2 ^ 64 -> printed ct P digest files meth t ->
  (CheckTransaction t = Ok tt <-> files <> [] /\ NoDup (map fst ons) /\ Forall (fun on => ~ null_outpoint (fst on)) ons /\ Z.of_nat (List.length files) <= most_seals meth).
Proof. exact closing_exact. Qed.
Print Assumptions C172_closing_valid_partial.

Example C172_instance : seal_files ledger chain1 [seal_file1; seal_file2] ons1 /\ printed ledger chain1 digest1 [seal_file1; seal_file2] "p2pkh" template1 /\
  CheckTransaction template1 = Ok tt /\ CheckTransaction template2 = Err CheckTransactionError /\
  (exists t, printed ledger chain1 digest1 [] "op_return" t /\ CheckTransaction t = Err CheckTransactionError).
Proof.
  split; [exact seal_files1|]. split; [exact printed1|]. split; [vm_compute; reflexivity|]. split; [vm_compute; reflexivity|].
  exists (close_tx [] [out_return]). split; [|vm_compute; reflexivity]. exists (match tx_ser (close_tx [] [out_return]) with Ok b => b | _ => [] end). split; vm_compute; reflexivity.
Qed.

(** ** C173: the owners of the sealed outputs can close the seals, and nobody else *)

(** A wallet adds what it likes behind the first output and to the inputs, the owner of every output
    spent signs, and the result is accepted: by the scripts of all those outputs, and by mkwitness and
    verifywitness as a closing of the seals with the digest. *)
Theorem C173_owners_close : forall G L, library G L -> forall pr, network pr -> forall ct P paid digest files ons meth t t' t'',
  is_chain ct P -> wf_table ct -> variant_table ct -> seal_files ct P files ons -> List.length digest = 32%nat -> method meth ->
  Z.of_nat (List.length files) < 2 ^ 64 -> printed ct P digest files meth t -> funded t t' -> hd_error (t_vout t') = hd_error (t_vout t) ->
  signed_by_owners G L pr paid t' t'' ->
  (forall i x flags, nth_error (t_vin t'') i = Some x -> VerifyScript (script_ecdsa L) (i_scriptSig x) (paid (i_prevout x)) t'' (Z.of_nat i) flags = Ok tt) /\
  exists raw, tx_ser t'' = Ok raw /\ witnessed ct P raw files digest.
Proof. exact owners_close. Qed.
Print Assumptions C173_owners_close.

(** A witness that is accepted holds an input that spends the sealed output.  If that input passes
    the script of the output, and that is of the usual kind for an address, then it holds a key of
    that address and a signature by this key of this very transaction. *)
Theorem C173_only_owners : forall ct P w, is_chain ct P -> object ct (p_bwit P) w -> outcome ct btc_verify w = Ok tt ->
  exists o n i t j t' x, w = Witness P (Seal P o n) (TxInProof P i (TxProof P t)) (TxOutProof P j (TxProof P t')) /\ input t i x /\ i_prevout x = o /\
  forall ecdsa h flags, List.length h = 20%nat -> VerifyScript ecdsa (i_scriptSig x) (p2pkh_script h) t i flags = Ok tt ->
  exists pk sig s, Hash160 pk = h /\ p2pkh_signed h sig s /\ signed_by ecdsa t (Z.to_nat i) s pk sig.
Proof. exact only_owners. Qed.
Print Assumptions C173_only_owners.

(** The owner of one toy key signs three inputs. *)
Definition own_script := p2pkh_script (Hash160 (toy_text true xbb)).
Definition own_sig (i : nat) : bytes := match SignatureHash own_script change_last (Z.of_nat i) 1 with Ok h => toy_sig xbb h | Err _ => [] end.
Definition own_input (i : nat) : bytes := short_push (own_sig i ++ [x01]) ++ short_push (toy_text true xbb).
Definition signed_last := mkTx [mkTxIn (i_prevout paying) (own_input 0) 7; mkTxIn outpoint2 (own_input 1) 1; mkTxIn outpoint1 (own_input 2) 2] [out_p2pkh; change] 500000 2.
Lemma own_signs i : (i < 3)%nat -> owner_signs toy_curve toy_ssl mainnet change_last i own_script (own_input i).
Proof.
  intros Hi. assert (Pt : point_of toy_curve toy_key = Some xbb) by (cbn [point_of toy_curve]; vm_compute; reflexivity).
  assert (Lk : List.length toy_key = 32%nat) by (vm_compute; reflexivity). assert (Nt : network mainnet) by (left; reflexivity).
  destruct (key_made toy_curve toy_ssl toy_library [] toy_key xbb true Lk Pt) as (k & Ek & Hg). destruct (key_address toy_curve toy_ssl toy_library mainnet toy_key xbb true k Nt Hg) as (Ea & Es).
  assert (Eh : exists h, SignatureHash own_script change_last (Z.of_nat i) 1 = Ok h /\ List.length h = 32%nat).
  { destruct i as [|[|[|i]]]; [..|lia]; (eexists; split; [vm_compute; reflexivity|vm_compute; reflexivity]). }
  destruct Eh as (h & Eh & Lh). destruct Hg as (Ep & _ & Hs & _). cbn [point_text toy_curve] in Ea, Es, Ep.
  assert (Sg : sign toy_ssl k h 0 = Ok (toy_sig xbb h)).
  { unfold sign, blen. rewrite Lh. cbn [ec_sign toy_ssl]. cbn [held_secret toy_library] in Hs. rewrite Hs. cbn [point_of toy_curve] in Pt. rewrite Pt. reflexivity. }
  assert (Lg : List.length (toy_sig xbb h) = 32%nat) by apply sha256_length.
  exists [], toy_key, xbb, true, k. eexists. exists 0%N, h, (toy_sig xbb h). rewrite Ep. unfold own_input, own_sig. rewrite Eh.
  split; [exact Lk|]. split; [exact Pt|]. split; [exact Ek|]. split; [exact Ea|]. split; [exact Es|]. split; [reflexivity|]. split; [exact Sg|].
  split. { intros B. apply (f_equal (@List.length _)) in B. rewrite app_length, Lg, Hash160_length in B. cbn [List.length] in B. lia. }
  apply two_pushes; [unfold blen; rewrite app_length, Lg; cbn [List.length]; lia|vm_compute; discriminate].
Qed.
Example C173_instance : signed_by_owners toy_curve toy_ssl mainnet (fun _ => own_script) change_last signed_last /\
  VerifyScript (script_ecdsa toy_ssl) (own_input 2) own_script signed_last 2 [] = Ok tt /\
  VerifyScript (script_ecdsa toy_ssl) (own_input 1) own_script signed_last 2 [] = Err VerifyScriptError.
Proof.
  split; [|split; vm_compute; reflexivity]. split; [repeat split; reflexivity|]. intros i x Hx.
  unfold signed_last in Hx. cbn [t_vin] in Hx.
  destruct i as [|[|[|i]]]; cbn [nth_error] in Hx; [| | |destruct i; discriminate Hx]; inversion Hx as [E]; cbn [i_scriptSig i_prevout]; apply own_signs; lia.
Qed.
