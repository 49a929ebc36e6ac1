(** Properties of signature hashes (C73-C75). *)
From Verif Require Import Base Sha256 Tx_Model Tx_Spec Script_Model Block_Spec Base58_Props SigHash_Model SigHash_Spec SigHash_Proofs.
Local Open Scope string_scope. Local Open Scope list_scope. Local Open Scope Z_scope.

(** ** C73: FindAndDelete removes exactly the operations that are spelled like the pattern *)

Theorem C73_deletes_exactly : forall p s chunks, one_op p -> splits chunks s ->
  FindAndDelete s p = Ok (concat (without p chunks)) /\ splits (without p chunks) (concat (without p chunks)).
Proof. intros p s chunks P S. exact (conj (FindAndDelete_splits p s chunks P S) (splits_without p s chunks S)). Qed.
Print Assumptions C73_deletes_exactly.

(** A script is split into operations in one way only. *)
Theorem C73_operations_unique : forall a b s, splits a s -> splits b s -> a = b.
Proof. exact splits_unique. Qed.
Print Assumptions C73_operations_unique.

(** A script that cannot be split is refused. *)
Theorem C73_unsplittable : forall p s, ~ (exists chunks, splits chunks s) ->
  FindAndDelete s p = Err CScriptInvalidError \/ FindAndDelete s p = Err CScriptTruncatedPushDataError.
Proof. exact FindAndDelete_err. Qed.
Print Assumptions C73_unsplittable.

(** The bytes of the pattern inside a push stay. *)
Example C73_instance : one_op [xab] /\ splits [[x51]; [xab]; [x02; xab; xab]; [xab]; [xac]] [x51; xab; x02; xab; xab; xab; xac] /\
  FindAndDelete [x51; xab; x02; xab; xab; xab; xac] [xab] = Ok [x51; x02; xab; xab; xac] /\
  ~ (exists chunks, splits chunks [x05; x01]).
Proof.
  assert (O : forall c, (match raw_iter c with ([_], None) => true | _ => false end) = true -> one_op c).
  { intros c H. unfold one_op. destruct (raw_iter c) as [[|[[op d] k] [|]] [|]]; try discriminate. eauto. }
  split; [apply O; reflexivity|]. split; [|split; [reflexivity|rewrite splits_iff; discriminate]].
  split; [|reflexivity]. repeat (constructor; [apply O; reflexivity|]). constructor.
Qed.

(** ** C74: the signature hash is the hash of the message that holds what the type covers *)

Theorem C74_hash_of_message : forall s t i ht d, wf_tx t -> 0 <= ht < 2 ^ 32 ->
  SignatureHash s t (Z.of_nat i) ht = Ok d <-> exists m, signs s t i ht m /\ d = Hash m.
Proof. intros s t i ht d. exact (SignatureHash_iff s t i ht d). Qed.
Print Assumptions C74_hash_of_message.

(** There is exactly one such message, for every input, unless the script cannot be split into
    operations or the type is SINGLE and there is no output to go with the input. *)
Theorem C74_message_exists : forall s t i ht, wf_tx t -> wf_script s -> (exists chunks, splits chunks s) ->
  (i < List.length (t_vin t))%nat -> (base ht = 3 -> (i < List.length (t_vout t))%nat) -> exists m, signs s t i ht m.
Proof. exact signs_total. Qed.
Print Assumptions C74_message_exists.

Theorem C74_message_unique : forall s t i ht m1 m2, signs s t i ht m1 -> signs s t i ht m2 -> m1 = m2.
Proof. exact signs_unique. Qed.
Print Assumptions C74_message_unique.

(** The consensus variant answers with the number one instead of refusing. *)
Theorem C74_raw_bad_index : forall s t i ht, (List.length (t_vin t) <= i)%nat ->
  RawSignatureHash s t (Z.of_nat i) ht = Ok (x01 :: repeat x00 31, true).
Proof. exact Raw_bad_index. Qed.
Print Assumptions C74_raw_bad_index.

Theorem C74_raw_single_bug : forall s t i ht, wf_tx t -> (exists chunks, splits chunks s) -> base ht = 3 ->
  (List.length (t_vout t) <= i)%nat -> RawSignatureHash s t (Z.of_nat i) ht = Ok (x01 :: repeat x00 31, true).
Proof. exact Raw_single_bug. Qed.
Print Assumptions C74_raw_single_bug.

(** Three inputs and two outputs. *)
Definition three_two : tx :=
  mkTx [mkTxIn (mkOutPoint (repeat x11 32) 0) [x51] 5; mkTxIn (mkOutPoint (repeat x22 32) 3) [x52; x53] 0xffffffff; mkTxIn (mkOutPoint (repeat x33 32) 1) [] 7]
       [mkTxOut 1000 [x51]; mkTxOut 2000 [x6a]] 9 2.

Lemma three_two_wf : wf_tx three_two.
Proof.
  unfold wf_tx, three_two. cbn [t_vin t_vout t_nLockTime t_nVersion].
  split; [repeat apply Forall_cons; try apply Forall_nil|split; [repeat apply Forall_cons; try apply Forall_nil|]];
    unfold wf_txin, wf_outpoint, wf_txout, wf_script, MAX_SIZE; cbn; lia.
Qed.

(** The digests are those of an independent implementation. *)
Example C74_instance : wf_tx three_two /\
  SignatureHash (hex "51ab02abab76ac") three_two 1 1 = Ok (hex "9c9a7ebb92d1896fa01eef8c78b6a0e485294b8f0cbbb4830a04cc0a324fdfc7") /\
  SignatureHash (hex "51ab02abab76ac") three_two 1 2 = Ok (hex "45fb84b9aba489c87d5c5a0a047de8f255f6dda8151b0b5738f3a2b8120507a8") /\
  SignatureHash (hex "51ab02abab76ac") three_two 1 3 = Ok (hex "10e0ce80acbc987cb3a4547aec1756dd120aa7c151ccfb7f7d401aa0b57fc42e") /\
  SignatureHash (hex "51ab02abab76ac") three_two 2 0x81 = Ok (hex "32a90a8a0bea68cb107ceef40f22c5ff30ad888d330e8b523a61596cd7a27a9a") /\
  SignatureHash (hex "51ab02abab76ac") three_two 1 0x83 = Ok (hex "8f0495e51b494fff37da835b33e4c41d4e387f854fa7091d60b52dc5d16d67d6") /\
  RawSignatureHash (hex "51ab02abab76ac") three_two 2 3 = Ok (x01 :: repeat x00 31, true) /\
  SignatureHash (hex "51ab02abab76ac") three_two 2 3 = Err ValueError.
Proof. split; [exact three_two_wf|]. repeat split; vm_compute; reflexivity. Qed.

(** ** C75: the signature hash depends on all that is covered, and on nothing else *)

Theorem C75_commits : forall s1 t1 i1 ht1 s2 t2 i2 ht2 c1 c2 d, wf_tx t1 -> wf_tx t2 -> wf_script s1 -> wf_script s2 ->
  0 <= ht1 < 2 ^ 32 -> 0 <= ht2 < 2 ^ 32 -> scriptcode s1 c1 -> scriptcode s2 c2 -> c1 <> [] ->
  SignatureHash s1 t1 (Z.of_nat i1) ht1 = Ok d -> SignatureHash s2 t2 (Z.of_nat i2) ht2 = Ok d ->
  (ht1 = ht2 /\ c1 = c2 /\ same_covered ht1 t1 i1 t2 i2) \/
  (exists m1 m2, signs s1 t1 i1 ht1 m1 /\ signs s2 t2 i2 ht2 m2 /\ collide m1 m2).
Proof. exact SignatureHash_binds. Qed.
Print Assumptions C75_commits.

Theorem C75_rest_is_free : forall s1 s2 c t1 i1 t2 i2 ht, wf_tx t1 -> wf_tx t2 -> scriptcode s1 c -> scriptcode s2 c ->
  same_covered ht t1 i1 t2 i2 ->
  RawSignatureHash s1 t1 (Z.of_nat i1) ht = RawSignatureHash s2 t2 (Z.of_nat i2) ht.
Proof. exact covered_same. Qed.
Print Assumptions C75_rest_is_free.

(** The script must not be empty: an empty one does not tell which input is signed. *)
Example C75_empty_script : wf_tx three_two /\
  SignatureHash [xab] three_two 0 1 = SignatureHash [] three_two 2 1 /\
  exists d, SignatureHash [] three_two 2 1 = Ok d.
Proof. split; [exact three_two_wf|]. split; [vm_compute; reflexivity|]. eexists. vm_compute. reflexivity. Qed.

(** Other signatures, and with NONE|ANYONECANPAY other inputs and outputs, do not matter. *)
Definition other_two : tx :=
  mkTx [mkTxIn (mkOutPoint (repeat x22 32) 3) [] 0xffffffff; mkTxIn (mkOutPoint (repeat x44 32) 3) [x51] 0] [mkTxOut 7 []] 9 2.
Example C75_instance : scriptcode (hex "51ab") [x51] /\ [x51] <> [] /\ same_covered 0x82 three_two 1 other_two 0 /\
  ~ same_covered 0x81 three_two 1 other_two 0 /\
  SignatureHash (hex "51ab") three_two 1 0x82 = SignatureHash [x51] other_two 0 0x82 /\
  SignatureHash (hex "51ab") three_two 1 0x81 <> SignatureHash [x51] other_two 0 0x81.
Proof.
  split; [apply scriptcode_iff; reflexivity|]. split; [discriminate|].
  split; [|split; [|split]].
  - split; [reflexivity|]. split; [reflexivity|]. split; [do 2 eexists; repeat split; reflexivity|].
    split; [discriminate|]. split; [discriminate|]. split; [discriminate|]. discriminate.
  - intros (_ & _ & _ & _ & _ & _ & H). specialize (H eq_refl). discriminate.
  - vm_compute. reflexivity.
  - intros H. vm_compute in H. discriminate.
Qed.
