(** Properties of the script evaluator (C80 to C91).  ECDSA is any function from key, digest and
    signature to a boolean. *)
From Verif Require Import Base Sha256 Ripemd160 Tx_Model Tx_Spec Script_Model SigHash_Model SigHash_Spec SigHash_Props Base58_Spec
  SigHash_Proofs ScriptEval_Model ScriptEval_Spec ScriptRun_Proofs ScriptVerify_Spec ScriptVerify_Proofs ScriptErr_Proofs ScriptUse_Proofs.
Local Open Scope string_scope. Local Open Scope list_scope. Local Open Scope Z_scope.

(** A toy signature scheme for the examples. *)
Definition toy_sign (pk digest : bytes) : bytes := firstn 6 (sha256 (pk ++ digest)).
Definition toy (pk digest sig : bytes) : bool := bytes_eqb sig (toy_sign pk digest).
(** A signature of type ALL of input [i] of [three_two] with script [s]. *)
Definition toy_all (pk s : bytes) (i : Z) : bytes :=
  match SignatureHash s three_two i 1 with Ok d => toy_sign pk d ++ [x01] | Err _ => [] end.

(** ** C80: what a script does *)

Theorem C80_evaluation : forall ecdsa t i st s st', wf_tx t -> (i < List.length (t_vin t))%nat ->
  Forall (fun a => (blen a < 2 ^ 32)%N) st -> Z.of_nat (List.length st) < 2 ^ 31 ->
  EvalScript ecdsa st s t (Z.of_nat i) = Ok st' <-> evaluates ecdsa t i st s st'.
Proof. exact evaluates_any. Qed.
Print Assumptions C80_evaluation.

(** 2 3 ADD 5 EQUAL IF "ab" ELSE RETURN ENDIF SIZE DEPTH, on the stack "z" (script and stack as an
    independent reading of the language has them), and some that fail. *)
Example C80_instance : wf_tx three_two /\ (1 < List.length (t_vin three_two))%nat /\
  EvalScript toy [[x7a]] (hex "525393558763026162676a688274") three_two 1 = Ok [[x03]; [x02]; [x61; x62]; [x7a]] /\
  EvalScript toy [] (hex "51630068516752") three_two 1 = Err EvalScriptError /\
  EvalScript toy [] (hex "5163517e68") three_two 1 = Err EvalScriptError /\
  EvalScript toy [] (hex "00637e68") three_two 1 = Err EvalScriptError /\
  EvalScript toy [] (hex "006375756869") three_two 1 = Err MissingOpArgumentsError /\
  EvalScript toy [hex "0000000080"] (hex "8b") three_two 1 = Err EvalScriptError /\
  EvalScript toy [hex "ffffff7f"] (hex "8b") three_two 1 = Ok [hex "0000008000"] /\
  EvalScript toy [[x03]; [x02]; [x01]; []] (hex "527a7b") three_two 1 = Ok [[x02]; [x01]; [x03]; []].
Proof. split; [exact three_two_wf|]. split; [cbn; lia|]. repeat split; vm_compute; reflexivity. Qed.

(** ** C81: multisignature outputs *)

(** [m] of the keys, with the signatures in the order of the keys. *)
Theorem C81_multisig : forall ecdsa t i, wf_tx t -> (i < List.length (t_vin t))%nat ->
  forall m keys sigs flags, (1 <= m <= List.length keys)%nat -> (List.length keys <= 16)%nat -> Forall (fun k => (blen k <= 75)%N) keys ->
  Forall (fun k => (blen k <= 75)%N) sigs -> List.length sigs = m ->
  VerifyScript ecdsa (x00 :: concat (map short_push sigs)) (multisig_script m (List.length keys) keys) t (Z.of_nat i) flags = Ok tt <->
  exists covered, keys_signed sigs keys covered /\ quorum ecdsa t i (multisig_script m (List.length keys) covered) sigs keys.
Proof. exact Verify_multisig. Qed.
Print Assumptions C81_multisig.

(** The same with any scriptSig: there must be one more string below the signatures, whatever it is. *)
Theorem C81_multisig_any : forall ecdsa t i, wf_tx t -> (i < List.length (t_vin t))%nat ->
  forall m keys ss flags, (1 <= m <= List.length keys)%nat -> (List.length keys <= 16)%nat -> Forall (fun k => (blen k <= 75)%N) keys ->
  VerifyScript ecdsa ss (multisig_script m (List.length keys) keys) t (Z.of_nat i) flags = Ok tt <->
  exists sigs extra r covered, evaluates ecdsa t i [] ss (rev sigs ++ extra :: r) /\ List.length sigs = m /\ (m + List.length r + List.length keys <= 997)%nat /\
    keys_signed sigs keys covered /\ quorum ecdsa t i (multisig_script m (List.length keys) covered) sigs keys.
Proof. exact Verify_multisig_any. Qed.
Print Assumptions C81_multisig_any.

Theorem C81_multisig_p2sh : forall ecdsa t i, wf_tx t -> (i < List.length (t_vin t))%nat ->
  forall m keys sigs h p flags, (1 <= m <= List.length keys)%nat -> (List.length keys <= 16)%nat -> Forall (fun k => (blen k <= 75)%N) keys ->
  Forall (fun k => (blen k <= 75)%N) sigs -> List.length sigs = m -> List.length h = 20%nat -> In EvalP2SH flags ->
  (blen (multisig_script m (List.length keys) keys) <= 520)%N -> shortest_push (multisig_script m (List.length keys) keys) p ->
  VerifyScript ecdsa (x00 :: concat (map short_push sigs) ++ p) (p2sh_script h) t (Z.of_nat i) flags = Ok tt <->
  ripemd160 (sha256 (multisig_script m (List.length keys) keys)) = h /\
  exists covered, keys_signed sigs keys covered /\ quorum ecdsa t i (multisig_script m (List.length keys) covered) sigs keys.
Proof. exact Verify_p2sh_multisig. Qed.
Print Assumptions C81_multisig_p2sh.

(** Two of three: the order of the signatures matters, and no signature counts twice. *)
Definition three_keys : list bytes := [hex "02aaaa"; hex "03bbbb"; hex "02cccc"].
Definition two_of_three : bytes := multisig_script 2 3 three_keys.
Definition key_sig (k : nat) : bytes := toy_all (nth k three_keys []) two_of_three 1.
Example C81_instance : two_of_three = hex "520302aaaa0303bbbb0302cccc53ae" /\
  Forall (fun k => (blen k <= 75)%N) three_keys /\ Forall (fun k => (blen k <= 75)%N) (map key_sig [0; 2]%nat) /\
  VerifyScript toy (x00 :: concat (map short_push (map key_sig [0; 2]%nat))) two_of_three three_two 1 [] = Ok tt /\
  VerifyScript toy (x00 :: concat (map short_push (map key_sig [1; 2]%nat))) two_of_three three_two 1 [] = Ok tt /\
  VerifyScript toy (x00 :: concat (map short_push (map key_sig [2; 0]%nat))) two_of_three three_two 1 [] = Err VerifyScriptError /\
  VerifyScript toy (x00 :: concat (map short_push (map key_sig [0; 0]%nat))) two_of_three three_two 1 [] = Err VerifyScriptError /\
  VerifyScript toy (concat (map short_push (map key_sig [0; 2]%nat))) two_of_three three_two 1 [] = Err ArgumentsInvalidError /\
  VerifyScript toy (x00 :: concat (map short_push (map key_sig [0; 2]%nat)) ++ short_push two_of_three)
    (p2sh_script (ripemd160 (sha256 two_of_three))) three_two 1 [EvalP2SH] = Ok tt.
Proof. split; [vm_compute; reflexivity|]. split; [repeat constructor; vm_compute; discriminate|]. split; [repeat constructor; vm_compute; discriminate|]. repeat split; vm_compute; reflexivity. Qed.

(** ** C82: the exceptions of a failing script *)

Theorem C82_EvalScript : forall ecdsa t i st s e, wf_tx t -> Forall (fun a => (blen a <= 520)%N) st -> Z.of_nat (List.length st) < 2 ^ 31 ->
  EvalScript ecdsa st s t (Z.of_nat i) = Err e ->
  In e [EvalScriptError; MaxOpCountError; MissingOpArgumentsError; ArgumentsInvalidError; VerifyOpFailedError].
Proof. intros ecdsa t i st s e W F L. apply (EvalScript_both ecdsa t i W st s F L). Qed.
Print Assumptions C82_EvalScript.

Theorem C82_VerifyScript : forall ecdsa t i ss sc flags e, wf_tx t -> VerifyScript ecdsa ss sc t (Z.of_nat i) flags = Err e ->
  In e [EvalScriptError; MaxOpCountError; MissingOpArgumentsError; ArgumentsInvalidError; VerifyOpFailedError; VerifyScriptError].
Proof.
  intros ecdsa t i ss sc flags e W H. apply VerifyScript_fine in H; [|exact W]. unfold eval_error in H. cbn [In] in *. intuition.
Qed.
Print Assumptions C82_VerifyScript.

Theorem C82_VerifySignature : forall ecdsa from t i e, wf_tx from -> wf_tx t -> VerifySignature ecdsa from t i = Err e ->
  In e [EvalScriptError; MaxOpCountError; MissingOpArgumentsError; ArgumentsInvalidError; VerifyOpFailedError; VerifyScriptError; VerifySignatureError].
Proof.
  intros ecdsa from t i e WF W H. apply VerifySignature_fine in H; [|assumption..]. unfold eval_error in H. cbn [In] in *. intuition.
Qed.
Print Assumptions C82_VerifySignature.

(** Each of them occurs. *)
Example C82_instance : wf_tx three_two /\
  VerifyScript toy [] (hex "4c") three_two 1 [] = Err EvalScriptError /\
  VerifyScript toy [] (repeat x61 202) three_two 1 [] = Err MaxOpCountError /\
  VerifyScript toy [] (hex "76") three_two 1 [] = Err MissingOpArgumentsError /\
  VerifyScript toy [] (hex "0115ae") three_two 1 [] = Err ArgumentsInvalidError /\
  VerifyScript toy [] (hex "515288") three_two 1 [] = Err VerifyOpFailedError /\
  VerifyScript toy [] (hex "00") three_two 1 [] = Err VerifyScriptError /\
  VerifySignature toy three_two three_two 0 = Err VerifySignatureError /\
  VerifySignature toy three_two three_two (-1) = Err VerifySignatureError.
Proof. split; [exact three_two_wf|]. repeat split; vm_compute; reflexivity. Qed.

(** ** C83: at most 1000 strings on the stacks *)

(** The full claim: no script leaves more than 1000 strings.  It is false: a push that is executed is
    not checked. *)
Theorem C83_stack_refuted : exists s st', EvalScript toy [] s three_two 1 = Ok st' /\ (1000 < List.length st')%nat.
Proof. exists (repeat x00 1001), (repeat [] 1001). split; [vm_compute; reflexivity|]. rewrite repeat_length. lia. Qed.
Print Assumptions C83_stack_refuted.

(** What holds: it is true of every script that ends in an operation other than a push (missing: pushes at the end). *)
Theorem C83_stack_partial : forall ecdsa t i st s st' ops o, wf_tx t -> (i < List.length (t_vin t))%nat ->
  Forall (fun a => (blen a < 2 ^ 32)%N) st -> Z.of_nat (List.length st) < 2 ^ 31 ->
  EvalScript ecdsa st s t (Z.of_nat i) = Ok st' -> reads_as s (ops ++ [o]) -> op_data o = None ->
  Z.of_nat (List.length st') <= 1000.
Proof. intros ecdsa t i st s st' ops o W I F L E. apply evaluates_any in E; [|assumption..]. eapply evaluates_last, E. Qed.
Print Assumptions C83_stack_partial.

Example C83_instance : EvalScript toy [] (repeat x00 1000 ++ [x61]) three_two 1 = Ok (repeat [] 1000) /\
  EvalScript toy [] (repeat x00 1001 ++ [x61]) three_two 1 = Err EvalScriptError /\
  EvalScript toy [] (repeat x51 1000) three_two 1 = Ok (repeat [x01] 1000) /\
  EvalScript toy [] (repeat x51 1001) three_two 1 = Err EvalScriptError.
Proof. repeat split; vm_compute; reflexivity. Qed.

(** ** C84: the other limits, and what makes a script fail wherever it is *)

Theorem C84_limits : forall ecdsa t i st s st' ops, wf_tx t -> (i < List.length (t_vin t))%nat ->
  Forall (fun a => (blen a <= 520)%N) st -> Z.of_nat (List.length st) < 2 ^ 31 ->
  EvalScript ecdsa st s t (Z.of_nat i) = Ok st' -> reads_as s ops ->
  (blen s <= 10000)%N /\ counted ops <= 201 /\ harmless ops /\ nested 0 ops /\ Forall (fun a => (blen a <= 520)%N) st'.
Proof.
  intros ecdsa t i st s st' ops W I F L E RA. apply evaluates_any in E; [|assumption..|eapply Forall_impl; [|exact F]; cbv beta; lia|exact L].
  pose proof (evaluates_limits _ _ _ 520 _ _ _ _ ltac:(lia) F L E RA) as (A & B & C & D). repeat (split; [assumption|]).
  split; [eapply evaluates_nested; eassumption|exact D].
Qed.
Print Assumptions C84_limits.

Example C84_instance : EvalScript toy [] (repeat x61 201) three_two 1 = Ok [] /\
  EvalScript toy [] (repeat x61 202) three_two 1 = Err MaxOpCountError /\
  EvalScript toy [] (hex "0063" ++ repeat x61 200 ++ [x68]) three_two 1 = Err MaxOpCountError /\
  EvalScript toy [] (hex "4d0802" ++ repeat x77 520 ++ [x75]) three_two 1 = Ok [] /\
  EvalScript toy [] (hex "4d0902" ++ repeat x77 521 ++ [x75]) three_two 1 = Err EvalScriptError /\
  EvalScript toy [] (hex "00634d0902" ++ repeat x77 521 ++ [x68]) three_two 1 = Err EvalScriptError.
Proof. repeat split; vm_compute; reflexivity. Qed.

(** ** C85: what is called unspendable cannot be spent *)

Theorem C85_unspendable : forall ecdsa t i ss sc flags, wf_tx t -> is_unspendable sc = true ->
  exists e, VerifyScript ecdsa ss sc t (Z.of_nat i) flags = Err e /\
    In e [EvalScriptError; MaxOpCountError; MissingOpArgumentsError; ArgumentsInvalidError; VerifyOpFailedError].
Proof. intros ecdsa t i ss sc flags W. apply unspendable_fails, W. Qed.
Print Assumptions C85_unspendable.

Example C85_instance : is_unspendable (hex "6a026869") = true /\ is_unspendable (hex "516a") = false /\
  VerifyScript toy [x51] (hex "6a026869") three_two 1 [] = Err EvalScriptError.
Proof. repeat split; vm_compute; reflexivity. Qed.

(** ** C86: what VerifyScript accepts *)

Theorem C86_VerifyScript : forall ecdsa t i, wf_tx t -> (i < List.length (t_vin t))%nat -> forall ss sc flags,
  VerifyScript ecdsa ss sc t (Z.of_nat i) flags = Ok tt <->
  unlocks ecdsa t i ss sc /\ (In EvalP2SH flags -> redeems ecdsa t i ss sc).
Proof. exact VerifyScript_iff. Qed.
Print Assumptions C86_VerifyScript.

(** The full claim includes the flag SCRIPT_VERIFY_P2SH of bitcoin.core.script.  It is false: that is
    another object, and it is ignored.  Here the redeem script is RETURN. *)
Definition anyone_hash : bytes := ripemd160 (sha256 [x6a]).
Lemma no_redeem t i ss : wf_tx t -> (i < List.length (t_vin t))%nat -> ss = hex "016a" -> ~ redeems toy t i ss (p2sh_script anyone_hash).
Proof.
  intros W I -> R. destruct (R anyone_hash (ripemd160_length _) eq_refl) as (_ & inner & rest & st & E & E' & _).
  assert (X : EvalScript toy [] (hex "016a") t (Z.of_nat i) = Ok [[x6a]]) by reflexivity.
  apply evaluates_any in X; [|assumption|assumption|constructor|cbn; lia].
  pose proof (evaluates_fun0 toy t i W I _ _ _ E X) as Y. injection Y as -> ->.
  apply evaluates_any in E'; [|assumption|assumption|constructor|cbn; lia]. discriminate E'.
Qed.

Theorem C86_other_flag_refuted : exists t i ss sc, wf_tx t /\ (i < List.length (t_vin t))%nat /\
  VerifyScript toy ss sc t (Z.of_nat i) [ScriptP2SH] = Ok tt /\ ~ redeems toy t i ss sc.
Proof.
  exists three_two, 1%nat, (hex "016a"), (p2sh_script anyone_hash). split; [exact three_two_wf|]. split; [cbn; lia|].
  split; [vm_compute; reflexivity|]. apply no_redeem; [exact three_two_wf|cbn; lia|reflexivity].
Qed.
Print Assumptions C86_other_flag_refuted.

Example C86_instance : VerifyScript toy (hex "016a") (p2sh_script anyone_hash) three_two 1 [] = Ok tt /\
  VerifyScript toy (hex "016a") (p2sh_script anyone_hash) three_two 1 [EvalP2SH] = Err EvalScriptError /\
  VerifyScript toy (hex "0151") (p2sh_script (ripemd160 (sha256 [x51]))) three_two 1 [EvalP2SH] = Ok tt /\
  VerifyScript toy (hex "610151") (p2sh_script (ripemd160 (sha256 [x51]))) three_two 1 [EvalP2SH] = Err VerifyScriptError /\
  VerifyScript toy (hex "0151") (p2sh_script (ripemd160 (sha256 [x52]))) three_two 1 [EvalP2SH] = Err VerifyScriptError.
Proof. repeat split; vm_compute; reflexivity. Qed.

(** ** C87: outputs that pay to a key hash *)

Theorem C87_p2pkh : forall ecdsa t i, wf_tx t -> (i < List.length (t_vin t))%nat ->
  forall h sig pk flags, List.length h = 20%nat -> (blen sig <= 75)%N -> (blen pk <= 75)%N ->
  VerifyScript ecdsa (short_push sig ++ short_push pk) (p2pkh_script h) t (Z.of_nat i) flags = Ok tt <->
  ripemd160 (sha256 pk) = h /\ exists s, p2pkh_signed h sig s /\ signed_by ecdsa t i s pk sig.
Proof. exact Verify_p2pkh. Qed.
Print Assumptions C87_p2pkh.

Theorem C87_p2pkh_any : forall ecdsa t i, wf_tx t -> (i < List.length (t_vin t))%nat -> forall h ss flags, List.length h = 20%nat ->
  VerifyScript ecdsa ss (p2pkh_script h) t (Z.of_nat i) flags = Ok tt <->
  exists pk sig r s, evaluates ecdsa t i [] ss (pk :: sig :: r) /\ Z.of_nat (List.length r) <= 997 /\ ripemd160 (sha256 pk) = h /\
    p2pkh_signed h sig s /\ signed_by ecdsa t i s pk sig.
Proof. exact Verify_p2pkh_any. Qed.
Print Assumptions C87_p2pkh_any.

Definition pay_me : bytes := p2pkh_script (ripemd160 (sha256 (hex "02aaaa"))).
Example C87_instance : List.length (ripemd160 (sha256 (hex "02aaaa"))) = 20%nat /\ blen (toy_all (hex "02aaaa") pay_me 1) = 7%N /\
  VerifyScript toy (short_push (toy_all (hex "02aaaa") pay_me 1) ++ hex "0302aaaa") pay_me three_two 1 [] = Ok tt /\
  VerifyScript toy (short_push (toy_all (hex "02aaaa") pay_me 1) ++ hex "0302aaaa") pay_me three_two 2 [] = Err VerifyScriptError /\
  VerifyScript toy (short_push (toy_all (hex "02aaab") pay_me 1) ++ hex "0302aaab") pay_me three_two 1 [] = Err VerifyOpFailedError /\
  VerifyScript toy (short_push (toy_all (hex "02aaaa") [x51] 1) ++ hex "0302aaaa") pay_me three_two 1 [] = Err VerifyScriptError.
Proof. repeat split; vm_compute; reflexivity. Qed.

(** ** C88: what VerifySignature accepts *)

Theorem C88_VerifySignature_partial : forall ecdsa from t i, wf_tx t ->
  VerifySignature ecdsa from t (Z.of_nat i) = Ok tt <->
  exists ss sc, names_output t i from ss sc /\ unlocks ecdsa t i ss sc.
Proof. exact VerifySignature_iff. Qed.
Print Assumptions C88_VerifySignature_partial.

(** The full claim: the input redeems the output it names, by the rules since 2012.  It is false: no flags
    are passed on, so a pay-to-script-hash output is given to whoever knows the script, which is not run. *)
Definition paying : tx := mkTx [mkTxIn (mkOutPoint (repeat x11 32) 0) [x51] 5] [mkTxOut 1000 [x51]; mkTxOut 2000 (p2sh_script anyone_hash)] 0 1.
Definition paying_id : bytes := match tx_GetHash paying with Ok h => h | Err _ => [] end.
Definition spending : tx := mkTx [mkTxIn (mkOutPoint paying_id 1) (hex "016a") 5] [mkTxOut 1900 [x51]] 0 1.
Lemma spending_wf : wf_tx spending.
Proof.
  assert (L : List.length paying_id = 32%nat) by (vm_compute; reflexivity).
  unfold wf_tx, spending. cbn [t_vin t_vout t_nLockTime t_nVersion].
  split; [repeat apply Forall_cons; try apply Forall_nil|split; [repeat apply Forall_cons; try apply Forall_nil|]];
    unfold wf_txin, wf_outpoint, wf_txout, wf_script, MAX_SIZE; cbn [o_hash o_n i_prevout i_scriptSig i_nSequence o_nValue o_scriptPubKey]; rewrite ?L; cbn; lia.
Qed.
Theorem C88_p2sh_refuted : exists from t ss sc, wf_tx t /\ names_output t 0 from ss sc /\
  VerifySignature toy from t 0 = Ok tt /\ ~ redeems toy t 0 ss sc.
Proof.
  exists paying, spending, (hex "016a"), (p2sh_script anyone_hash). split; [exact spending_wf|]. split; [|split; [vm_compute; reflexivity|]].
  - exists (mkTxIn (mkOutPoint paying_id 1) (hex "016a") 5), (mkTxOut 2000 (p2sh_script anyone_hash)), paying_id.
    split; [reflexivity|]. split; [reflexivity|]. split; [vm_compute; reflexivity|]. split; [reflexivity|]. split; [cbn; lia|]. split; reflexivity.
  - apply no_redeem; [exact spending_wf|cbn; lia|reflexivity].
Qed.
Print Assumptions C88_p2sh_refuted.

(** Another amount, and so another id, is another transaction. *)
Example C88_instance : wf_tx spending /\
  VerifySignature toy (mkTx (t_vin paying) [mkTxOut 1001 [x51]; mkTxOut 2000 (p2sh_script anyone_hash)] 0 1) spending 0 = Err VerifySignatureError /\
  VerifySignature toy paying spending 1 = Err VerifySignatureError.
Proof. split; [exact spending_wf|]. split; vm_compute; reflexivity. Qed.

(** ** C89: conditionals *)

(** One branch is executed, as if the operations around it were not there; of the other only the limits matter. *)
Theorem C89_conditional : forall ecdsa t i o1 A o2 B o3 s a b st st', wf_tx t -> (i < List.length (t_vin t))%nat ->
  Forall (fun a => (blen a < 2 ^ 32)%N) (a :: st) -> Z.of_nat (List.length (a :: st)) < 2 ^ 31 ->
  reads_as s (o1 :: A ++ o2 :: B ++ [o3]) -> is_if o1 -> is_else o2 -> is_endif o3 -> nested 0 A -> nested 0 B ->
  (b = true <-> taken o1 a) ->
  EvalScript ecdsa (a :: st) s t (Z.of_nat i) = Ok st' <->
  (blen s <= 10000)%N /\ (List.length st <= 1000)%nat /\ harmless (if b then B else A) /\
  exists m1, passes ecdsa t i (if b then A else B) (if b then o2 :: B ++ [o3] else [o3])
      (Mach st [] [true] (o1 :: A ++ o2 :: B ++ [o3]) (if b then 1 else 2 + counted A)) m1 /\
    main m1 = st' /\ room m1 /\ spent m1 + (if b then counted B + 2 else 1) <= 201.
Proof.
  intros ecdsa t i o1 A o2 B o3 s a b st st' W I F L RA K1 K2 K3 NA NB TB. rewrite (evaluates_any ecdsa t i _ _ _ W I F L).
  apply conditional_evaluates; assumption.
Qed.
Print Assumptions C89_conditional.

(** NOTIF 2 IF 3 ENDIF ELSE 4 ENDIF *)
Example C89_instance : reads_as (hex "6452635368675468")
    (Op 0x64 None [x64] :: [Op 0x52 None [x52]; Op 0x63 None [x63]; Op 0x53 None [x53]; Op 0x68 None [x68]] ++ Op 0x67 None [x67] :: [Op 0x54 None [x54]] ++ [Op 0x68 None [x68]]) /\
  nested 0 [Op 0x52 None [x52]; Op 0x63 None [x63]; Op 0x53 None [x53]; Op 0x68 None [x68]] /\ nested 0 [Op 0x54 None [x54]] /\
  (true = true <-> taken (Op 0x64 None [x64]) [x80]) /\ (false = true <-> taken (Op 0x64 None [x64]) [x01]) /\
  EvalScript toy [[x80]; [x09]] (hex "6452635368675468") three_two 1 = Ok [[x03]; [x09]] /\
  EvalScript toy [[x01]; [x09]] (hex "6452635368675468") three_two 1 = Ok [[x04]; [x09]].
Proof.
  split; [|split; [|split; [|split; [|split; [|split]]]]]; try (vm_compute; reflexivity).
  - split; [|reflexivity]. cbn [app]. repeat apply Forall_cons; try apply Forall_nil.
    all: match goal with |- spelled (Op _ None [?x]) => apply (spelled_plain x); cbv; reflexivity end.
  - apply nested_other; [intros [_ X]; cbn in X; lia|intros [_ X]; cbn in X; lia|intros [_ X]; cbn in X; lia|].
    apply nested_if; [split; [reflexivity|left; reflexivity]|]. apply nested_other; [intros [_ X]; cbn in X; lia|intros [_ X]; cbn in X; lia|intros [_ X]; cbn in X; lia|].
    apply nested_endif; [split; reflexivity|]. constructor.
  - apply nested_other; [intros [_ X]; cbn in X; lia|intros [_ X]; cbn in X; lia|intros [_ X]; cbn in X; lia|]. constructor.
  - split; [|reflexivity]. intros _. cbn. unfold truthy. intros X. apply X. reflexivity.
  - split; [discriminate|]. cbn. intros X. exfalso. apply X. unfold truthy. cbv. discriminate.
Qed.

(** ** C90: outputs that pay to a script hash *)

Theorem C90_p2sh : forall ecdsa t i, wf_tx t -> (i < List.length (t_vin t))%nat -> forall ss h flags, List.length h = 20%nat -> In EvalP2SH flags ->
  VerifyScript ecdsa ss (p2sh_script h) t (Z.of_nat i) flags = Ok tt <->
  pushes_only ss /\ exists inner rest st, evaluates ecdsa t i [] ss (inner :: rest) /\ Z.of_nat (List.length rest) <= 999 /\
    ripemd160 (sha256 inner) = h /\ evaluates ecdsa t i rest inner st /\ accepting st.
Proof. exact Verify_p2sh. Qed.
Print Assumptions C90_p2sh.

(** The redeem script asks for a number that doubled is six. *)
Example C90_instance : List.length (ripemd160 (sha256 (hex "76935687"))) = 20%nat /\ In EvalP2SH [EvalP2SH] /\
  VerifyScript toy (hex "530476935687") (p2sh_script (ripemd160 (sha256 (hex "76935687")))) three_two 1 [EvalP2SH] = Ok tt /\
  VerifyScript toy (hex "540476935687") (p2sh_script (ripemd160 (sha256 (hex "76935687")))) three_two 1 [EvalP2SH] = Err VerifyScriptError /\
  VerifyScript toy (hex "530476935787") (p2sh_script (ripemd160 (sha256 (hex "76935687")))) three_two 1 [EvalP2SH] = Err VerifyScriptError.
Proof. split; [apply ripemd160_length|]. split; [left; reflexivity|]. repeat split; vm_compute; reflexivity. Qed.

(** ** C91: an input that does not exist *)

(** The full claim: no script is accepted for an input the transaction does not have.  It is false for
    VerifyScript: a signature of the number one by the right key is good for all of them. *)
Definition pay_key : bytes := hex "0302aaaaac".
Theorem C91_missing_input_refuted : forall ecdsa t i, ecdsa (hex "02aaaa") (x01 :: repeat x00 31) (hex "a9a5a5e42071") = true ->
  (List.length (t_vin t) <= i)%nat ->
  VerifyScript ecdsa (hex "07a9a5a5e4207101") pay_key t (Z.of_nat i) [] = Ok tt.
Proof.
  intros ecdsa t i E I. lazy -[RawSignatureHash Z.of_nat]. rewrite Raw_bad_index by exact I. lazy -[Z.of_nat].
  match goal with |- context [ecdsa ?a ?b ?c] => change (ecdsa a b c) with (ecdsa (hex "02aaaa") (x01 :: repeat x00 31) (hex "a9a5a5e42071")) end.
  rewrite E. reflexivity.
Qed.
Print Assumptions C91_missing_input_refuted.

(** What holds: the index is checked by VerifySignature (missing: VerifyScript). *)
Theorem C91_index_partial : forall ecdsa from t i, VerifySignature ecdsa from t i = Ok tt -> 0 <= i < Z.of_nat (List.length (t_vin t)).
Proof. exact VerifySignature_index. Qed.
Print Assumptions C91_index_partial.

Example C91_instance : toy (hex "02aaaa") (x01 :: repeat x00 31) (hex "a9a5a5e42071") = true /\
  VerifyScript toy (hex "07a9a5a5e4207101") pay_key three_two 3 [] = Ok tt /\
  VerifyScript toy (hex "07a9a5a5e4207101") pay_key three_two 2 [] = Err VerifyScriptError /\
  VerifySignature toy paying spending 0 = Ok tt /\ VerifySignature toy paying spending 1 = Err VerifySignatureError.
Proof. repeat split; vm_compute; reflexivity. Qed.
