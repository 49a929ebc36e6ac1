(** Properties C131-C137: sus-tool.py as a program: files, configuration, node. *)
From Verif Require Import Base Sha256 Ripemd160 Serialize_Model Serialize_Spec Tx_Model Tx_Spec Base58_Model Proof_Model Proof_Spec ProofArrive_Proofs Hex_Model Chain_Model Chain_Spec Chain_Examples ChainPipe_Proofs Chain_Props.
From Verif Require Import Grammar_Spec Rpc_Model Rpc_Spec RpcUse_Proofs Rpc_Props Conf_Model Conf_Spec Conf_Proofs ConfUse_Proofs SusTool_Model SusTool_Spec SusTool_Proofs SusToolUse_Proofs.
From Coq Require Import ZifyBool ZifyNat ZifyN.
#[local] Open Scope string_scope.
#[local] Open Scope list_scope.

(** For the instances: a disk with a configuration and the files of two seals. *)
Definition ascii_bytes (s : string) : bytes := map (fun c => Nb (N_of_ascii c)) (list_ascii_of_string s).
Definition conf1 : bytes := ascii_bytes "rpcuser=bob" ++ [x0a] ++ ascii_bytes "rpcpassword=x".
Definition disk1 : disk := put (put (put (fun _ => None) "bitcoin.conf" conf1) "a" seal_file1) "b" seal_file2.
Definition options1 := Options true false.
Definition nobody : list json -> reply := fun _ => NoReply.
Notation tool1 := (sus_tool ledger chain1 (fun _ => false) nobody "bitcoin.conf" options1).
Lemma usable1 o d : d "bitcoin.conf" = Some conf1 -> configured o "bitcoin.conf" d.
Proof.
  intros D. exists conf1, (map ascii_of_byte conf1). split; [exact D|]. split; [repeat constructor|].
  exists (read_lines false [] (map ascii_of_byte conf1)), (if testnet_flag o then 18332 else 8332)%Z, (if testnet_flag o then 18332 else 8332)%Z, false, (txt "bob"), (txt "x").
  split; [apply lines_of_read|]. split; [apply ascii_read; reflexivity|]. split; [right; split; [reflexivity|]; unfold network; destruct (testnet_flag o); auto|]. split; [right; split; [apply unset_read; reflexivity|reflexivity]|].
  split; [destruct o as [[] dr]; vm_compute; split; discriminate|]. split; [left; split; [apply unset_read; reflexivity|reflexivity]|].
  split; [apply setting_read; reflexivity|]. split; [apply setting_read; reflexivity|]. split; apply clean_read; reflexivity.
Qed.
Lemma usable_disk1 : configured options1 "bitcoin.conf" disk1. Proof. apply usable1. reflexivity. Qed.

(** ** C131: files are only created *)

(** C131: whatever the command, the node and the configuration, a file that was there is still there with the same contents. *)
Theorem C131_files_are_kept : forall ct P ip_ok node conf_name o c d n b, d n = Some b -> e_files (sus_tool ct P ip_ok node conf_name o c d) n = Some b.
Proof. exact tool_keeps_files. Qed.
Print Assumptions C131_files_are_kept.

(** A new file is the one named in mkseal, or of mkwitness the name of a seal file with ".witness". *)
Theorem C131_new_files : forall ct P ip_ok node conf_name o c d n, e_files (sus_tool ct P ip_ok node conf_name o c d) n <> d n -> d n = None /\
  ((exists os, c = Mkseal os n) \/ (exists files how f, c = Mkwitness files how /\ In f files /\ n = witness_name f)).
Proof. exact tool_new_files. Qed.
Print Assumptions C131_new_files.

(** The transaction that closes both seals, in hex. *)
Definition line1 : string := match e_out (tool1 (Mkclosetx (b2x digest1) ["a"; "b"] MP2pkh) disk1) with [s] => s | _ => "" end.
Example C131_case : let E := tool1 (Mkwitness ["a"; "b"] (ByTx line1)) disk1 in
  e_files E "a" = Some seal_file1 /\ e_files E "bitcoin.conf" = Some conf1 /\ disk1 "a.witness" = None /\ e_files E "a.witness" <> None /\ e_files E "b.witness" <> None /\ e_files E "b.witness" <> e_files E "a.witness".
Proof. vm_compute. repeat split; discriminate. Qed.
Example C131_existing : e_result (tool1 (Mkwitness ["a"] (ByTx line1)) (put disk1 "a.witness" [])) = Exc OSError. Proof. vm_compute. reflexivity. Qed.

(** ** C132: a command that fails changes nothing *)

Definition failure_changes_nothing : Prop := forall ct P ip_ok node conf_name o c d, is_chain ct P -> wf_table ct -> variant_table ct -> configured o conf_name d ->
  let E := sus_tool ct P ip_ok node conf_name o c d in ~ succeeds E -> forall n, e_files E n = d n.
(** C132 is false: mkseal always fails (C43), and leaves an empty file if the outpoint can be read and there was no such file. *)
Theorem C132_failure_changes_nothing_refuted : ~ failure_changes_nothing.
Proof.
  intros H. specialize (H ledger chain1 (fun _ => false) nobody "bitcoin.conf" options1 (Mkseal "14180092832c9e49f36e37c2cfa6695a6670cc66dcba42266245e11c8f9de4cf:0" "c") disk1 ledger_chain ledger_wf ledger_variants usable_disk1).
  cbv zeta in H. rewrite (mkseal_tool ledger chain1 ledger_chain (fun _ => false) nobody "bitcoin.conf" options1 _ outpoint1 "c" disk1 usable_disk1) in H; [|vm_compute; reflexivity|reflexivity].
  specialize (H ltac:(discriminate) "c"). discriminate H.
Qed.
Print Assumptions C132_failure_changes_nothing_refuted.

Theorem C132_mkseal_leaves_empty_file : forall ct P ip_ok node conf_name o os op f d, is_chain ct P -> configured o conf_name d -> parse_outpoint os = Ok op -> d f = None ->
  let E := sus_tool ct P ip_ok node conf_name o (Mkseal os f) d in
  ~ succeeds E /\ e_files E f = Some [] /\ (forall os', e_files (sus_tool ct P ip_ok node conf_name o (Mkseal os' f) (e_files E)) = e_files E).
Proof.
  intros ct P ip_ok node conf_name o os op f d C Cf PO D. cbv zeta. rewrite (mkseal_tool ct P C ip_ok node conf_name o os op f d Cf PO D). split; [discriminate|]. cbn [e_files]. split; [apply put_same|].
  intros os'. apply (mkseal_bad ct P ip_ok node conf_name). right. rewrite put_same. discriminate.
Qed.
Print Assumptions C132_mkseal_leaves_empty_file.

(** The same with mkwitness: the first seal is closed by the transaction, the second is not. *)
Definition raw1 : bytes := match tx_ser tx1 with Ok b => b | _ => [] end.
Example C132_mkwitness_leaves_first : let E := tool1 (Mkwitness ["a"; "b"] (ByTx (b2x raw1))) disk1 in e_result E = Exc SystemExit /\ disk1 "a.witness" = None /\ e_files E "a.witness" <> None.
Proof. vm_compute. repeat split; discriminate. Qed.

(** C132 for all commands but these two, for mkwitness with one seal file, and for mkseal when the outpoint cannot be read or the file is there.  Missing: mkseal otherwise,
    and mkwitness with more seal files (false, see above); what is left then is in the next theorem. *)
Theorem C132_failure_changes_nothing_partial : forall ct P ip_ok node conf_name o c d, is_chain ct P -> wf_table ct -> variant_table ct ->
  match c with
  | Mkseal os f => (forall op, parse_outpoint os <> Ok op) \/ d f <> None
  | Mkwitness files _ => (List.length files <= 1)%nat
  | _ => True
  end ->
  let E := sus_tool ct P ip_ok node conf_name o c d in ~ succeeds E -> forall n, e_files E n = d n.
Proof.
  intros ct P ip_ok node conf_name o c d C W V H E Hf n. destruct c as [os f|h fs m|files how|f h sf si l|f|f|].
  - unfold E. rewrite (mkseal_bad ct P ip_ok node conf_name o os f d H). reflexivity.
  - apply other_files, I.
  - destruct (mkwitness_tool ct P C W V ip_ok node conf_name o files how d) as (done & rest & t & Ef & A & B & R & _). apply B. intros m I.
    exfalso. apply Hf, R. destruct done as [|m' done]; [destruct I|]. destruct files as [|f [|g files]]; [discriminate| |cbn in H; lia]. split; [discriminate|].
    destruct done, rest; try discriminate. reflexivity.
  - apply other_files, I.
  - apply other_files, I.
  - apply other_files, I.
  - apply other_files, I.
Qed.
Print Assumptions C132_failure_changes_nothing_partial.

(** Whatever mkwitness leaves: valid witnesses for the first seal files, all of one transaction; all of them exactly when it succeeds. *)
Theorem C132_mkwitness_leaves_valid_witnesses : forall ct P ip_ok node conf_name o files how d, is_chain ct P -> wf_table ct -> variant_table ct ->
  let E := sus_tool ct P ip_ok node conf_name o (Mkwitness files how) d in
  exists done rest t, files = done ++ rest /\
    (forall n, In n done -> d (witness_name n) = None /\ exists f b, d n = Some f /\ e_files E (witness_name n) = Some b /\ valid_witness ct P t f b) /\
    (forall n, (forall m, In m done -> n <> witness_name m) -> e_files E n = d n) /\ (succeeds E <-> files <> [] /\ rest = []) /\
    (done <> [] -> forall s, how = ByTx s -> given how t).
Proof. intros ct P ip_ok node conf_name o files how d C W V. exact (mkwitness_tool ct P C W V ip_ok node conf_name o files how d). Qed.
Print Assumptions C132_mkwitness_leaves_valid_witnesses.

Example C132_case : let E := tool1 (Mkwitness ["b"] (ByTx (b2x raw1))) disk1 in ~ succeeds E /\ e_files E "b.witness" = None.
Proof. split; [vm_compute; discriminate|]. rewrite (C132_failure_changes_nothing_partial ledger chain1 _ _ _ _ _ _ ledger_chain ledger_wf ledger_variants); [reflexivity|cbn; lia|vm_compute; discriminate]. Qed.

(** ** C133: the commands together *)

(** C133: mkclosetx for different seals prints one line; mkwitness with that line succeeds; verifywitness then accepts, for each seal, the digest
    the seals were closed over, and of other digests only one that collides under Hash160.  Or two of the seals collide under SHA-256. *)
Theorem C133_close_witness_verify : forall ct P ip_ok node conf_name o digest names ons hx m d, is_chain ct P -> wf_table ct -> variant_table ct -> wf_tags ct ->
  configured o conf_name d -> digest_text hx digest -> names <> [] -> NoDup names -> (Z.of_nat (List.length names) <= 2 ^ 32)%Z ->
  Forall2 (holds_seal ct P d) names ons -> NoDup ons -> (forall n, In n names -> d (witness_name n) = None) ->
  let tool := sus_tool ct P ip_ok node conf_name o in
  (exists line, let E1 := tool (Mkclosetx hx names m) d in succeeds E1 /\ e_out E1 = [line] /\ e_files E1 = d /\
     let E2 := tool (Mkwitness names (ByTx line)) d in succeeds E2 /\
     forall n, In n names -> forall hx' l,
       let E3 := tool (Verifywitness (witness_name n) (Some hx') None None l) (e_files E2) in
       (spaced_hex hx' digest -> succeeds E3) /\ (succeeds E3 -> spaced_hex hx' digest \/ exists h, spaced_hex hx' h /\ collision Hash160 digest h)) \/
  (exists a b, In a ons /\ In b ons /\ a <> b /\ hash_collision ct (Seal P (fst a) (snd a)) (Seal P (fst b) (snd b))).
Proof. intros ct P ip_ok node conf_name o digest names ons hx m d C W V. exact (pipeline ct P C W V ip_ok node conf_name o digest names ons hx m d). Qed.
Print Assumptions C133_close_witness_verify.

Example C133_case : configured options1 "bitcoin.conf" disk1 /\ digest_text (b2x digest1) digest1 /\ Forall2 (holds_seal ledger chain1 disk1) ["a"; "b"] [(outpoint1, nonce1); (outpoint2, nonce1)] /\
  NoDup [(outpoint1, nonce1); (outpoint2, nonce1)] /\
  let E := tool1 (Mkwitness ["a"; "b"] (ByTx line1)) disk1 in
  map (fun n => e_result (tool1 (Verifywitness n (Some (b2x digest1)) None None false) (e_files E))) ["a.witness"; "b.witness"] = [Val tt; Val tt] /\
  map (fun n => e_result (tool1 (Verifywitness n (Some (b2x digest2)) None None false) (e_files E))) ["a.witness"; "b.witness"] = [Exc AssertionError; Exc AssertionError].
Proof.
  split; [exact usable_disk1|]. split; [split; [apply hex_text_spaced, to_hex_text|reflexivity]|].
  split; [constructor; [|constructor; [|constructor]]; eexists; (split; [reflexivity|vm_compute; reflexivity])|].
  split. { constructor; [intros [E|[]]; vm_compute in E; discriminate E|]. constructor; [intros []|constructor]. }
  split; vm_compute; reflexivity.
Qed.

(** ** C134: the transaction named by its id *)

Definition txid_faithful : Prop := forall ct P ip_ok node conf_name o files id h d, is_chain ct P -> wf_table ct -> variant_table ct -> configured o conf_name d -> lx id = Ok h ->
  let E := sus_tool ct P ip_ok node conf_name o (Mkwitness files (ByTxid id)) d in succeeds E ->
  forall n f, In n files -> d n = Some f -> exists b t, e_files E (witness_name n) = Some b /\ valid_witness ct P t f b /\ tx_GetHash t = Ok h.
(** C134 is false: what the node sends is not compared with the id.  Here the id is 32 zero bytes. *)
Theorem C134_txid_refuted : ~ txid_faithful.
Proof.
  intros H. set (node := says (JStr (b2x raw1))). specialize (H ledger chain1 (fun _ => false) node "bitcoin.conf" options1 ["a"] (b2lx digest1) digest1 disk1 ledger_chain ledger_wf ledger_variants usable_disk1 (lx_b2lx digest1)).
  cbv zeta in H. specialize (H ltac:(vm_compute; reflexivity) "a" seal_file1 (or_introl eq_refl) eq_refl). destruct H as (b & t & Eb & (o & n & i & x & _ & D & _) & Ht).
  assert ((do b <- match e_files (sus_tool ledger chain1 (fun _ => false) node "bitcoin.conf" options1 (Mkwitness ["a"] (ByTxid (b2lx digest1))) disk1) (witness_name "a") with Some b => Ok b | None => Err KeyError end;
           deserialize ledger BWIT b) = Ok (witness tx1 0 0)) as D1 by (vm_compute; reflexivity).
  rewrite Eb in D1. cbn [bind] in D1. change (p_bwit chain1) with BWIT in D. rewrite D in D1. unfold witness, Witness, TxInProof, TxOutProof, TxProof in D1. assert (t = tx1) as -> by congruence. vm_compute in Ht. discriminate Ht.
Qed.
Print Assumptions C134_txid_refuted.

(** C134 for a node that sends the transaction with this id: mkwitness does what it does when the transaction itself is given.  Missing: a node that sends another. *)
Theorem C134_txid_partial : forall ct P ip_ok node conf_name o files id h s t d, is_chain ct P -> wf_table ct -> variant_table ct -> lx id = Ok h ->
  answers node new_proxy "getrawtransaction" [hash_text h; JInt 0] (JStr s) -> given (ByTx s) t -> tx_GetHash t = Ok h ->
  let E := sus_tool ct P ip_ok node conf_name o (Mkwitness files (ByTxid id)) d in let E' := sus_tool ct P ip_ok node conf_name o (Mkwitness files (ByTx s)) d in
  (e_result E = e_result E' /\ e_files E = e_files E' /\ e_out E = e_out E') /\
  (succeeds E -> forall n, In n files -> exists f b, d n = Some f /\ e_files E (witness_name n) = Some b /\ valid_witness ct P t f b).
Proof.
  intros ct P ip_ok node conf_name o files id h s t d C W V L A G Ht E E'. pose proof (by_txid ct P ip_ok node conf_name mainnet o files id h s t d L A G) as (R & F & O). fold E E' in R, F, O.
  split; [auto|]. intros S n I. unfold succeeds in S. rewrite R in S. rewrite F.
  destruct (mkwitness_tool ct P C W V ip_ok node conf_name o files (ByTx s) d) as (done & rest & t' & Ef & X & _ & Y & Z). apply Y in S as [Nf ->]. rewrite app_nil_r in Ef. subst done.
  destruct (X n I) as (_ & f & b & Df & Eb & Vb). exists f, b. split; [exact Df|]. split; [exact Eb|].
  assert (t' = t) as <-; [|exact Vb]. destruct (Z Nf s eq_refl) as (s1 & b1 & E1 & H1 & T1), G as (s2 & b2 & E2 & H2 & T2). inversion E1; inversion E2; subst s1 s2. apply x_hex_text in H1, H2.
  assert (b1 = b2) by congruence. subst b2. apply (Grammar_Proofs.reads_all _ _ _ _ Grammar_Proofs.tx_reads) in T1, T2. congruence.
Qed.
Print Assumptions C134_txid_partial.

Definition txid1 : bytes := match tx_GetHash tx1 with Ok h => h | _ => [] end.
Example C134_case : lx (b2lx txid1) = Ok txid1 /\ answers (says (JStr (b2x raw1))) new_proxy "getrawtransaction" [hash_text txid1; JInt 0] (JStr (b2x raw1)) /\
  given (ByTx (b2x raw1)) tx1 /\ tx_GetHash tx1 = Ok txid1 /\
  e_result (sus_tool ledger chain1 (fun _ => false) (says (JStr (b2x raw1))) "bitcoin.conf" options1 (Mkwitness ["a"] (ByTxid (b2lx txid1))) disk1) = Val tt.
Proof.
  split; [apply lx_b2lx|]. split; [apply says_answers|]. split; [eexists _, raw1; split; [reflexivity|]; split; [apply to_hex_text|]; apply (Grammar_Proofs.reads_all _ _ _ _ Grammar_Proofs.tx_reads); vm_compute; reflexivity|].
  split; vm_compute; reflexivity.
Qed.

(** ** C135: which seal verifywitness is about *)

Definition seal_options_work : Prop := forall ct P ip_ok node conf_name o f dg sf si l d, is_chain ct P -> wf_table ct -> variant_table ct -> configured o conf_name d ->
  succeeds (sus_tool ct P ip_ok node conf_name o (Verifywitness f dg sf si l) d) ->
  exists b s i p, d f = Some b /\ deserialize ct (p_bwit P) b = Ok (Witness P s i p) /\
    (forall n, sf = Some n -> exists b', d n = Some b' /\ deserialize ct (p_bseal P) b' = Ok s) /\ (forall t, si = Some t -> exists h, spaced_hex t h /\ phash ct s = Ok h).
(** C135 is false: the options --seal-file and --seal-id are not used. *)
Theorem C135_seal_options_refuted : ~ seal_options_work.
Proof.
  intros H. set (d := e_files (tool1 (Mkwitness ["a"] (ByTx (b2x raw1))) disk1)).
  assert (configured options1 "bitcoin.conf" d) as Cf by (apply configured_later, usable_disk1).
  specialize (H ledger chain1 (fun _ => false) nobody "bitcoin.conf" options1 "a.witness" (Some (b2x digest1)) (Some "b") None false d ledger_chain ledger_wf ledger_variants Cf ltac:(vm_compute; reflexivity)).
  destruct H as (b & s & i & p & Eb & D & Hs & _). destruct (Hs "b" eq_refl) as (b' & Eb' & Ds).
  assert (d "b" = Some seal_file2) as E2 by (apply tool_keeps_files; reflexivity). rewrite E2 in Eb'. assert (seal_file2 = b') as <- by congruence.
  assert (deserialize ledger BSEAL seal_file2 = Ok (Seal chain1 outpoint2 nonce1)) as D2 by (vm_compute; reflexivity). change (p_bseal chain1) with BSEAL in Ds. rewrite D2 in Ds. assert (s = Seal chain1 outpoint2 nonce1) as -> by congruence.
  assert ((do b <- match d "a.witness" with Some b => Ok b | None => Err KeyError end; deserialize ledger BWIT b) = Ok (witness tx1 0 0)) as D1 by (vm_compute; reflexivity).
  rewrite Eb in D1. cbn [bind] in D1. change (p_bwit chain1) with BWIT in D. rewrite D in D1. unfold witness, Witness in D1. assert (Seal chain1 outpoint2 nonce1 = seal1) as X by congruence. unfold Seal, seal1, Seal in X.
  assert (outpoint2 = outpoint1) as Y by congruence. apply (f_equal o_n) in Y. discriminate Y.
Qed.
Print Assumptions C135_seal_options_refuted.

(** C135 without the two options: verifywitness succeeds exactly when the file is a witness that verifies, and commits to the digest if one is given.  With them
    nothing more is asked than that the seal file is there and that the id is 32 bytes in hex.  Missing: that they are compared with the seal of the witness (false).
    --local changes nothing. *)
Theorem C135_verifywitness_partial : forall ct P ip_ok node conf_name o f dg sf si l d, is_chain ct P -> wf_table ct -> variant_table ct -> configured o conf_name d ->
  (succeeds (sus_tool ct P ip_ok node conf_name o (Verifywitness f dg sf si l) d) <->
  exists b w, d f = Some b /\ deserialize ct (p_bwit P) b = Ok w /\ Chain_Spec.outcome ct btc_verify w = Ok tt /\
    match dg with None => True | Some s => exists h, digest_text s h /\ Chain_Spec.outcome ct (btc_verify_hash h) w = Ok tt end /\
    match sf with None => True | Some n => d n <> None end /\ match si with None => True | Some s => exists h, digest_text s h end).
Proof. intros ct P ip_ok node conf_name o f dg sf si l d C W V. exact (verify_tool ct P C W V ip_ok node conf_name o f dg sf si l d). Qed.
Print Assumptions C135_verifywitness_partial.

Example C135_case : let d := put disk1 "w" (match ser_proof ledger (witness tx1 0 0) with Ok b => b | _ => [] end) in configured options1 "bitcoin.conf" d /\
  e_result (tool1 (Verifywitness "w" (Some " 0000000000000000 0000000000000000000000000000000000000000 00000000 ") None None true) d) = Val tt /\
  e_result (tool1 (Verifywitness "w" None None (Some "00") false) d) = Exc SystemExit /\ e_result (tool1 (Verifywitness "w" None (Some "c") None false) d) = Exc SystemExit /\
  e_result (tool1 (Verifywitness "w" (Some (b2x digest2)) (Some "a") None false) d) = Exc AssertionError.
Proof. split; [apply usable1; reflexivity|]. repeat split; vm_compute; reflexivity. Qed.

(** ** C136: what is sent to the node *)

(** C136: a run sends nothing, or is mkwitness with --txid and asks once for the transaction with that id. *)
Theorem C136_requests : forall ct P ip_ok node conf_name o c d, let E := sus_tool ct P ip_ok node conf_name o c d in e_sent E = [] \/
  exists files s txid, c = Mkwitness files (ByTxid s) /\ hex_text s (rev txid) /\ e_sent E = [request 1 "getrawtransaction" [hash_text txid; JInt 0]].
Proof.
  intros ct P ip_ok node conf_name o c d. destruct (tool_sent ct P ip_ok node conf_name o c d) as [H|(files & s & txid & Ec & L & H)]; [left; exact H|]. right. exists files, s, txid.
  split; [exact Ec|]. split; [apply lx_text, L|exact H].
Qed.
Print Assumptions C136_requests.

(** The dry run (-n) is like any other run. *)
Theorem C136_dryrun : forall ct P ip_ok node conf_name t a b c d, sus_tool ct P ip_ok node conf_name (Options t a) c d = sus_tool ct P ip_ok node conf_name (Options t b) c d.
Proof. exact tool_dryrun. Qed.
Print Assumptions C136_dryrun.

Example C136_case : e_sent (tool1 (Mkwitness ["a"] (ByTxid (b2lx (hex "0102")))) disk1) = [request 1 "getrawtransaction" [JStr "0201"; JInt 0]] /\
  e_sent (tool1 (Mkwitness ["a"] (ByTx (b2x raw1))) disk1) = [].
Proof. split; vm_compute; reflexivity. Qed.

(** ** C137: commands that need no node *)

Definition no_conf_needed : Prop := forall ct P ip_ok node conf_name o c d, looks c -> configured o conf_name d -> succeeds (sus_tool ct P ip_ok node conf_name o c d) ->
  succeeds (sus_tool ct P ip_ok node conf_name o c (fun n => if String.eqb n conf_name then None else d n)).
(** C137 is false: without bitcoin.conf no command works. *)
Theorem C137_no_conf_needed_refuted : ~ no_conf_needed.
Proof.
  intros H. specialize (H ledger chain1 (fun _ => false) nobody "bitcoin.conf" options1 (Sealinfo "a") disk1 I usable_disk1 ltac:(vm_compute; reflexivity)). vm_compute in H. discriminate H.
Qed.
Print Assumptions C137_no_conf_needed_refuted.

Theorem C137_no_command_without_conf : forall ct P ip_ok node conf_name o c d, is_chain ct P -> d conf_name = None -> ~ succeeds (sus_tool ct P ip_ok node conf_name o c d).
Proof.
  intros ct P ip_ok node conf_name o c d C D H. assert ((exists os f, c = Mkseal os f) \/ forall os, c <> Mkseal os conf_name) as [(os & f & ->)|N] by (destruct c; [left; eauto|right; discriminate..]).
  - exact (mkseal_never ct P C ip_ok node conf_name o os f d H).
  - destruct (no_conf ct P ip_ok node conf_name o c d D N) as (e & E & _). unfold succeeds in H. rewrite E in H. discriminate H.
Qed.
Print Assumptions C137_no_command_without_conf.

(** C137 with some usable bitcoin.conf: what mkclosetx, verifywitness, sealinfo and witnessinfo do depends only on the files they are given; not on what is in bitcoin.conf, on the
    network chosen, on other files, or on the node.  Missing: that bitcoin.conf need not be there (false). *)
Theorem C137_only_the_files_partial : forall ct P c d d' ip ip' node node' conf conf' o o', looks c -> configured o conf d -> configured o' conf' d' ->
  (forall n, In n (reads_files c) -> d n = d' n) ->
  let E := sus_tool ct P ip node conf o c d in let E' := sus_tool ct P ip' node' conf' o' c d' in e_result E = e_result E' /\ e_out E = e_out E'.
Proof. exact looks_depends. Qed.
Print Assumptions C137_only_the_files_partial.

Example C137_case : looks (Sealinfo "a") /\ configured (Options false true) "bitcoin.conf" (put disk1 "b" []) /\
  e_out (sus_tool ledger chain1 (fun _ => true) (says JNull) "bitcoin.conf" (Options false true) (Sealinfo "a") (put disk1 "b" [])) = e_out (tool1 (Sealinfo "a") disk1) /\
  nth_error (e_out (tool1 (Sealinfo "a") disk1)) 1 = Some (String.append "OutPoint:	" "14180092832c9e49f36e37c2cfa6695a6670cc66dcba42266245e11c8f9de4cf:0").
Proof.
  split; [exact I|]. split; [apply usable1; reflexivity|]. split; [|vm_compute; reflexivity].
  apply (C137_only_the_files_partial ledger chain1 (Sealinfo "a") _ disk1 _ (fun _ => false) _ nobody "bitcoin.conf" "bitcoin.conf" (Options false true) options1 I); [apply usable1; reflexivity|exact usable_disk1|].
  intros n [<-|[]]. reflexivity.
Qed.
