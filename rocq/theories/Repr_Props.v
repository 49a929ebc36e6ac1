(** Properties C147 to C151: printed forms read back as Python. *)
From Verif Require Import Base Tx_Model Tx_Spec Script_Model Script_Spec Block_Model Block_Spec Hex_Model Money_Model Base58_Model Base58_Spec 
  Bits_Model Bits_Spec PyText_Spec Repr_Model Repr_Spec Repr_Proofs ReprTx_Proofs ReprBad_Proofs ReprScript_Proofs ReprMore_Proofs PyFloat_Proofs.
From Coq Require Import Lia.

(** C147.  The full claim: the printed form of a transaction, pasted back, gives the transaction.
    It is false: an output of 3 satoshis comes back with 2. *)
Definition three_satoshis : tx := mkTx [] [mkTxOut 3 [x51]] 0 1.
Theorem C147_tx_text_refuted : exists t s t', wf_tx t /\ Forall parses (scripts t) /\ tx_repr Imm t = Ok s /\
  python mainnet s = Some (Ok (VTx t')) /\ map o_nValue (t_vout t) = [3%Z] /\ map o_nValue (t_vout t') = [2%Z].
Proof.
  exists three_satoshis, (T "CTransaction((), (CTxOut(0.00000003*COIN, CScript([1])),), 0, 1)"), (mkTx [] [mkTxOut 2 [x51]] 0 1).
  split; [unfold wf_tx, three_satoshis; cbn [t_vin t_vout t_nLockTime t_nVersion]; split; [constructor|];
    split; [constructor; [|constructor]; unfold wf_txout, wf_script, MAX_SIZE; cbn; lia|cbn; lia]|].
  split; [constructor; [|constructor]; exists [CInt 1]; reflexivity|]. repeat apply conj; vm_compute; reflexivity.
Qed.
Print Assumptions C147_tx_text_refuted.

(** What holds: the text is an expression exactly if all scripts can be parsed; its value is then the
    transaction but for the spelling of scripts and what floating point does to amounts. *)
Theorem C147_tx_text_partial : forall pr c t, wf_tx t -> Forall parses (scripts t) ->
  exists s t', tx_repr c t = Ok s /\ python pr s = Some (Ok (VTx t')) /\ pasted_tx t t'.
Proof. exact tx_pasted. Qed.
Print Assumptions C147_tx_text_partial.

Theorem C147_tx_text_error_partial : forall pr c t, ~ Forall parses (scripts t) -> exists s, tx_repr c t = Ok s /\ python pr s = None.
Proof. exact tx_not_read. Qed.
Print Assumptions C147_tx_text_error_partial.

(** It is the transaction itself exactly if each script is spelled the shortest way already and no
    amount is changed by floating point. *)
Theorem C147_tx_text_same_partial : forall t t', pasted_tx t t' ->
  (t' = t <-> Forall (fun s => respelled s s) (scripts t) /\ Forall (fun o => pasted_amount (o_nValue o) = o_nValue o) (t_vout t)).
Proof. exact pasted_identity. Qed.
Print Assumptions C147_tx_text_same_partial.

(** A payment to a public key hash, with a push that is not the shortest in its input. *)
Definition printed_tx : tx :=
  mkTx [mkTxIn (mkOutPoint (x01 :: repeat x00 31) 7) [x4c; x01; xaa] 0xffffffff]
       [mkTxOut 29000000 ([x76; xa9; x14] ++ repeat xbb 20 ++ [x88; xac]); mkTxOut (-1) [x6a; x00]] 0 1.
Example C147_instance : wf_tx printed_tx /\ Forall parses (scripts printed_tx) /\
  tx_repr Imm printed_tx = Ok (T ("CTransaction((CTxIn(COutPoint(lx('0000000000000000000000000000000000000000000000000000000000000001'), 7), CScript([x('aa')]), 0xffffffff),), " ++
    "(CTxOut(0.29*COIN, CScript([OP_DUP, OP_HASH160, x('bbbbbbbbbbbbbbbbbbbbbbbbbbbbbbbbbbbbbbbb'), OP_EQUALVERIFY, OP_CHECKSIG])), CTxOut(-1, CScript([OP_RETURN, x('')]))), 0, 1)")) /\
  pasted_tx printed_tx (mkTx [mkTxIn (mkOutPoint (x01 :: repeat x00 31) 7) [x01; xaa] 0xffffffff]
    [mkTxOut 28999999 ([x76; xa9; x14] ++ repeat xbb 20 ++ [x88; xac]); mkTxOut (-1) [x6a; x00]] 0 1).
Proof.
  split; [unfold wf_tx, printed_tx; cbn [t_vin t_vout t_nLockTime t_nVersion]; split; [constructor; [|constructor]; unfold wf_txin, wf_outpoint, wf_script, MAX_SIZE; cbn; lia|];
    split; [constructor; [|constructor; [|constructor]]; unfold wf_txout, wf_script, MAX_SIZE; cbn; lia|cbn; lia]|].
  split; [repeat (constructor; [eexists; vm_compute; reflexivity|]); constructor|]. split; [vm_compute; reflexivity|].
  split; [constructor; [|constructor]; split; [reflexivity|]; split; [reflexivity|]; exists [CData [xaa]]; split; reflexivity|].
  split; [|split; reflexivity].
  constructor; [split; [vm_compute; reflexivity|]; exists [COp 0x76; COp 0xa9; CData (repeat xbb 20); COp 0x88; COp 0xac]; split; vm_compute; reflexivity|].
  constructor; [split; [vm_compute; reflexivity|]; exists [COp 0x6a; CData []]; split; vm_compute; reflexivity|constructor].
Qed.

(** A script that ends inside a push. *)
Example C147_error_instance : let t := mkTx [mkTxIn null [x05; xaa] 0] [] 0 1 in
  tx_repr Imm t = Ok (T "CTransaction((CTxIn(COutPoint(), CScript([x('aa')...<ERROR: PUSHDATA(5): truncated data>]), 0x0),), (), 0, 1)") /\
  snd (raw_iter [x05; xaa]) = Some CScriptTruncatedPushDataError.
Proof. split; vm_compute; reflexivity. Qed.

(** C148.  The full claim, that an amount printed in coins is the same when evaluated, is false (above);
    within the supply of coins it is off by at most one satoshi, never above, and whole coins are exact. *)
Theorem C148_amount_refuted : exists v, (0 <= v <= MAX_MONEY)%Z /\ pasted_amount v <> v.
Proof. exists 3%Z. split; [split; vm_compute; discriminate|]. vm_compute. discriminate. Qed.
Print Assumptions C148_amount_refuted.

Theorem C148_amount_partial : forall v, (0 <= v <= 21000000 * 10 ^ 8)%Z -> pasted_amount v = v \/ pasted_amount v = (v - 1)%Z.
Proof. intros v V. unfold pasted_amount. destruct (v <? 0)%Z eqn:E; [auto|]. apply amount_near. lia. Qed.
Print Assumptions C148_amount_partial.

Theorem C148_whole_coins_partial : forall k, (0 <= k <= 21000000)%Z -> pasted_amount (k * 10 ^ 8) = (k * 10 ^ 8)%Z.
Proof. intros k K. unfold pasted_amount. destruct (k * 10 ^ 8 <? 0)%Z; [reflexivity|]. apply whole_coins; lia. Qed.
Print Assumptions C148_whole_coins_partial.

(** In_floats is what pasting gives: the text of every output, with its amount and any script. *)
Theorem C148_amount_pasted : forall pr o ops, has_ops (o_scriptPubKey o) ops -> exists s o', txout_repr o = Ok s /\
  python pr s = Some (Ok (VTxOut o')) /\ o_nValue o' = pasted_amount (o_nValue o).
Proof.
  intros pr o ops H. destruct (txout_expression o (ex_intro _ ops H)) as (s & e & A & B & C). exists s, (mkTxOut (pasted_amount (o_nValue o)) (flat_map spelled ops)).
  split; [exact A|]. split; [|reflexivity]. unfold python. rewrite (PyText_Proofs.read_expression _ _ B). f_equal. apply C, H.
Qed.
Print Assumptions C148_amount_pasted.

Example C148_instance : txout_repr (mkTxOut 29000000 []) = Ok (T "CTxOut(0.29*COIN, CScript([]))") /\
  pasted_amount 29000000 = 28999999%Z /\ pasted_amount 5000000000 = 5000000000%Z /\ pasted_amount 2100000000000000 = 2100000000000000%Z /\ pasted_amount (-1) = (-1)%Z.
Proof. repeat apply conj; vm_compute; reflexivity. Qed.

(** C149.  A printed script that can be parsed keeps its operations when pasted back; pasting twice
    changes nothing more. *)
Theorem C149_script_text : forall pr s, parses s -> exists s', python pr (script_repr s) = Some (Ok (VScript s')) /\
  respelled s s' /\ (forall ops, has_ops s ops -> has_ops s' ops) /\ python pr (script_repr s') = Some (Ok (VScript s')).
Proof.
  assert (P : forall pr s ops, has_ops s ops -> python pr (script_repr s) = Some (Ok (VScript (flat_map spelled ops)))).
  { intros pr s ops H. unfold python. rewrite (PyText_Proofs.read_expression _ _ (script_expression s (ex_intro _ ops H))). f_equal. apply evaluate_script, H. }
  intros pr s [ops H]. exists (flat_map spelled ops). assert (R : respelled s (flat_map spelled ops)) by (exists ops; auto).
  split; [apply P, H|]. split; [exact R|]. split; [intros ops' H'; eapply respelled_ops; eauto|]. apply P. eapply respelled_ops; eauto.
Qed.
Print Assumptions C149_script_text.

(** Canonical pushes: the test says that the script is spelled the shortest way and that no push holds one
    byte of value 16 or less. *)
Theorem C149_canonical_pushes : forall s, has_canonical_pushes s = true <->
  respelled s s /\ forall ops, has_ops s ops -> Forall (fun c => ~ small_push c) ops.
Proof. exact canonical_iff. Qed.
Print Assumptions C149_canonical_pushes.

(** So canonical scripts come back the same. *)
Theorem C149_canonical_text : forall pr s, has_canonical_pushes s = true -> python pr (script_repr s) = Some (Ok (VScript s)).
Proof.
  intros pr s H. apply canonical_iff in H. destruct H as [R _]. destruct R as (ops & O & E). unfold python.
  rewrite (PyText_Proofs.read_expression _ _ (script_expression s (ex_intro _ ops O))). f_equal. rewrite (evaluate_script pr s ops O), <- E. reflexivity.
Qed.
Print Assumptions C149_canonical_text.

Example C149_instance : script_repr [x4c; x01; xaa; x51; x01; x05; xba; xac] = T "CScript([x('aa'), 1, x('05'), CScriptOp(0xba), OP_CHECKSIG])" /\
  python mainnet (script_repr [x4c; x01; xaa; x51; x01; x05; xba; xac]) = Some (Ok (VScript [x01; xaa; x51; x01; x05; xba; xac])).
Proof. split; vm_compute; reflexivity. Qed.
Example C149_canonical_instance : has_canonical_pushes [x51; x02; xaa; xbb; x00; xac] = true /\
  has_canonical_pushes [x4c; x01; xaa] = false /\ has_canonical_pushes [x01; x05] = false /\ has_canonical_pushes [x01] = false.
Proof. repeat apply conj; vm_compute; reflexivity. Qed.

(** C150.  Bits, hash tags, base58 data, secrets and public keys come back equal; addresses too, while the
    network is the same, and with ValueError when their version is of another. *)
Theorem C150_bits_text : forall pr b l, yields b l -> exists s b', bits_repr b = Ok s /\ python pr s = Some (Ok (VBits b')) /\ api_bits b' /\ yields b' l.
Proof. exact bits_pasted. Qed.
Print Assumptions C150_bits_text.

Example C150_bits_instance : bits_repr (mkBits 3 [xbf]) = Ok (T "Bits([1,0,1])") /\ yields (mkBits 3 [xbf]) [true; false; true] /\
  python mainnet (T "Bits([1,0,1])") = Some (Ok (VBits (mkBits 3 [xa0]))).
Proof. repeat apply conj; vm_compute; reflexivity. Qed.

Theorem C150_tag_text : forall pr t, List.length t = 16 -> python pr (tag_repr t) = Some (Ok (VTag t)).
Proof. exact tag_pasted. Qed.
Print Assumptions C150_tag_text.

Example C150_tag_instance : tag_repr (hex "8125d227981c4ca0afa7ab9911352c85") = T "HashTag('8125d227-981c-4ca0-afa7-ab9911352c85')".
Proof. vm_compute. reflexivity. Qed.

Theorem C150_base58_text : forall pr n d, (n < 256)%N -> exists s, base58data_repr (B58 n d) = Ok s /\ python pr s = Some (Ok (VBase58 (B58 n d))).
Proof. exact base58_pasted. Qed.
Print Assumptions C150_base58_text.

Example C150_base58_instance : base58data_repr (B58 0 (hex "62e907b15cbf27d5425399ebf6f0fb50ebb88f18")) = Ok (T "CBase58Data('1A1zP1eP5QGefi2DMPTfTL5SLmv7DivfNa')").
Proof. vm_compute. reflexivity. Qed.

Theorem C150_address_text : forall pr c d, network pr -> exists s, address_repr (Address c (version_of pr c) d) = Ok s /\
  python pr s = Some (Ok (VAddress (Address c (version_of pr c) d))) /\
  forall pr', version_of pr' c <> version_of pr c -> python pr' s = Some (Err ValueError).
Proof. exact address_pasted. Qed.
Print Assumptions C150_address_text.

Example C150_address_instance : address_repr (Address P2PKH 0 (hex "62e907b15cbf27d5425399ebf6f0fb50ebb88f18")) = Ok (T "P2PKHBitcoinAddress('1A1zP1eP5QGefi2DMPTfTL5SLmv7DivfNa')") /\
  network mainnet /\ version_of testnet P2PKH <> version_of mainnet P2PKH.
Proof. split; [vm_compute; reflexivity|]. split; [left; reflexivity|discriminate]. Qed.

Theorem C150_secret_text : forall pr t sec, network pr -> CBitcoinSecret pr t = Ok sec -> exists s, secret_repr sec = Ok s /\ python pr s = Some (Ok (VSecret sec)).
Proof. exact secret_pasted. Qed.
Print Assumptions C150_secret_text.

Example C150_secret_instance : exists sec, from_secret_bytes mainnet (repeat x01 32) true = Ok sec /\
  secret_repr sec = Ok (T "CBitcoinSecret('KwFfNUhSDaASSAwtG7ssQM1uVX8RgX5GHWnnLfhfiQDigjioWXHH')").
Proof. eexists. split; [vm_compute; reflexivity|vm_compute; reflexivity]. Qed.

Theorem C150_pubkey_text : forall pr b, python pr (pubkey_repr b) = Some (Ok (VPubKey b)).
Proof. exact pubkey_pasted. Qed.
Print Assumptions C150_pubkey_text.

Example C150_pubkey_instance : pubkey_repr [x02; x27; x5c; xff; x41] = T "CPubKey(b""\x02'\\\xffA"")" /\ pubkey_repr [x27; x22; x0a] = T "CPubKey(b'\'""\n')".
Proof. split; vm_compute; reflexivity. Qed.

(** C151.  The full claim, that the printed form of a header gives the header, is false of every header: the
    hashes are printed without quotes, so that the text has no value. *)
Theorem C151_header_text_refuted : forall pr h v, wf_header h -> python pr (header_repr "CBlockHeader" h) <> Some (Ok v).
Proof. intros pr h v W. apply header_unread; [split; [do 2 eexists; split; reflexivity|reflexivity]|apply W]. Qed.
Print Assumptions C151_header_text_refuted.

(** But the text tells which header it was. *)
Theorem C151_header_text_partial : forall name h h', wf_header h -> wf_header h' -> header_repr name h = header_repr name h' -> h = h'.
Proof. exact header_text. Qed.
Print Assumptions C151_header_text_partial.

(** The text of a block tells its header only. *)
Theorem C151_block_text_refuted : exists b b', wf_block b /\ wf_block b' /\ b_vtx b <> b_vtx b' /\ block_repr b = block_repr b'.
Proof.
  exists (mkBlock (mkHeader 1 (repeat x00 32) (repeat x00 32) 0 0 0) []), (mkBlock (mkHeader 1 (repeat x00 32) (repeat x00 32) 0 0 0) [mkTx [] [] 0 1]).
  assert (H : wf_header (mkHeader 1 (repeat x00 32) (repeat x00 32) 0 0 0)) by (unfold wf_header; cbn; lia).
  split; [split; [exact H|split; [constructor|reflexivity]]|]. split; [|split; [discriminate|reflexivity]].
  split; [exact H|]. split; [|reflexivity]. constructor; [|constructor]. unfold wf_tx. cbn [t_vin t_vout t_nLockTime t_nVersion].
  split; [constructor|split; [constructor|cbn; lia]].
Qed.
Print Assumptions C151_block_text_refuted.

Theorem C151_block_text_partial : forall b b', wf_block b -> wf_block b' -> block_repr b = block_repr b' -> b_header b = b_header b'.
Proof. intros b b' [W _] [W' _]. apply header_text; assumption. Qed.
Print Assumptions C151_block_text_partial.

Definition a_header : header := mkHeader 1 (repeat x00 32) (rev (hex "4a5e1e4baab89f3a32518a88c31bc87f618f76673e2cc77ab2127b7afdeda33b")) 1231006505 0x1d00ffff 2083236893.
Example C151_instance : wf_header a_header /\ header_repr "CBlockHeader" a_header =
  T "CBlockHeader(1, lx(0000000000000000000000000000000000000000000000000000000000000000), lx(4a5e1e4baab89f3a32518a88c31bc87f618f76673e2cc77ab2127b7afdeda33b), 1231006505, 0x1d00ffff, 0x7c2bac1d)".
Proof. split; [unfold wf_header; cbn; lia|vm_compute; reflexivity]. Qed.
(** A hash of digits only is read as a number, which [lx] refuses. *)
Example C151_digits_instance : python mainnet (header_repr "CBlockHeader" (mkHeader 1 (repeat x11 32) (repeat x11 32) 0 0 0)) = Some (Err TypeError) /\
  python mainnet (header_repr "CBlockHeader" (mkHeader 1 (repeat xaa 32) (repeat x11 32) 0 0 0)) = Some (Err NameError) /\
  python mainnet (header_repr "CBlockHeader" a_header) = None.
Proof. repeat apply conj; vm_compute; reflexivity. Qed.
