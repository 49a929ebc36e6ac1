(** Properties C118-C127: the proxy to a bitcoin node. *)
From Verif Require Import Base Sha256 Hex_Model Tx_Model Tx_Spec Block_Model Block_Spec Base58_Model Base58_Spec Grammar_Spec Net_Spec
  Rpc_Model Rpc_Spec Rpc_Proofs RpcAmount_Proofs RpcUse_Proofs RpcMethods_Proofs Net_Proofs Grammar_Proofs Block_Props.
#[local] Open Scope string_scope.
#[local] Open Scope list_scope.

(** For the instances: a node that always gives the same result, one that always reports an error, and one that knows the
    number of a request. *)
Definition says (j : json) : list json -> reply := fun _ => Answer (JObj [("result", j); ("error", JNull); ("id", JInt 1)]).
Definition refuses (e : json) : list json -> reply := fun _ => Answer (JObj [("result", JNull); ("error", e); ("id", JInt 1)]).
Definition not_found : json := JObj [("code", JInt (-5)); ("message", JStr "No information available about transaction")].
Lemma says_answers j s name args : answers (says j) s name args j.
Proof. eexists. split; [reflexivity|]. split; eexists; (split; [reflexivity|]); [eexists [_], _|eexists [], _]; (split; [reflexivity|]); cbn; intuition discriminate. Qed.
Lemma refuses_reports e s name args : e <> JNull -> reports (refuses e) s name args e.
Proof. intros N. eexists. split; [reflexivity|]. split; [|exact N]. eexists. split; [reflexivity|]. eexists [_], _. split; [reflexivity|]. cbn. intuition discriminate. Qed.
Lemma not_found_proper : proper_error not_found.
Proof. eexists _, _. split; eexists; (split; [reflexivity|]); [eexists [_], _|eexists [], _]; (split; [reflexivity|]); cbn; intuition discriminate. Qed.

(** ** C118: one request for one call *)

(** A call sends one request, for the method called, with the next number; or none, and raises an exception. *)
Theorem C118_one_request : forall node pr c s o s', perform node pr c s = (o, s') ->
  (s' = s /\ exists e, o = Exc e) \/ (exists args, s' = after s (method_name c) args).
Proof.
  intros node pr c s o s' H. destruct (perform_shaped node pr c s o s' H) as [L|(args & E & _)]; [left; exact L|right; eauto].
Qed.
(** However many calls were made before, the requests of one proxy are numbered 1, 2, 3, ... *)
Theorem C118_numbers : forall node pr l, numbered 1 (sent (snd (perform_all node pr l new_proxy))) /\
  (List.length (sent (snd (perform_all node pr l new_proxy))) <= List.length l)%nat.
Proof.
  intros node pr l. destruct (perform_all_sent node pr l new_proxy) as (more & E & L & N & _). rewrite E. cbn [new_proxy sent app]. split; [exact N|exact L].
Qed.
Example C118_instance : let l := [GetBlockHash 7; Other "__len__" []; SendToAddress (Address P2PKH 256 []) 1; Other "getdifficulty" []; GetBalance "*" 1] in
  perform_all (says (JDec (Dec 5 (-1)))) mainnet l new_proxy =
    ([Exc AttributeError; Exc AttributeError; Exc ValueError; Val (PJ (JDec (Dec 5 (-1)))); Val (PInt 50000000)],
     Px 3 [request 1 "getblockhash" [JInt 7]; request 2 "getdifficulty" []; request 3 "getbalance" [JStr "*"; JInt 1]]).
Proof. vm_compute. reflexivity. Qed.
Print Assumptions C118_one_request.
Print Assumptions C118_numbers.

(** ** C119: no value without an answer, no silent error *)

(** A call that returns a value asked the node, and the node answered with a result and without an error. *)
Theorem C119_value_is_answered : forall node pr c s v s', perform node pr c s = (Val v, s') ->
  exists args j, s' = after s (method_name c) args /\ answers node s (method_name c) args j.
Proof.
  intros node pr c s v s' H. destruct (perform_shaped node pr c s _ s' H) as [[_ (e & E)]|(args & E & A)]; [discriminate|]. destruct (A v eq_refl) as [j J]. eauto.
Qed.
(** An error reported by the node is raised with all that the node said, by the lookups of blocks and transactions as IndexError. *)
Theorem C119_error_is_raised : forall node pr c s o args e, perform node pr c s = (o, after s (method_name c) args) ->
  reports node s (method_name c) args e -> proper_error e -> o = if lookup c then Exc IndexError else Rpc e.
Proof. exact perform_reports. Qed.
Example C119_instance : proper_error not_found /\ (forall s name args, reports (refuses not_found) s name args not_found) /\
  fst (perform (refuses not_found) mainnet (GetBalance "*" 1) new_proxy) = Rpc not_found /\
  fst (perform (refuses not_found) mainnet (GetBlockHash 1) new_proxy) = Exc IndexError /\
  fst (perform (fun _ => NoReply) mainnet GetInfo new_proxy) = Rpc (JObj [("code", JInt (-342)); ("message", JStr "missing HTTP response from server")]) /\
  fst (perform (fun _ => Answer (JObj [("error", JNull)])) mainnet GetInfo new_proxy) = Rpc (JObj [("code", JInt (-343)); ("message", JStr "missing JSON-RPC result")]).
Proof.
  split; [exact not_found_proper|]. split; [intros; apply refuses_reports; discriminate|]. repeat split; vm_compute; reflexivity.
Qed.
Print Assumptions C119_value_is_answered.
Print Assumptions C119_error_is_raised.

(** ** C120: what the node is asked for *)

(** The request of a method carries its arguments: hashes as the node prints them, addresses as their text, transactions and
    blocks in hex, outpoints by hash and index. *)
Theorem C120_arguments : forall node pr c s, network pr -> sendable pr c ->
  exists args, asks pr c args /\ snd (perform node pr c s) = after s (method_name c) args.
Proof. exact perform_asks. Qed.
(** The node can read them back: a hash, bytes or an address have one text each, and a text is that of one only. *)
Theorem C120_readable : forall h h' b b' pr a a' t, (hash_text h = hash_text h' -> h = h') /\ (bytes_text b = bytes_text b' -> b = b') /\
  (network pr -> addr_text pr a t -> addr_text pr a' t -> a = a').
Proof.
  intros h h' b b' pr a a' t. split; [|split].
  - intros H. injection H as H. pose proof (to_hex_text (rev h)) as X. rewrite H in X. apply x_hex_text in X. pose proof (to_hex_text (rev h')) as Y. apply x_hex_text in Y.
    rewrite X in Y. injection Y as Y. rewrite <- (rev_involutive h), Y. apply rev_involutive.
  - intros H. injection H as H. pose proof (to_hex_text b) as X. rewrite H in X. apply x_hex_text in X. pose proof (to_hex_text b') as Y. apply x_hex_text in Y. congruence.
  - intros Hn A A'. apply (address_text_iff pr a t Hn) in A. apply (address_text_iff pr a' t Hn) in A'. congruence.
Qed.
Definition payee : address := Address P2PKH 0 (hex "62e907b15cbf27d5425399ebf6f0fb50ebb88f18").
Definition some_tx : tx := mkTx [] [mkTxOut (-1) (hex "51")] 5 1.
Lemma some_tx_text : tx_text some_tx (hex "010000000001ffffffffffffffff015105000000").
Proof. apply (reads_all _ _ _ _ tx_reads). vm_compute. reflexivity. Qed.
Example C120_instance : sendable mainnet (ListUnspent 0 9 (Some [payee])) /\ sendable mainnet (SendRawTransaction some_tx true) /\ sendable mainnet (SubmitBlock genesis None) /\
  sendable mainnet (SendToAddress payee 1) /\ sendable mainnet (Other "_x_" []) /\
  snd (perform (says JNull) mainnet (ListUnspent 0 9 (Some [payee])) new_proxy) =
    after new_proxy "listunspent" [JInt 0; JInt 9; JArr [JStr "1A1zP1eP5QGefi2DMPTfTL5SLmv7DivfNa"]] /\
  snd (perform (says JNull) mainnet (LockUnspent true [mkOutPoint (hex "0102") 3]) new_proxy) =
    after new_proxy "lockunspent" [JBool true; JArr [JObj [("txid", JStr "0201"); ("vout", JInt 3)]]] /\
  snd (perform (says JNull) mainnet (SendRawTransaction some_tx true) new_proxy) =
    after new_proxy "sendrawtransaction" [JStr "010000000001ffffffffffffffff015105000000"; JBool true].
Proof.
  split; [repeat constructor|]. split; [exists (hex "010000000001ffffffffffffffff015105000000"); split; [exact some_tx_text|vm_compute; discriminate]|].
  split; [exists genesis_bytes; split; [apply (reads_all _ _ _ _ block_reads); vm_compute; reflexivity|vm_compute; discriminate]|].
  split; [split; [reflexivity|lia]|]. split; [left; intros x H; discriminate H|]. repeat split; vm_compute; reflexivity.
Qed.
Print Assumptions C120_arguments.
Print Assumptions C120_readable.

(** ** C121: transactions and blocks pass unchanged *)

(** A transaction asked for is the one the node's text spells, and nothing is returned for a text that spells none. *)
Theorem C121_transaction : forall node pr h s t v, answers node s "getrawtransaction" [hash_text h; JInt 0] (JStr t) ->
  perform node pr (GetRawTransaction h false) s = (Val v, after s "getrawtransaction" [hash_text h; JInt 0]) <->
  exists x b, v = PTx x /\ hex_text t b /\ tx_text x b.
Proof. exact rawtransaction_result. Qed.
Theorem C121_block : forall node pr h s t v, answers node s "getblock" [hash_text h; JBool false] (JStr t) ->
  perform node pr (GetBlock h) s = (Val v, after s "getblock" [hash_text h; JBool false]) <->
  exists x b, v = PBlock x /\ hex_text t b /\ block_bytes x b.
Proof. exact block_result. Qed.
(** The verbose form: the transaction under "tx", the block it is in under "blockhash", None if the node names none; the raw
    forms are gone, all else is as the node said. *)
Theorem C121_verbose : forall node pr h s d t k x, answers node s "getrawtransaction" [hash_text h; JInt 1] (JObj d) -> NoDup (map fst d) ->
  (forall n, In n ["hex"; "txid"; "version"; "locktime"; "vin"; "vout"] -> In n (map fst d)) ->
  holds "hex" (JStr t) d -> hex_text t k -> tx_text x k ->
  forall b, (~ In "blockhash" (map fst d) /\ b = PNone) \/ (exists u y, holds "blockhash" (JStr u) d /\ hex_text u (rev y) /\ b = PBytes y) ->
  exists d', perform node pr (GetRawTransaction h true) s = (Val (PDict d'), after s "getrawtransaction" [hash_text h; JInt 1]) /\
    rewritten d ["hex"; "txid"; "version"; "locktime"; "vin"; "vout"] [("tx", PTx x); ("blockhash", b)] d'.
Proof. exact verbose_result. Qed.
(** Signing: the node gets a text of the transaction, the caller the one the node's text spells. *)
Theorem C121_sign : forall node pr t l s, (exists b, tx_text t b /\ (blen b <= MAX_SIZE)%N) -> exists b, tx_text t b /\
  snd (perform node pr (SignRawTransaction t l) s) = after s "signrawtransaction" (bytes_text b :: l) /\
  forall d x h k, answers node s "signrawtransaction" (bytes_text b :: l) (JObj d) -> NoDup (map fst d) -> holds "hex" (JStr h) d -> hex_text h k -> tx_text x k ->
  exists d', perform node pr (SignRawTransaction t l) s = (Val (PDict d'), after s "signrawtransaction" (bytes_text b :: l)) /\ rewritten d ["hex"] [("tx", PTx x)] d'.
Proof.
  intros node pr t l s P. destruct (tx_ser_text t P) as (b & E & T). exists b. split; [exact T|]. split.
  - cbn [perform]. unfold signrawtransaction. rewrite (bind_lift _ _ _ _ E). change (hexlify b) with (bytes_text b). apply bind_after; [apply call_after|reflexivity].
  - intros d x h k A N H X Tx. exact (sign_result node pr t b l s d x h k E A N H X Tx).
Qed.
(** A text spells one transaction or block only. *)
Theorem C121_unambiguous : forall t b b' x x' k k', (hex_text t b -> hex_text t b' -> b = b') /\ (tx_text x b -> tx_text x' b -> x = x') /\ (block_bytes k b -> block_bytes k' b -> k = k').
Proof.
  intros t b b' x x' k k'. split; [|split].
  - intros H H'. apply x_hex_text in H, H'. congruence.
  - intros H H'. apply (reads_all _ _ _ _ tx_reads) in H, H'. congruence.
  - intros H H'. apply (reads_all _ _ _ _ block_reads) in H, H'. congruence.
Qed.
Example C121_instance :
  answers (says (JStr "010000000001FFffffffffffffff015105000000")) new_proxy "getrawtransaction" [hash_text (hex "aa"); JInt 0] (JStr "010000000001FFffffffffffffff015105000000") /\
  perform (says (JStr "010000000001FFffffffffffffff015105000000")) mainnet (GetRawTransaction (hex "aa") false) new_proxy =
    (Val (PTx some_tx), after new_proxy "getrawtransaction" [JStr "aa"; JInt 0]) /\
  fst (perform (says (JStr "010000000001ffffffffffffffff01510500000000")) mainnet (GetRawTransaction (hex "aa") false) new_proxy) = Exc DeserializationExtraDataError /\
  fst (perform (says (JStr (to_hex genesis_bytes))) mainnet (GetBlock (hex "aa")) new_proxy) = Val (PBlock genesis) /\
  fst (perform (says (JObj [("complete", JBool true); ("hex", JStr "010000000001ffffffffffffffff015105000000")])) mainnet (SignRawTransaction some_tx []) new_proxy) =
    Val (PDict [("complete", PJ (JBool true)); ("tx", PTx some_tx)]) /\
  fst (perform (says (JObj [("hex", JStr "010000000001ffffffffffffffff015105000000"); ("txid", JNull); ("version", JNull); ("locktime", JNull); ("vin", JNull); ("vout", JNull);
      ("blockhash", JStr "0102"); ("time", JInt 5)])) mainnet (GetRawTransaction (hex "aa") true) new_proxy) =
    Val (PDict [("blockhash", PBytes (hex "0201")); ("time", PJ (JInt 5)); ("tx", PTx some_tx)]).
Proof. split; [apply says_answers|]. repeat split; vm_compute; reflexivity. Qed.
Print Assumptions C121_transaction.
Print Assumptions C121_block.
Print Assumptions C121_verbose.
Print Assumptions C121_sign.
Print Assumptions C121_unambiguous.

(** ** C122: amounts are exact *)

(** Whatever number of coins the node names, with whatever number of digits, the base units are exact. *)
Theorem C122_balance : forall node pr a m s j v, answers node s "getbalance" [JStr a; JInt m] j -> coins j v -> (Z.abs v < 10 ^ 28)%Z ->
  perform node pr (GetBalance a m) s = (Val (PInt v), after s "getbalance" [JStr a; JInt m]).
Proof. exact balance_result. Qed.
Theorem C122_received : forall node pr a t m s j v, network pr -> addr_text pr a t -> answers node s "getreceivedbyaddress" [JStr t; JInt m] j -> coins j v -> (Z.abs v < 10 ^ 28)%Z ->
  perform node pr (GetReceivedByAddress a m) s = (Val (PInt v), after s "getreceivedbyaddress" [JStr t; JInt m]).
Proof. exact received_result. Qed.
Theorem C122_info : forall node pr s d jb b jf f, NoDup (map fst d) -> answers node s "getinfo" [] (JObj d) ->
  holds "balance" jb d -> coins jb b -> (Z.abs b < 10 ^ 28)%Z -> holds "paytxfee" jf d -> coins jf f -> (Z.abs f < 10 ^ 28)%Z ->
  exists d', perform node pr GetInfo s = (Val (PDict d'), after s "getinfo" []) /\ rewritten d [] [("balance", PInt b); ("paytxfee", PInt f)] d'.
Proof. exact info_result. Qed.
(** A node without a wallet names no balance; none is made up.  Nor is a fee: without one there is no result. *)
Theorem C122_info_without_wallet : forall node pr s d jf f, NoDup (map fst d) -> answers node s "getinfo" [] (JObj d) ->
  ~ In "balance" (map fst d) -> holds "paytxfee" jf d -> coins jf f -> (Z.abs f < 10 ^ 28)%Z ->
  exists d', perform node pr GetInfo s = (Val (PDict d'), after s "getinfo" []) /\ rewritten d [] [("paytxfee", PInt f)] d'.
Proof. exact info_no_wallet. Qed.
Theorem C122_info_without_fee : forall node pr s d v s', answers node s "getinfo" [] (JObj d) -> ~ In "paytxfee" (map fst d) -> perform node pr GetInfo s <> (Val v, s').
Proof. exact info_no_fee. Qed.
Example C122_no_wallet : fst (perform (says (JObj [("blocks", JInt 7); ("paytxfee", JInt 0)])) mainnet GetInfo new_proxy) = Val (PDict [("blocks", PJ (JInt 7)); ("paytxfee", PInt 0)]) /\
  fst (perform (says (JObj [("blocks", JInt 7)])) mainnet GetInfo new_proxy) = Exc KeyError.
Proof. split; vm_compute; reflexivity. Qed.
(** 20999999.9769 and 0.07000000 coins; as floats the second would be 7000000.000000001 units. *)
Example C122_instance : coins (JDec (Dec 209999999769 (-4))) 2099999997690000 /\ coins (JDec (Dec 7000000 (-8))) 7000000 /\
  (Z.abs 2099999997690000 < 10 ^ 28)%Z /\
  fst (perform (says (JDec (Dec 209999999769 (-4)))) mainnet (GetBalance "*" 1) new_proxy) = Val (PInt 2099999997690000) /\
  fst (perform (says (JDec (Dec 7000000 (-8)))) mainnet (GetReceivedByAddress payee 1) new_proxy) = Val (PInt 7000000) /\
  fst (perform (says (JObj [("balance", JDec (Dec 15 (-1))); ("blocks", JInt 9); ("paytxfee", JDec (Dec 0 (-8)))])) mainnet GetInfo new_proxy) =
    Val (PDict [("balance", PInt 150000000); ("blocks", PJ (JInt 9)); ("paytxfee", PInt 0)]).
Proof.
  split; [left; split; [lia|reflexivity]|]. split; [left; split; [lia|reflexivity]|]. split; [reflexivity|]. repeat split; vm_compute; reflexivity.
Qed.
Print Assumptions C122_balance.
Print Assumptions C122_received.
Print Assumptions C122_info.
Print Assumptions C122_info_without_wallet.
Print Assumptions C122_info_without_fee.

(** ** C123: the amount to send arrives *)

(** sendtoaddress sends a number that, read by the node to the nearest base unit, is the amount; however it is
    printed, as long as the print reads as the same float. *)
Theorem C123_amount_arrives : forall node pr a v s, network pr -> on_network pr a -> (0 <= v <= 2100000000000000)%Z ->
  exists t f, addr_text pr a t /\ snd (perform node pr (SendToAddress a v) s) = after s "sendtoaddress" [JStr t; JFloat f] /\
  forall n d, (0 < d)%Z -> reads_as n d f -> (2 * Z.abs (n * 10 ^ 8 - v * d) < d)%Z.
Proof.
  intros node pr a v s Hn Ha Hv. destruct (perform_asks node pr (SendToAddress a v) s Hn (conj Ha Hv)) as (args & A & E). inversion A; subst. eauto.
Qed.
(** 0.07 is sent as 5044031582654956 * 2^-56; 7/100 reads as that. *)
Example C123_instance : on_network mainnet payee /\
  snd (perform (says JNull) mainnet (SendToAddress payee 7000000) new_proxy) =
    after new_proxy "sendtoaddress" [JStr "1A1zP1eP5QGefi2DMPTfTL5SLmv7DivfNa"; JFloat (Flt 5044031582654956 (-56))] /\
  reads_as 7 100 (Flt 5044031582654956 (-56)) /\ ~ reads_as 6999999 100000000 (Flt 5044031582654956 (-56)).
Proof. split; [reflexivity|]. split; [vm_compute; reflexivity|]. split; [vm_compute; discriminate|vm_compute; intros H; apply H; reflexivity]. Qed.
Print Assumptions C123_amount_arrives.

(** ** C124: what is asked for is what is returned *)

(** Not if the node errs or lies: the hash of what it sends is not looked at. *)
Theorem C124_transaction_id_refuted : exists node s h t i, fst (perform node mainnet (GetRawTransaction h false) s) = Val (PTx t) /\ tx_GetHash t = Ok i /\ i <> h.
Proof.
  exists (says (JStr "010000000001ffffffffffffffff015105000000")), new_proxy, (repeat x00 32), some_tx, (Hash (hex "010000000001ffffffffffffffff015105000000")).
  split; [vm_compute; reflexivity|]. split; [vm_compute; reflexivity|]. intros H. apply (f_equal (hd x00)) in H. vm_compute in H. discriminate.
Qed.
Theorem C124_block_hash_refuted : exists node s h b i, fst (perform node mainnet (GetBlock h) s) = Val (PBlock b) /\ block_GetHash b = Ok i /\ i <> h.
Proof.
  exists (says (JStr (to_hex genesis_bytes))), new_proxy, (repeat x01 32), genesis, (rev (hex "000000000019d6689c085ae165831e934ff763ae46a2a6c172b3f1b60a8ce26f")).
  split; [vm_compute; reflexivity|]. split; [vm_compute; reflexivity|]. intros H. apply (f_equal (hd x00)) in H. vm_compute in H. discriminate.
Qed.
(** It is as honest as the node: if its text spells a transaction (block) with the hash asked for, that one is returned.
    Missing: other nodes. *)
Theorem C124_honest_node_partial : forall node pr s h t b,
  (forall x, answers node s "getrawtransaction" [hash_text h; JInt 0] (JStr t) -> hex_text t b -> tx_text x b -> tx_GetHash x = Ok h ->
     exists y, fst (perform node pr (GetRawTransaction h false) s) = Val (PTx y) /\ tx_GetHash y = Ok h) /\
  (forall x, answers node s "getblock" [hash_text h; JBool false] (JStr t) -> hex_text t b -> block_bytes x b -> block_GetHash x = Ok h ->
     exists y, fst (perform node pr (GetBlock h) s) = Val (PBlock y) /\ block_GetHash y = Ok h).
Proof.
  intros node pr s h t b. split; intros x A H T G; exists x; (split; [|exact G]).
  - assert (perform node pr (GetRawTransaction h false) s = (Val (PTx x), after s "getrawtransaction" [hash_text h; JInt 0])) as -> by (apply (rawtransaction_result node pr h s t _ A); eauto). reflexivity.
  - assert (perform node pr (GetBlock h) s = (Val (PBlock x), after s "getblock" [hash_text h; JBool false])) as -> by (apply (block_result node pr h s t _ A); eauto). reflexivity.
Qed.
Example C124_instance : let h := rev (hex "000000000019d6689c085ae165831e934ff763ae46a2a6c172b3f1b60a8ce26f") in
  answers (says (JStr (to_hex genesis_bytes))) new_proxy "getblock" [hash_text h; JBool false] (JStr (to_hex genesis_bytes)) /\ hex_text (to_hex genesis_bytes) genesis_bytes /\
  block_bytes genesis genesis_bytes /\ block_GetHash genesis = Ok h /\ hash_text h = JStr "000000000019d6689c085ae165831e934ff763ae46a2a6c172b3f1b60a8ce26f".
Proof.
  cbv zeta. split; [apply says_answers|]. split; [apply to_hex_text|]. split; [apply (reads_all _ _ _ _ block_reads); vm_compute; reflexivity|]. split; vm_compute; reflexivity.
Qed.
Print Assumptions C124_transaction_id_refuted.
Print Assumptions C124_block_hash_refuted.
Print Assumptions C124_honest_node_partial.

(** ** C125: IndexError *)

(** A lookup of a block or transaction raises IndexError exactly when the node reports an error, gives no response or no
    result (or the connection itself raises IndexError); never because of what the result contains. *)
Theorem C125_lookup : forall node pr c s, lookup c = true -> fst (perform node pr c s) = Exc IndexError <->
  exists args r, snd (perform node pr c s) = after s (method_name c) args /\ reply_to node s (method_name c) args r /\ (failure r \/ r = Broken IndexError).
Proof. exact lookup_index. Qed.
(** gettxout raises it exactly when the node says that there is no such unspent output. *)
Theorem C125_unspent : forall node pr o m s, fst (perform node pr (GetTxOut o m) s) = Exc IndexError <->
  answers node s "gettxout" [hash_text (o_hash o); JInt (o_n o); JBool m] JNull \/
  reply_to node s "gettxout" [hash_text (o_hash o); JInt (o_n o); JBool m] (Broken IndexError).
Proof. exact gettxout_index. Qed.
Example C125_instance :
  failure (refuses not_found []) /\
  fst (perform (refuses not_found) mainnet (GetTransaction (hex "aa")) new_proxy) = Exc IndexError /\
  fst (perform (fun _ => NoReply) mainnet (GetBlock (hex "aa")) new_proxy) = Exc IndexError /\
  fst (perform (says (JStr "00")) mainnet (GetBlock (hex "aa")) new_proxy) = Exc SerializationTruncationError /\
  fst (perform (says JNull) mainnet (GetTxOut (mkOutPoint (hex "aa") 0) true) new_proxy) = Exc IndexError /\
  fst (perform (says (JObj [])) mainnet (GetTxOut (mkOutPoint (hex "aa") 0) true) new_proxy) = Exc KeyError /\
  fst (perform (refuses not_found) mainnet (GetTxOut (mkOutPoint (hex "aa") 0) true) new_proxy) = Rpc not_found.
Proof.
  split.
  - eapply fail_error; [reflexivity|..].
    + eexists. split; [reflexivity|]. eexists [_], _. split; [reflexivity|]. cbn. intuition discriminate.
    + discriminate.
    + eexists. split; [reflexivity|]. eexists [_], _. split; [reflexivity|]. cbn. intuition discriminate.
    + eexists. split; [reflexivity|]. eexists [], _. split; [reflexivity|]. cbn. intuition discriminate.
    + exact I.
  - repeat split; vm_compute; reflexivity.
Qed.
Print Assumptions C125_lookup.
Print Assumptions C125_unspent.

(** ** C126: unspent outputs *)

(** What the node lists is listed, in its order, with the outpoint, address, script and amount it names. *)
Theorem C126_listunspent : forall node pr a b addrs args ds fs s, network pr -> asks pr (ListUnspent a b addrs) args ->
  answers node s "listunspent" args (JArr (map JObj ds)) -> Forall2 (unspent pr) ds fs ->
  exists ds', perform node pr (ListUnspent a b addrs) s = (Val (PList (map PDict ds')), after s "listunspent" args) /\
    Forall2 (fun p d' => rewritten (fst p) ["txid"; "vout"] [("outpoint", POut (fst (fst (fst (snd p))))); ("address", PAddr (snd (fst (fst (snd p)))));
      ("scriptPubKey", PBytes (snd (fst (snd p)))); ("amount", PInt (snd (snd p)))] d') (combine ds fs) ds'.
Proof. exact listunspent_result. Qed.
Theorem C126_gettxout : forall node pr o m s d out best, answers node s "gettxout" [hash_text (o_hash o); JInt (o_n o); JBool m] (JObj d) -> unspent_output d (out, best) ->
  exists d', perform node pr (GetTxOut o m) s = (Val (PDict d'), after s "gettxout" [hash_text (o_hash o); JInt (o_n o); JBool m]) /\
    rewritten d ["value"; "scriptPubKey"] [("txout", PTxOut out); ("bestblock", PBytes best)] d'.
Proof. exact gettxout_result. Qed.
Definition listed : list (string * json) :=
  [("txid", JStr "000102030405060708090a0b0c0d0e0f101112131415161718191A1B1C1D1E1F"); ("vout", JInt 1); ("address", JStr "1A1zP1eP5QGefi2DMPTfTL5SLmv7DivfNa");
   ("account", JStr "x"); ("scriptPubKey", JStr "76a91462e907b15cbf27d5425399ebf6f0fb50ebb88f1888ac"); ("amount", JDec (Dec 7 (-2))); ("confirmations", JInt 6)].
Definition listed_hash : bytes := hex "1f1e1d1c1b1a191817161514131211100f0e0d0c0b0a09080706050403020100".
Definition listed_script : bytes := hex "76a91462e907b15cbf27d5425399ebf6f0fb50ebb88f1888ac".
Example C126_instance : unspent mainnet listed (mkOutPoint listed_hash 1, payee, listed_script, 7000000%Z) /\
  fst (perform (says (JArr [JObj listed])) mainnet (ListUnspent 0 9 None) new_proxy) =
    Val (PList [PDict [("address", PAddr payee); ("account", PJ (JStr "x")); ("scriptPubKey", PBytes listed_script); ("amount", PInt 7000000); ("confirmations", PJ (JInt 6));
      ("outpoint", POut (mkOutPoint listed_hash 1))]]) /\
  fst (perform (says (JObj [("bestblock", JStr "0102"); ("value", JInt 3); ("scriptPubKey", JObj [("asm", JNull); ("hex", JStr "51")])])) mainnet (GetTxOut (mkOutPoint listed_hash 1) true) new_proxy) =
    Val (PDict [("bestblock", PBytes (hex "0201")); ("txout", PTxOut (mkTxOut 300000000 (hex "51")))]).
Proof.
  split; [|split; vm_compute; reflexivity]. unfold unspent. split; [repeat constructor; cbn; intuition discriminate|]. split; [reflexivity|]. split; [cbn; lia|].
  split; [eexists; split; [eexists [], _; split; [reflexivity|intros []]|apply x_hex_text; vm_compute; reflexivity]|].
  split; [eexists [_], _; split; [reflexivity|cbn; intuition discriminate]|].
  split; [eexists; split; [eexists [_; _], _; split; [reflexivity|cbn; intuition discriminate]|apply address_text_iff; [left; reflexivity|vm_compute; reflexivity]]|].
  split; [eexists; split; [eexists [_; _; _; _], _; split; [reflexivity|cbn; intuition discriminate]|apply x_hex_text; vm_compute; reflexivity]|].
  eexists. split; [eexists [_; _; _; _; _], _; split; [reflexivity|cbn; intuition discriminate]|]. split; [left; split; [lia|reflexivity]|reflexivity].
Qed.
Print Assumptions C126_listunspent.
Print Assumptions C126_gettxout.

(** ** C127: hashes and addresses come back as the node meant them, other answers as they came *)

Theorem C127_block_hash : forall node pr n s t v, answers node s "getblockhash" [JInt n] (JStr t) ->
  perform node pr (GetBlockHash n) s = (Val v, after s "getblockhash" [JInt n]) <-> exists h, v = PBytes h /\ hex_text t (rev h).
Proof. exact blockhash_result. Qed.
Theorem C127_mempool : forall node pr s ts v, answers node s "getrawmempool" [] (JArr (map JStr ts)) ->
  perform node pr (GetRawMempool false) s = (Val v, after s "getrawmempool" []) <-> exists hs, v = PList (map PBytes hs) /\ Forall2 (fun t h => hex_text t (rev h)) ts hs.
Proof. exact mempool_result. Qed.
Theorem C127_sent_hash : forall node pr c args t s v, (match c with SendRawTransaction _ _ | SendToAddress _ _ => True | _ => False end) ->
  snd (perform node pr c s) = after s (method_name c) args -> answers node s (method_name c) args (JStr t) ->
  fst (perform node pr c s) = Val v <-> exists h, v = PBytes h /\ hex_text t (rev h).
Proof.
  intros node pr c args t s v C S A. rewrite (sent_hash node pr c args (JStr t) s v A S C). split; intros (h & E & H); exists h; (split; [exact E|]); apply lx_of_text, H.
Qed.
(** The address returned is the one, of the network in use, that the node's text is the text of. *)
Theorem C127_address : forall node pr c args t s v, network pr -> answers node s (method_name c) args (JStr t) -> asks pr c args ->
  (match c with GetAccountAddress _ | GetNewAddress _ | GetRawChangeAddress => True | _ => False end) ->
  perform node pr c s = (Val v, after s (method_name c) args) <-> exists a, v = PAddr a /\ addr_text pr a t.
Proof. exact address_result. Qed.
Theorem C127_validateaddress : forall node pr a t s d, network pr -> addr_text pr a t -> answers node s "validateaddress" [JStr t] (JObj d) -> NoDup (map fst d) ->
  forall pk, (~ In "pubkey" (map fst d) /\ pk = []) \/ (exists u y, holds "pubkey" (JStr u) d /\ hex_text u y /\ pk = [("pubkey", PBytes y)]) ->
  (holds "isvalid" (JBool false) d -> exists d', perform node pr (ValidateAddress a) s = (Val (PDict d'), after s "validateaddress" [JStr t]) /\ rewritten d [] pk d') /\
  (forall u b, holds "isvalid" (JBool true) d -> holds "address" (JStr u) d -> addr_text pr b u ->
    exists d', perform node pr (ValidateAddress a) s = (Val (PDict d'), after s "validateaddress" [JStr t]) /\ rewritten d [] (("address", PAddr b) :: pk) d').
Proof. exact validate_result. Qed.
Theorem C127_as_it_came : forall node pr c args j s,
  (match c with GetRawMempool true | GetTransaction _ | LockUnspent _ _ | SubmitBlock _ _ | AddNode _ | AddNodeOneTry _ | RemoveNode _ | Other _ _ => True | _ => False end) ->
  snd (perform node pr c s) = after s (method_name c) args -> answers node s (method_name c) args j -> fst (perform node pr c s) = Val (PJ j).
Proof. exact plain_result. Qed.
Example C127_instance :
  fst (perform (says (JArr [JStr "0102"; JStr "ABcd"])) mainnet (GetRawMempool false) new_proxy) = Val (PList [PBytes (hex "0201"); PBytes (hex "cdab")]) /\
  fst (perform (says (JStr "0102")) mainnet (SendToAddress payee 5) new_proxy) = Val (PBytes (hex "0201")) /\
  fst (perform (says (JStr "1A1zP1eP5QGefi2DMPTfTL5SLmv7DivfNa")) mainnet (GetNewAddress None) new_proxy) = Val (PAddr payee) /\
  fst (perform (says (JStr "1A1zP1eP5QGefi2DMPTfTL5SLmv7DivfNa")) testnet (GetNewAddress None) new_proxy) = Exc CBitcoinAddressError /\
  fst (perform (says (JObj [("isvalid", JBool true); ("address", JStr "1A1zP1eP5QGefi2DMPTfTL5SLmv7DivfNa"); ("pubkey", JStr "02aa")])) mainnet (ValidateAddress payee) new_proxy) =
    Val (PDict [("isvalid", PJ (JBool true)); ("address", PAddr payee); ("pubkey", PBytes (hex "02aa"))]) /\
  fst (perform (says (JArr [JInt 1])) mainnet (AddNode "x") new_proxy) = Val (PJ (JArr [JInt 1])).
Proof. repeat split; vm_compute; reflexivity. Qed.
Print Assumptions C127_block_hash.
Print Assumptions C127_mempool.
Print Assumptions C127_sent_hash.
Print Assumptions C127_address.
Print Assumptions C127_validateaddress.
Print Assumptions C127_as_it_came.
