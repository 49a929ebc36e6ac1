(** Properties C145 and C146: examples/make-bootstrap-rpc.py and examples/timestamp-op-ret.py. *)
From Verif Require Import Base Sha256 Tx_Model Tx_Spec Block_Model Base58_Model Base58_Spec Base58_Proofs Hex_Model Money_Spec Grammar_Spec Grammar_Proofs Net_Model Net_Spec Net_Proofs
  Rpc_Model Rpc_Spec Rpc_Proofs RpcUse_Proofs Conf_Model Conf_Spec Conf_Proofs ConfUse_Proofs Prog_Model Prog_Spec Prog_Proofs.
From Coq Require Import ZifyBool ZifyNat ZifyN.
#[local] Open Scope string_scope.
#[local] Open Scope list_scope.

(** ** C145: the bootstrap file *)

(** The property: asked for the blocks up to a height, the program writes the file of just these blocks of the node's chain, in order, for the network
    named, and asks the node for nothing else. *)
Definition bootstrap_writes_chain : Prop := forall ip_ok node conf stopped argv n c conn hashes blocks,
  asks_for argv n c -> raw_proxy ip_ok (prefixes_of c) None None conf = Ok conn -> keeps node hashes blocks -> (0 <= n < Z.of_nat (List.length blocks))%Z ->
  let r := make_bootstrap ip_ok node conf stopped argv in let m := Z.to_nat (n + 1) in
  r_end r = Val tt /\ boot_file c (firstn m blocks) (r_out r) /\ r_sent r = boot_requests 1 0 (firstn m hashes).

(** A node with two blocks, a configuration file for it, and the command line for its chain. *)
Definition first_block : block := mkBlock (mkHeader 1 (repeat x00 32) (repeat x01 32) 1231006505 0x1d00ffff 2083236893) [].
Definition second_block : block :=
  mkBlock (mkHeader 2 (repeat xaa 32) (repeat x02 32) 1231469665 0x1d00ffff 7) [mkTx [mkTxIn (mkOutPoint (repeat x00 32) 0xffffffff) [x51] 0xffffffff] [mkTxOut 5000 [x52; x53]] 0 1].
Definition encoded (b : block) : bytes := match block_ser b with Ok e => e | Err _ => [] end.
Definition ok_reply (j : json) : reply := Answer (JObj [("result", j); ("error", JNull); ("id", JInt 1)]).
Definition error_reply : reply := Answer (JObj [("result", JNull); ("error", JObj [("code", JInt (-8)); ("message", JStr "Block height out of range")]); ("id", JInt 1)]).
(** A node that looks at the last request only. *)
Definition by_last (f : string -> list json -> reply) : list json -> reply := fun l =>
  match last l JNull with JObj [_; (_, JStr name); (_, JArr args); _] => f name args | _ => NoReply end.
Definition two_blocks : list json -> reply := by_last (fun name args =>
  match args with
  | [JInt 0] => ok_reply (hash_text (repeat xaa 32))
  | [JInt 1] => ok_reply (hash_text (repeat xbb 32))
  | [JStr t; JBool false] => ok_reply (bytes_text (encoded (if String.eqb t (to_hex (repeat xaa 32)) then first_block else second_block)))
  | _ => error_reply
  end).
Definition node_conf : text := txt "rpcuser=u" ++ LF :: txt "rpcpassword=p".
Definition up_to_1 : list text := [txt "1"; txt "testnet"].

Lemma by_last_answers f s name args j : f name args = ok_reply j -> answers (by_last f) s name args j.
Proof.
  intros E. eexists. unfold reply_to, by_last. rewrite last_last. cbn [request]. split; [exact E|]. split.
  - eexists. split; [reflexivity|]. eexists [_], _. split; [reflexivity|]. cbn. intuition discriminate.
  - eexists. split; [reflexivity|]. eexists [], _. split; [reflexivity|]. intros [].
Qed.
Lemma two_blocks_keep : keeps two_blocks [repeat xaa 32; repeat xbb 32] [first_block; second_block].
Proof.
  split; [reflexivity|]. split.
  - intros s i h b H B. destruct i as [|[|i]]; cbn in H, B; [| |destruct i; discriminate].
    all: injection H as <-; injection B as <-. all: split; [apply by_last_answers; reflexivity|].
    + exists (encoded first_block). split; [apply (reads_all _ _ _ _ block_reads); vm_compute; reflexivity|]. split; [vm_compute; discriminate|]. apply by_last_answers. reflexivity.
    + exists (encoded second_block). split; [apply (reads_all _ _ _ _ block_reads); vm_compute; reflexivity|]. split; [vm_compute; discriminate|]. apply by_last_answers. reflexivity.
  - intros s i L. cbn [List.length] in L. exists (JObj [("code", JInt (-8)); ("message", JStr "Block height out of range")]). split.
    + exists (JObj [("result", JNull); ("error", JObj [("code", JInt (-8)); ("message", JStr "Block height out of range")]); ("id", JInt 1)]). split; [|split; [|discriminate]].
      * unfold reply_to, two_blocks, by_last. rewrite last_last. cbn [request]. destruct (Z.of_nat i) as [|[p|p|]|p] eqn:E; try lia; reflexivity.
      * eexists. split; [reflexivity|]. eexists [_], _. split; [reflexivity|]. cbn. intuition discriminate.
    + do 2 eexists. split; eexists; (split; [reflexivity|]).
      * eexists [_], _. split; [reflexivity|]. cbn. intuition discriminate.
      * eexists [], _. split; [reflexivity|]. intros [].
Qed.
Lemma up_to_1_asks : asks_for up_to_1 1 Testnet.
Proof. exists (txt "1"). split; [discriminate|]. split; [|right; reflexivity]. apply (ConfUse_Proofs.number_read 1 (txt "1")); [lia|reflexivity]. Qed.

(** False: the speed is printed for each block, and if the clock shows no time to have passed the program divides by zero. *)
Theorem C145_bootstrap_refuted : ~ bootstrap_writes_chain.
Proof.
  intros F. assert (exists conn, raw_proxy (fun _ => true) testnet None None (Some node_conf) = Ok conn) as [conn P] by (eexists; vm_compute; reflexivity).
  destruct (F (fun _ => true) two_blocks (Some node_conf) (fun _ => true) up_to_1 1%Z Testnet conn _ _ up_to_1_asks P two_blocks_keep) as [E _]; [cbn; lia|].
  vm_compute in E. discriminate.
Qed.
Print Assumptions C145_bootstrap_refuted.

(** Missing: clocks that show the time of the start when a block has come. *)
Theorem C145_bootstrap_partial : forall ip_ok node conf stopped argv n c conn hashes blocks, (forall i, stopped i = false) ->
  asks_for argv n c -> raw_proxy ip_ok (prefixes_of c) None None conf = Ok conn -> keeps node hashes blocks -> (0 <= n < Z.of_nat (List.length blocks))%Z ->
  let r := make_bootstrap ip_ok node conf stopped argv in let m := Z.to_nat (n + 1) in
  r_end r = Val tt /\ boot_file c (firstn m blocks) (r_out r) /\ r_sent r = boot_requests 1 0 (firstn m hashes).
Proof. exact bootstrap_chain. Qed.
Print Assumptions C145_bootstrap_partial.
(** If the chain is shorter than asked for, the program writes all of it and ends with IndexError. *)
Theorem C145_short_chain : forall ip_ok node conf stopped argv n c conn hashes blocks, (forall i, stopped i = false) ->
  asks_for argv n c -> raw_proxy ip_ok (prefixes_of c) None None conf = Ok conn -> keeps node hashes blocks -> (Z.of_nat (List.length blocks) <= n)%Z ->
  let r := make_bootstrap ip_ok node conf stopped argv in let k := Z.of_nat (List.length blocks) in
  r_end r = Exc IndexError /\ boot_file c blocks (r_out r) /\ r_sent r = boot_requests 1 0 hashes ++ [request (2 * k + 1) "getblockhash" [JInt k]].
Proof. exact bootstrap_short. Qed.
Print Assumptions C145_short_chain.
(** Whatever node, clock, configuration and arguments, the program writes a file of blocks; the start bytes of one more record follow it only if the program
    ends with struct.error, the block being too long for its length to be written.  If it ends normally it has written as many blocks as it was asked for. *)
Theorem C145_always_a_file : forall ip_ok node conf stopped argv, let r := make_bootstrap ip_ok node conf stopped argv in
  exists c bs f tail, r_out r = f ++ tail /\ boot_file c bs f /\ (tail = [] \/ (tail = magic c /\ r_end r = Exc StructError)) /\
    (r_end r = Val tt -> tail = [] /\ forall n c', asks_for argv n c' -> c' = c /\ (-1 <= n -> Z.of_nat (List.length bs) = n + 1)%Z).
Proof. exact bootstrap_any. Qed.
Print Assumptions C145_always_a_file.
(** A file is that of one list of blocks only. *)
Theorem C145_file_determines_blocks : forall c bs bs' f, boot_file c bs f -> boot_file c bs' f -> bs' = bs.
Proof. intros c bs bs' f F F'. exact (boot_file_inj c bs f F bs' F'). Qed.
Print Assumptions C145_file_determines_blocks.

Example C145_instance : asks_for up_to_1 1 Testnet /\ keeps two_blocks [repeat xaa 32; repeat xbb 32] [first_block; second_block] /\
  let r := make_bootstrap (fun _ => true) two_blocks (Some node_conf) (fun _ => false) up_to_1 in
  r_end r = Val tt /\ List.length (r_out r) = 4 + 4 + 81 + 4 + 4 + 144 /\ firstn 8 (r_out r) = [x0b; x11; x09; x07; x51; x00; x00; x00] /\
  boot_file Testnet [first_block; second_block] (r_out r) /\
  r_end (make_bootstrap (fun _ => true) two_blocks (Some node_conf) (fun _ => false) [txt "5"]) = Exc IndexError /\
  r_end (make_bootstrap (fun _ => true) two_blocks (Some node_conf) (fun _ => false) [txt "five"]) = Exc SystemExit.
Proof.
  split; [exact up_to_1_asks|]. split; [exact two_blocks_keep|].
  assert (exists conn, raw_proxy (fun _ => true) testnet None None (Some node_conf) = Ok conn) as [conn P] by (eexists; vm_compute; reflexivity).
  destruct (C145_bootstrap_partial (fun _ => true) two_blocks (Some node_conf) (fun _ => false) up_to_1 1 Testnet conn _ _ (fun _ => eq_refl) up_to_1_asks P two_blocks_keep) as (E & F & _); [cbn; lia|].
  split; [exact E|]. split; [vm_compute; reflexivity|]. split; [vm_compute; reflexivity|]. split; [exact F|]. split; vm_compute; reflexivity.
Qed.

(** ** C146: timestamps *)

(** The property: with a node that has a wallet with something in it, the program publishes for each of the files named a transaction that commits to it. *)
Definition timestamps_published : Prop := forall ip_ok node conf conn files names,
  raw_proxy ip_ok mainnet None None conf = Ok conn -> wallet node -> names <> [] -> (forall f, In f names -> exists b, files f = Contents b) ->
  let r := timestamp ip_ok node conf files names in
  r_end r = Val tt /\ forall f b, In f names -> files f = Contents b -> published (r_sent r) (Hash b).

(** A wallet. *)
Definition owned : list (string * json) :=
  [("txid", JStr "000102030405060708090a0b0c0d0e0f101112131415161718191a1b1c1d1e1f"); ("vout", JInt 1); ("address", JStr "1A1zP1eP5QGefi2DMPTfTL5SLmv7DivfNa");
   ("scriptPubKey", JStr "76a91462e907b15cbf27d5425399ebf6f0fb50ebb88f1888ac"); ("amount", JDec (Dec 7 (-2)))].
Definition owner : Base58_Model.address := Address P2PKH 0 (hex "62e907b15cbf27d5425399ebf6f0fb50ebb88f18").
Definition a_tx : tx := mkTx [] [mkTxOut (-1) (hex "51")] 5 1.
Definition a_wallet : list json -> reply := by_last (fun name args =>
  if String.eqb name "listunspent" then ok_reply (JArr [JObj owned])
  else if String.eqb name "getnewaddress" then ok_reply (JStr "1A1zP1eP5QGefi2DMPTfTL5SLmv7DivfNa")
  else if String.eqb name "validateaddress" then
    ok_reply (JObj [("isvalid", JBool true); ("address", hd JNull args); ("pubkey", JStr "020000000000000000000000000000000000000000000000000000000000000001")])
  else if String.eqb name "signrawtransaction" then ok_reply (JObj [("hex", bytes_text (hex "010000000001ffffffffffffffff015105000000")); ("complete", JBool true)])
  else ok_reply (hash_text (repeat xaa 32))).
Lemma owned_unspent : unspent mainnet owned (mkOutPoint (rev (hex "000102030405060708090a0b0c0d0e0f101112131415161718191a1b1c1d1e1f")) 1, owner,
  hex "76a91462e907b15cbf27d5425399ebf6f0fb50ebb88f1888ac", 7000000%Z).
Proof.
  unfold unspent. split; [repeat constructor; cbn; intuition discriminate|]. split; [reflexivity|]. split; [cbn; lia|].
  split; [eexists; split; [eexists [], _; split; [reflexivity|intros []]|apply x_hex_text; vm_compute; reflexivity]|].
  split; [eexists [_], _; split; [reflexivity|cbn; intuition discriminate]|].
  split; [eexists; split; [eexists [_; _], _; split; [reflexivity|cbn; intuition discriminate]|apply address_text_iff; [left; reflexivity|vm_compute; reflexivity]]|].
  split; [eexists; split; [eexists [_; _; _], _; split; [reflexivity|cbn; intuition discriminate]|apply x_hex_text; vm_compute; reflexivity]|].
  eexists. split; [eexists [_; _; _; _], _; split; [reflexivity|cbn; intuition discriminate]|]. split; [left; split; [lia|reflexivity]|reflexivity].
Qed.
Lemma a_wallet_ok : wallet a_wallet.
Proof.
  intros s. split; [|split; [|split; [|split]]].
  - exists [owned]. eexists. split; [discriminate|]. split; [constructor; [exact owned_unspent|constructor]|]. apply by_last_answers. reflexivity.
  - exists "1A1zP1eP5QGefi2DMPTfTL5SLmv7DivfNa", owner. split; [apply address_text_iff; [left; reflexivity|vm_compute; reflexivity]|]. apply by_last_answers. reflexivity.
  - intros t a T. do 3 eexists. split; [apply by_last_answers; reflexivity|]. split; [repeat constructor; cbn; intuition discriminate|].
    split; [eexists [], _; split; [reflexivity|intros []]|]. split; [eexists [_], _; split; [reflexivity|cbn; intuition discriminate]|].
    split; [eexists [_; _], _; split; [reflexivity|cbn; intuition discriminate]|]. split; [apply x_hex_text; vm_compute; reflexivity|reflexivity].
  - intros b. exists a_tx. eexists. split; [|apply by_last_answers; reflexivity]. apply (reads_all _ _ _ _ tx_reads). vm_compute. reflexivity.
  - intros b. exists (repeat xaa 32). apply by_last_answers. reflexivity.
Qed.
Definition one_file : string -> found := fun f => if String.eqb f "a.txt" then Contents [x61; x62] else NotFound.

(** False: the program fails with NameError for the first digest, at a name it does not import. *)
Theorem C146_timestamps_refuted : ~ timestamps_published.
Proof.
  intros F. assert (exists conn, raw_proxy (fun _ => true) mainnet None None (Some node_conf) = Ok conn) as [conn P] by (eexists; vm_compute; reflexivity).
  destruct (F (fun _ => true) a_wallet (Some node_conf) conn one_file ["a.txt"] P a_wallet_ok) as [E _]; [discriminate|intros f [<-|[]]; eexists; reflexivity|].
  vm_compute in E. discriminate.
Qed.
Print Assumptions C146_timestamps_refuted.

(** What holds of every run: it publishes nothing, asks the node for nothing but its unspent outputs, an address and the public key of that, at most once, prints
    nothing, and ends normally only if none of the names given is that of a file it can read. *)
Theorem C146_timestamps_partial : forall ip_ok node conf files names, let r := timestamp ip_ok node conf files names in
  (forall digest, ~ published (r_sent r) digest) /\ r_out r = [] /\ List.length (r_sent r) <= 3 /\
  Forall (fun q => exists k name args, q = request k name args /\ In name ["listunspent"; "getnewaddress"; "validateaddress"]) (r_sent r) /\
  (r_end r = Val tt -> names <> [] /\ r_sent r = [] /\ Forall (fun f => files f = Unreadable) names).
Proof.
  intros ip_ok node conf files names. cbv zeta. destruct (timestamp_any ip_ok node conf files names) as (O & L & S & V). split; [|auto].
  intros digest (k & b & t & o & I0 & _). rewrite Forall_forall in S. destruct (S _ I0) as (k' & name & args & E & N). assert (name = "sendrawtransaction") as -> by (unfold request in E; congruence).
  cbn in N. intuition discriminate.
Qed.
Print Assumptions C146_timestamps_partial.
(** With a wallet and files, it fails with NameError after these three requests. *)
Theorem C146_always_fails : forall ip_ok node conf conn files names, raw_proxy ip_ok mainnet None None conf = Ok conn -> wallet node -> names <> [] ->
  (forall f, In f names -> exists b, files f = Contents b) ->
  let r := timestamp ip_ok node conf files names in
  r_end r = Exc NameError /\ exists t a, addr_text mainnet a t /\
    r_sent r = [request 1 "listunspent" [JInt 0; JInt 9999999]; request 2 "getnewaddress" []; request 3 "validateaddress" [JStr t]].
Proof. exact timestamp_fails. Qed.
Print Assumptions C146_always_fails.
Example C146_instance : wallet a_wallet /\ List.length (r_sent (timestamp (fun _ => true) a_wallet (Some node_conf) one_file ["a.txt"])) = 3 /\
  r_end (timestamp (fun _ => true) a_wallet (Some node_conf) one_file ["b.txt"]) = Exc OSError /\
  r_end (timestamp (fun _ => true) a_wallet (Some node_conf) (fun _ => Unreadable) ["b"]) = Val tt.
Proof. split; [exact a_wallet_ok|]. vm_compute. auto. Qed.
