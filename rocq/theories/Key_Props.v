(** Properties C138-C144: keys, signing and spending (core/key.py, wallet.py:201-244, examples/spend-p2pkh-txout.py, examples/spend-p2sh-txout.py). *)
From Verif Require Import Base Sha256 Ripemd160 Hex_Model Tx_Model Tx_Spec Block_Model Script_Model SigHash_Model SigHash_Spec ScriptEval_Model ScriptEval_Spec ScriptVerify_Spec.
From Verif Require Import Base58_Model Base58_Spec Base58_Proofs Key_Model Key_Spec Key_Proofs KeyUse_Proofs Key_Examples.

(** The public key of what is returned, if it is a key. *)
Definition key_bytes (L : openssl) (r : result (ckey L)) : bytes := match r with Ok k => p_bytes L (pub L k) | Err _ => [] end.

(** ** C138: a key depends on its secret alone *)

(** The property: what a process has in its memory makes no difference to the key made from a secret. *)
Definition key_from_secret : Prop := forall G L, library G L -> forall m1 m2 secret c, ckey_new L m1 secret c = ckey_new L m2 secret c.
(** False: 32 bytes are read even if the secret has fewer. *)
Theorem C138_key_from_secret_refuted : ~ key_from_secret.
Proof.
  intros F. specialize (F toy_curve toy_ssl toy_library (repeat x01 32) (repeat x02 32) [x05] true). apply (f_equal (key_bytes toy_ssl)) in F.
  vm_compute in F. discriminate F.
Qed.
Print Assumptions C138_key_from_secret_refuted.
(** The same with the text of a secret: it is accepted, and the key is another one each time. *)
Theorem C138_short_secret_text_refuted : ~ (forall G L, library G L -> forall m1 m2 pr s sec, network pr -> CBitcoinSecret pr s = Ok sec ->
  secret_ckey L m1 sec = secret_ckey L m2 sec).
Proof.
  intros F. assert (E : exists s sec, CBitcoinSecret mainnet s = Ok sec /\ s_key sec = [x05] /\ s_compressed sec = false).
  { destruct (base58_from_bytes [x05] 128) as [d|] eqn:Ed; [|vm_compute in Ed; discriminate].
    destruct (base58_str d) as [s|] eqn:Es; [|vm_compute in Ed; injection Ed as <-; vm_compute in Es; discriminate].
    exists s. vm_compute in Ed. injection Ed as <-. vm_compute in Es. injection Es as <-. eexists. split; [vm_compute; reflexivity|split; reflexivity]. }
  destruct E as (s & sec & E & Ek & Ec). specialize (F toy_curve toy_ssl toy_library (repeat x01 32) (repeat x02 32) mainnet s sec (or_introl eq_refl) E).
  unfold secret_ckey in F. rewrite Ek, Ec in F. apply (f_equal (key_bytes toy_ssl)) in F. vm_compute in F. discriminate F.
Qed.
Print Assumptions C138_short_secret_text_refuted.

(** Missing: secrets of less than 31 bytes.  One of 31 bytes counts as if a zero byte followed, and from one of more than 32 bytes the rest is
    ignored. *)
Theorem C138_key_from_secret_partial : forall L m1 m2 secret c, (31 <= List.length secret)%nat ->
  ckey_new L m1 secret c = ckey_new L m2 secret c /\
  (List.length secret = 31 -> ckey_new L m1 secret c = ckey_new L m1 (secret ++ [x00]) c) /\
  (forall more, (32 <= List.length secret)%nat -> ckey_new L m1 (secret ++ more) c = ckey_new L m1 secret c).
Proof. exact secret_long. Qed.
Print Assumptions C138_key_from_secret_partial.
Example C138_instance : key_bytes toy_ssl (ckey_new toy_ssl [] toy_key true) = x02 :: xbb :: repeat x00 31 /\
  key_bytes toy_ssl (ckey_new toy_ssl (repeat x02 32) toy_key true) = x02 :: xbb :: repeat x00 31 /\ List.length toy_key = 32.
Proof. vm_compute. auto. Qed.

(** ** C139: what a key signs its public key verifies *)

Theorem C139_signs_and_verifies : forall G L, library G L -> forall mem secret p c, List.length secret = 32 -> point_of G secret = Some p ->
  exists k, ckey_new L mem secret c = Ok k /\
    p_bytes L (pub L k) = point_text G c p /\ is_valid L (pub L k) = true /\ is_fullyvalid L (pub L k) = true /\ is_compressed L (pub L k) = c /\
    (forall h r, List.length h <> 32 -> sign L k h r = Err ValueError) /\
    (forall h r, List.length h = 32 -> (exists sig, sign L k h r = Ok sig) \/ (sign L k h r = Err AssertionError /\ exists key, ec_sign L key h r = None)) /\
    (forall h r sig, sign L k h r = Ok sig -> valid_sig G p h sig /\ pub_verify L (pub L k) h sig = true /\
       forall c', pub_verify L (CPubKey L (point_text G c' p)) h sig = true) /\
    (forall h sig, pub_verify L (pub L k) h sig = true <-> valid_sig G p h sig).
Proof. exact signs_and_verifies. Qed.
Print Assumptions C139_signs_and_verifies.
(** No key is made only if OpenSSL finds no point for the secret. *)
Theorem C139_refused : forall L mem secret c, List.length secret = 32 ->
  (ckey_new L mem secret c = Err ValueError <-> ec_derive L secret (ec_new L) = None) /\
  forall e, ckey_new L mem secret c = Err e -> e = ValueError.
Proof. exact refused_secret. Qed.
Print Assumptions C139_refused.
(** The text of a secret makes the same key as its bytes, with the public key in the form that was asked for. *)
Theorem C139_from_text : forall G L, library G L -> forall mem pr secret p c, network pr -> List.length secret = 32 -> point_of G secret = Some p ->
  exists sec s k, from_secret_bytes pr secret c = Ok sec /\ secret_str sec = Ok s /\ CBitcoinSecret pr s = Ok sec /\
    secret_ckey L mem sec = Ok k /\ ckey_new L mem secret c = Ok k /\ p_bytes L (pub L k) = point_text G c p.
Proof.
  intros G L M mem pr secret p c N Ls Hp. destruct (key_from_text L mem pr secret c N Ls) as (sec & s & E1 & E2 & E3 & E4).
  destruct (signs_and_verifies G L M mem secret p c Ls Hp) as (k & E & Eb & _). exists sec, s, k. rewrite E4. auto 8.
Qed.
Print Assumptions C139_from_text.
Example C139_instance : toy_point toy_key = Some xbb /\ List.length toy_key = 32 /\
  match ckey_new toy_ssl [] toy_key false with
  | Ok k => sign toy_ssl k (sha256 [x62]) 0 = Ok (toy_sig xbb (sha256 [x62])) /\
      pub_verify toy_ssl (pub toy_ssl k) (sha256 [x62]) (toy_sig xbb (sha256 [x62])) = true /\
      pub_verify toy_ssl (pub toy_ssl k) (sha256 [x63]) (toy_sig xbb (sha256 [x62])) = false /\
      sign toy_ssl k (sha256 [x62]) 7 = Err AssertionError /\ sign toy_ssl k [x62] 0 = Err ValueError
  | Err _ => False
  end.
Proof. vm_compute. auto 8. Qed.

(** Toy secrets that have no point, and the text of one that has. *)
Example C139_refused_instance : ec_derive toy_ssl (repeat x00 32) (ec_new toy_ssl) = None /\ List.length (repeat x00 32) = 32.
Proof. vm_compute. auto. Qed.
Example C139_text_instance : exists sec, from_secret_bytes mainnet toy_key false = Ok sec /\
  secret_str sec = Ok (list_ascii_of_string "5KMWWy2d3Mjc8LojNoj8Lcz9B1aWu8bRofUgGwQk959Dw5h2iyw") /\
  key_bytes toy_ssl (secret_ckey toy_ssl [] sec) = toy_text false xbb.
Proof. eexists. split; [vm_compute; reflexivity|]. vm_compute. auto. Qed.

(** ** C140: bytes that are no public key verify nothing *)

(** The property: no signature counts for bytes that are not the text of a point. *)
Definition junk_verifies_nothing : Prop := forall G L, library G L -> forall b h sig, read_point G b = None ->
  pub_verify L (CPubKey L b) h sig = false.
(** False: that reading the bytes failed is not looked at before verifying, and nothing is said about the object after a failure. *)
Theorem C140_junk_refuted : ~ junk_verifies_nothing.
Proof.
  intros F. specialize (F toy_curve toy_ssl toy_library [x01; x02] (sha256 []) (toy_sig x00 (sha256 [])) eq_refl). vm_compute in F. discriminate F.
Qed.
Print Assumptions C140_junk_refuted.
(** The same in a script: an output for the hash of bytes that are no key can be spent. *)
Definition junk_spends_nothing : Prop := forall G L, library G L -> forall pk ss sig t i flags, wf_tx t -> read_point G pk = None ->
  cscript [IData sig; IData pk] = Ok ss -> VerifyScript (script_ecdsa L) ss (p2pkh_script (Hash160 pk)) t i flags <> Ok tt.
Definition junk_tx : tx := mkTx [mkTxIn (mkOutPoint (sha256 []) 3) [] 0xffffffff] [mkTxOut 1000 [x51]] 0 1.
Theorem C140_junk_script_refuted : ~ junk_spends_nothing.
Proof.
  intros F.
  assert (E : exists h, SignatureHash (p2pkh_script (Hash160 [x01; x02])) junk_tx 0 1 = Ok h) by (eexists; vm_compute; reflexivity). destruct E as (h & E).
  assert (E' : exists ss, cscript [IData (toy_sig x00 h ++ [x01]); IData [x01; x02]] = Ok ss) by (vm_compute in E; injection E as <-; eexists; vm_compute; reflexivity).
  destruct E' as (ss & E'). refine (F toy_curve toy_ssl toy_library [x01; x02] ss _ junk_tx 0%Z [] _ eq_refl E' _).
  - repeat constructor; cbn; try lia; cbv; congruence.
  - vm_compute in E. injection E as <-. vm_compute in E'. injection E' as <-. vm_compute. reflexivity.
Qed.
Print Assumptions C140_junk_script_refuted.

(** Missing: bytes that are no key.  [is_fullyvalid] tells them apart, and addresses are made of keys only. *)
Theorem C140_keys_partial : forall G L, library G L -> forall b,
  (is_fullyvalid L (CPubKey L b) = true <-> exists p, read_point G b = Some p) /\
  (forall p h sig, read_point G b = Some p ->
     (pub_verify L (CPubKey L b) h sig = true <-> valid_sig G p h sig) /\ (script_ecdsa L b h sig = true <-> valid_sig G p h sig)) /\
  (forall pr, network pr ->
     (forall p, read_point G b = Some p -> address_of_bytes L pr b = Ok (Address P2PKH (version_of pr P2PKH) (Hash160 b))) /\
     (read_point G b = None -> address_of_bytes L pr b = Err CBitcoinAddressError)).
Proof. exact readable_keys. Qed.
Print Assumptions C140_keys_partial.
Example C140_instance : toy_read (toy_text true xbb) = Some xbb /\ toy_read [x01; x02] = None /\
  is_fullyvalid toy_ssl (CPubKey toy_ssl (toy_text false xbb)) = true /\ is_fullyvalid toy_ssl (CPubKey toy_ssl [x01; x02]) = false /\
  is_valid toy_ssl (CPubKey toy_ssl [x01; x02]) = true.
Proof. vm_compute. auto 6. Qed.

(** ** C141: what is paid to the address of a key can be spent with that key *)

Theorem C141_address_spends : forall G L, library G L -> forall mem secret p c, List.length secret = 32 -> point_of G secret = Some p ->
  exists k, ckey_new L mem secret c = Ok k /\ forall pr, network pr ->
  exists a spk, address_of_pubkey L pr (pub L k) = Ok a /\ to_scriptPubKey pr a = Ok spk /\
  forall t i x, wf_tx t -> (i < List.length (t_vin t))%nat -> (base (Z.of_N (bN x)) = 3%Z -> (i < List.length (t_vout t))%nat) ->
  exists h, SignatureHash spk t (Z.of_nat i) (Z.of_N (bN x)) = Ok h /\ List.length h = 32 /\
  forall r sig, sign L k h r = Ok sig -> sig ++ [x] <> Hash160 (p_bytes L (pub L k)) ->
  exists ss, cscript [IData (sig ++ [x]); IData (p_bytes L (pub L k))] = Ok ss /\
  forall t' i' flags, wf_tx t' -> same_covered (Z.of_N (bN x)) t i t' i' -> VerifyScript (script_ecdsa L) ss spk t' (Z.of_nat i') flags = Ok tt.
Proof. exact paid_can_be_spent. Qed.
Print Assumptions C141_address_spends.

(** ** C142: the same with the address of a script that asks for the key *)

Theorem C142_script_spends : forall G L, library G L -> forall mem secret p c, List.length secret = 32 -> point_of G secret = Some p ->
  exists k redeem, ckey_new L mem secret c = Ok k /\ cscript [IData (p_bytes L (pub L k)); IOp 0xac] = Ok redeem /\ forall pr, network pr ->
  exists a spk, from_redeemScript pr redeem = Ok a /\ to_scriptPubKey pr a = Ok spk /\
  forall t i x, wf_tx t -> (i < List.length (t_vin t))%nat -> (base (Z.of_N (bN x)) = 3%Z -> (i < List.length (t_vout t))%nat) ->
  exists h, SignatureHash redeem t (Z.of_nat i) (Z.of_N (bN x)) = Ok h /\ List.length h = 32 /\
  forall r sig, sign L k h r = Ok sig -> sig ++ [x] <> p_bytes L (pub L k) ->
  exists ss, cscript [IData (sig ++ [x]); IData redeem] = Ok ss /\
  forall t' i' flags, wf_tx t' -> same_covered (Z.of_N (bN x)) t i t' i' -> In EvalP2SH flags ->
    VerifyScript (script_ecdsa L) ss spk t' (Z.of_nat i') flags = Ok tt.
Proof. exact script_can_be_spent. Qed.
Print Assumptions C142_script_spends.

(** A transaction with two inputs, of which the second is signed with SIGHASH_NONE and ANYONECANPAY, and one in which it is the first and the
    output is another. *)
Definition two_in : tx := mkTx [mkTxIn (mkOutPoint (repeat x01 32) 0) [x51] 7; mkTxIn (mkOutPoint (repeat x02 32) 1) [] 9] [mkTxOut 1000 [x51]] 5 1.
Definition one_in : tx := mkTx [mkTxIn (mkOutPoint (repeat x02 32) 1) [x52] 9] [mkTxOut 999 [x52; x53]] 5 1.
Example C141_instance : wf_tx two_in /\ wf_tx one_in /\ same_covered (Z.of_N (bN x82)) two_in 1 one_in 0 /\
  exists h, SignatureHash (p2pkh_script (Hash160 (toy_text true xbb))) two_in 1 0x82 = Ok h /\
  match ckey_new toy_ssl [] toy_key true with
  | Ok k => p_bytes toy_ssl (pub toy_ssl k) = toy_text true xbb /\
      match sign toy_ssl k h 0 with Ok sig => bytes_eqb (sig ++ [x82]) (Hash160 (toy_text true xbb)) = false | Err _ => False end
  | Err _ => False
  end.
Proof.
  split; [repeat constructor; cbn; try lia; cbv; congruence|]. split; [repeat constructor; cbn; try lia; cbv; congruence|]. split.
  - repeat split; try (cbv; discriminate). eexists. eexists. split; [reflexivity|]. split; [reflexivity|]. split; reflexivity.
  - eexists. split; [vm_compute; reflexivity|]. vm_compute. auto.
Qed.
Example C142_instance : exists redeem, cscript [IData (toy_text false xbb); IOp 0xac] = Ok redeem /\ List.length redeem = 67 /\
  exists h, SignatureHash redeem two_in 1 0x82 = Ok h /\
  match ckey_new toy_ssl [] toy_key false with
  | Ok k => p_bytes toy_ssl (pub toy_ssl k) = toy_text false xbb /\
      match sign toy_ssl k h 0 with Ok sig => bytes_eqb (sig ++ [x82]) (toy_text false xbb) = false | Err _ => False end
  | Err _ => False
  end.
Proof.
  eexists. split; [vm_compute; reflexivity|]. split; [reflexivity|]. eexists. split; [vm_compute; reflexivity|]. vm_compute. auto.
Qed.

(** ** C143: scriptSigs can be filled in in any order *)

(** Whether scripts verify does not depend on what the scriptSigs in the transaction are. *)
Theorem C143_any_order : forall ecdsa t t' i ss spk flags, same_but_scripts t t' ->
  VerifyScript ecdsa ss spk t' i flags = VerifyScript ecdsa ss spk t i flags.
Proof. exact VerifyScript_scripts_free. Qed.
Print Assumptions C143_any_order.
Theorem C143_filling_in : forall ecdsa t j s t' i ss spk flags, filled t j s t' ->
  VerifyScript ecdsa ss spk t' i flags = VerifyScript ecdsa ss spk t i flags.
Proof. intros ecdsa t j s t' i ss spk flags F. exact (VerifyScript_scripts_free ecdsa t t' i ss spk flags (filled_same t j s t' F)). Qed.
Print Assumptions C143_filling_in.
(** The signature hashes are the same too, so that it makes no difference either when signing. *)
Theorem C143_signing : forall t t' i s ht, same_but_scripts t t' -> SignatureHash s t' i ht = SignatureHash s t i ht.
Proof. intros t t' i s ht S. unfold SignatureHash. rewrite (Raw_same t t' s i ht S). reflexivity. Qed.
Print Assumptions C143_signing.
Example C143_instance : let t' := mkTx [mkTxIn (mkOutPoint (repeat x01 32) 0) [x53; x54] 7; mkTxIn (mkOutPoint (repeat x02 32) 1) [] 9] [mkTxOut 1000 [x51]] 5 1 in
  filled two_in 0 [x53; x54] t' /\ t' <> two_in /\ same_but_scripts two_in t'.
Proof.
  cbv zeta. split; [|split; [discriminate|repeat split]]. repeat split;
  destruct j as [|[|j]]; cbn [nth_error t_vin two_in] in *; try (destruct j; discriminate);
    repeat match goal with H : Some _ = Some _ |- _ => injection H as <- end; reflexivity.
Qed.

(** ** C144: the example programs that spend an output *)

Theorem C144_spend_p2pkh : forall G L, library G L -> forall mem rnd h p txid vout value addr c d,
  List.length h = 32 -> point_of G h = Some p -> List.length txid = 32 -> (0 <= vout < 2 ^ 32)%Z -> (- 2 ^ 63 <= value < 2 ^ 63)%Z ->
  List.length d = 20 -> address_str (Address c (version_of mainnet c) d) = Ok addr ->
  (forall k e sig, ec_sign L k e rnd = Some sig -> sig ++ [x01] <> Hash160 (point_text G true p)) ->
  (spend_p2pkh L mem rnd h txid vout value addr = Err AssertionError /\ exists k e, ec_sign L k e rnd = None) \/
  (exists t ss b, spend_p2pkh L mem rnd h txid vout value addr = Ok (to_hex b) /\ tx_de b = Ok (t, []) /\
     moves txid vout value (script_of c d) ss t /\
     forall flags, VerifyScript (script_ecdsa L) ss (p2pkh_script (Hash160 (point_text G true p))) t 0 flags = Ok tt).
Proof. exact p2pkh_program. Qed.
Print Assumptions C144_spend_p2pkh.

Theorem C144_spend_p2sh : forall G L, library G L -> forall mem rnd h p txid vout value addr c d,
  List.length h = 32 -> point_of G h = Some p -> List.length txid = 32 -> (0 <= vout < 2 ^ 32)%Z -> (- 2 ^ 63 <= value < 2 ^ 63)%Z ->
  List.length d = 20 -> address_str (Address c (version_of mainnet c) d) = Ok addr ->
  (forall k e sig, ec_sign L k e rnd = Some sig -> sig ++ [x01] <> point_text G true p) ->
  (spend_p2sh L mem rnd h txid vout value addr = Err AssertionError /\ exists k e, ec_sign L k e rnd = None) \/
  (exists t ss b payto, spend_p2sh L mem rnd h txid vout value addr = Ok (to_hex (x21 :: point_text G true p ++ [xac]), payto, to_hex b) /\
     address_str (Address P2SH (version_of mainnet P2SH) (Hash160 (x21 :: point_text G true p ++ [xac]))) = Ok payto /\
     tx_de b = Ok (t, []) /\ moves txid vout value (script_of c d) ss t /\
     VerifyScript (script_ecdsa L) ss (p2sh_script (Hash160 (x21 :: point_text G true p ++ [xac]))) t 0 [EvalP2SH] = Ok tt).
Proof. exact p2sh_program. Qed.
Print Assumptions C144_spend_p2sh.

(** The programs as they are in /repo, but for the library: the same outpoint, amount and address. *)
Example C144_instance : exists d, List.length d = 20 /\ address_str (Address P2PKH (version_of mainnet P2PKH) d) = Ok (list_ascii_of_string "1C7zdTfnkzmr13HfA2vNm5SJYRK6nEKyq8") /\
  exists s, spend_p2pkh toy_ssl [] 0 (sha256 (map byte_of_ascii (list_ascii_of_string "correct horse battery staple")))
    (rev (hex "7e195aa3de827814f172c362fcf838d92ba10e3f9fdd9c3ecaf79522b311b22d")) 0 100000 (list_ascii_of_string "1C7zdTfnkzmr13HfA2vNm5SJYRK6nEKyq8") = Ok s /\
    String.prefix "01000000012db211b32295f7ca3e9cdd9f3f0ea12bd938f8fc62c372f1147882dea35a197e00000000" s = true.
Proof.
  exists (hex "79fbfc3f34e7745860d76137da68f362380c606c"). split; [reflexivity|]. split; [vm_compute; reflexivity|]. eexists. split; [vm_compute; reflexivity|vm_compute; reflexivity].
Qed.
Example C144_p2sh_instance : List.length (hex "03f3814939dfe1b20dffc8965d547950a1493a8a") = 20 /\
  address_str (Address P2SH (version_of mainnet P2SH) (hex "03f3814939dfe1b20dffc8965d547950a1493a8a")) = Ok (list_ascii_of_string "323uf9MgLaSn9T7vDaK1cGAZ2qpvYUuqSp") /\
  exists r payto s, spend_p2sh toy_ssl [] 0 (sha256 (map byte_of_ascii (list_ascii_of_string "correct horse battery staple")))
    (rev (hex "bff785da9f8169f49be92fa95e31f0890c385bfb1bd24d6b94d7900057c617ae")) 0 50000 (list_ascii_of_string "323uf9MgLaSn9T7vDaK1cGAZ2qpvYUuqSp") = Ok (r, payto, s) /\
    hd "0"%char payto = "3"%char /\ String.prefix "0100000001ae17c6570090d7946b4dd21bfb5b380c89f0315ea92fe99bf469819fda85f7bf00000000" s = true.
Proof. split; [reflexivity|]. split; [vm_compute; reflexivity|]. eexists. eexists. eexists. split; [vm_compute; reflexivity|]. vm_compute. auto. Qed.
