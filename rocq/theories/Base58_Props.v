(** Properties C67 to C72: base58 texts, checked data, addresses, their scripts, secrets. *)
From Verif Require Import Base Sha256 Ripemd160 Tx_Model Script_Model Base58_Model Base58_Spec Base58_Proofs.
Local Open Scope string_scope.
Local Open Scope list_scope.
Local Open Scope N_scope.

Definition txt := list_ascii_of_string.

(** ** C67 *)

(** Every byte string has a text, in base 58 the same number, with as many leading '1's as
    leading zero bytes, and it decodes to the byte string. *)
Theorem C67_base58_encode : forall b,
  b58decode (b58encode b) = Ok b /\ denotes (b58encode b) (le_dec (rev b)) /\
  exists k, leads_with x00 k b /\ leads_with "1"%char k (b58encode b).
Proof. intros b. split; [apply encode_decode|apply encode_meaning]. Qed.
Print Assumptions C67_base58_encode.

Example C67_encode_instance : b58encode (hex "0000ff") = txt "115Q" /\ le_dec (rev (hex "0000ff")) = 255 /\ leads_with x00 2 (hex "0000ff") /\
  leads_with "1"%char 2 (txt "115Q").
Proof.
  split; [vm_compute; reflexivity|]. split; [vm_compute; reflexivity|]. split.
  - exists [xff]. split; [reflexivity|]. intros y r' E. injection E as <- _. discriminate.
  - exists (txt "5Q"). split; [reflexivity|]. intros y r' E. injection E as <- _. discriminate.
Qed.

(** Every text of base58 characters is the text of exactly one byte string, any other text
    is refused. *)
Theorem C67_base58_decode : forall s,
  (Forall (fun c => In c alphabet) s -> exists b, b58decode s = Ok b /\ b58encode b = s /\
     forall b', b58encode b' = s -> b' = b) /\
  (~ Forall (fun c => In c alphabet) s -> b58decode s = Err InvalidBase58Error).
Proof.
  intros s. split; [|apply decode_bad]. intros H. destruct (decode_encode s H) as (b & E & E').
  exists b. split; [exact E|]. split; [exact E'|]. intros b' Hb. pose proof (encode_decode b') as D. rewrite Hb in D. congruence.
Qed.
Print Assumptions C67_base58_decode.

Example C67_instance :
  b58encode (hex "00010966776006953d5567439e5e39f86a0d273beed61967f6") = txt "16UwLL9Risc3QfPqBUvKofHmBQ7wMtjvM" /\
  b58decode (txt "16UwLL9Risc3QfPqBUvKofHmBQ7wMtjvM") = Ok (hex "00010966776006953d5567439e5e39f86a0d273beed61967f6") /\
  b58decode (txt "111") = Ok [x00; x00; x00] /\ b58decode (txt "1l1") = Err InvalidBase58Error.
Proof. repeat apply conj; vm_compute; reflexivity. Qed.

(** ** C68 *)

Theorem C68_checked_data_roundtrip : forall n d, n < 256 ->
  exists s, base58_str (B58 n d) = Ok s /\ CBase58Data s = Ok (B58 n d).
Proof. exact base58_text_roundtrip. Qed.
Print Assumptions C68_checked_data_roundtrip.

(** The full claim, that an accepted text is the text of the data it yields, is false: four
    bytes are read as version byte and checksum at the same time. *)
Theorem C68_checked_data_canonical_refuted : exists s x, CBase58Data s = Ok x /\ base58_str x <> Ok s.
Proof.
  exists (txt "3y6uvf"), (B58 116 []). split; [vm_compute; reflexivity|].
  intros E. apply (f_equal (fun r => match r with Ok t => List.length t | Err _ => O end)) in E. vm_compute in E. discriminate.
Qed.
Print Assumptions C68_checked_data_canonical_refuted.

(** Missing from the full claim: texts of four bytes. *)
Theorem C68_checked_data_canonical_partial : forall s n d, (forall k, b58encode k = s -> List.length k <> 4%nat) ->
  CBase58Data s = Ok (B58 n d) <-> exists v, n = bN v /\ s = b58encode (with_checksum v d).
Proof.
  intros s n d H. rewrite base58_accepts. unfold checked. split.
  - intros (v & -> & [->|(_ & c & Hc & ->)]); [exists v; split; reflexivity|]. exfalso.
    apply (H (v :: c) eq_refl). rewrite <- Hc. apply hash4.
  - intros (v & -> & ->). exists v. split; [reflexivity|left; reflexivity].
Qed.
Print Assumptions C68_checked_data_canonical_partial.

(** The texts accepted, and why the others are refused. *)
Theorem C68_checked_data_accepted : forall s n d, CBase58Data s = Ok (B58 n d) <->
  exists v, n = bN v /\ (s = b58encode (with_checksum v d) \/
    d = [] /\ exists c, firstn 4 (Hash [v]) = v :: c /\ s = b58encode (v :: c)).
Proof. exact base58_accepts. Qed.
Print Assumptions C68_checked_data_accepted.

(** The text of four bytes that are version byte and checksum at once. *)
Example C68_accepted_instance : CBase58Data (txt "3y6uvf") = Ok (B58 116 []) /\ exists c, firstn 4 (Hash [x74]) = x74 :: c /\
  txt "3y6uvf" = b58encode (x74 :: c).
Proof. split; [vm_compute; reflexivity|]. eexists. split; [vm_compute; reflexivity|vm_compute; reflexivity]. Qed.

Theorem C68_checked_data_refused : forall s e, CBase58Data s = Err e ->
  (e = InvalidBase58Error /\ ~ Forall (fun c => In c alphabet) s) \/
  (e = Base58ChecksumError /\ Forall (fun c => In c alphabet) s /\ forall v d, s <> b58encode (with_checksum v d)).
Proof.
  intros s e H. apply base58_rejects in H as [H|(-> & F & N)]; [left; exact H|]. right. split; [reflexivity|]. split; [exact F|].
  intros v d E. apply (N v d). left. exact E.
Qed.
Print Assumptions C68_checked_data_refused.

Example C68_refused_instance : CBase58Data (txt "1A1zP1eP5QGefi2DMPTfTL5SLmv7DivfNb") = Err Base58ChecksumError /\
  CBase58Data (txt "0O") = Err InvalidBase58Error.
Proof. split; vm_compute; reflexivity. Qed.

Example C68_instance :
  base58_str (B58 0 (hex "62e907b15cbf27d5425399ebf6f0fb50ebb88f18")) = Ok (txt "1A1zP1eP5QGefi2DMPTfTL5SLmv7DivfNa") /\
  CBase58Data (txt "1A1zP1eP5QGefi2DMPTfTL5SLmv7DivfNa") = Ok (B58 0 (hex "62e907b15cbf27d5425399ebf6f0fb50ebb88f18")) /\
  CBase58Data (txt "1A1zP1eP5QGefi2DMPTfTL5SLmv7DivfNb") = Err Base58ChecksumError.
Proof. repeat apply conj; vm_compute; reflexivity. Qed.
Example C68_partial_instance : forall k, b58encode k = txt "1A1zP1eP5QGefi2DMPTfTL5SLmv7DivfNa" -> List.length k <> 4%nat.
Proof.
  intros k E. pose proof (encode_decode k) as D. rewrite E in D. intros L.
  apply (f_equal (fun r => match r with Ok b => List.length b | Err _ => O end)) in D. rewrite L in D. vm_compute in D. discriminate.
Qed.

(** ** C69 *)

(** Address to text and back, whatever the payload. *)
Theorem C69_address_text_roundtrip : forall pr c d, network pr ->
  exists s, address_str (Address c (version_of pr c) d) = Ok s /\ CBitcoinAddress pr s = Ok (Address c (version_of pr c) d).
Proof. exact address_text_roundtrip. Qed.
Print Assumptions C69_address_text_roundtrip.

Example C69_roundtrip_instance : network testnet /\ exists s,
  address_str (Address P2SH (version_of testnet P2SH) (hex "4266fc6f2c2861d7fe229b279a79803afca7ba34")) = Ok s /\
  CBitcoinAddress testnet s = Ok (Address P2SH 196 (hex "4266fc6f2c2861d7fe229b279a79803afca7ba34")).
Proof. split; [unfold network; tauto|]. eexists. split; [vm_compute; reflexivity|vm_compute; reflexivity]. Qed.

(** Text to address and back: an accepted text has a version of this network, the class
    belonging to it, and is what the address prints. *)
Theorem C69_address_text_accepted : forall pr s a, network pr -> CBitcoinAddress pr s = Ok a ->
  a_nVersion a = version_of pr (a_class a) /\ address_str a = Ok s.
Proof. exact address_accepted. Qed.
Print Assumptions C69_address_text_accepted.

Theorem C69_address_networks : forall s a, CBitcoinAddress mainnet s = Ok a ->
  CBitcoinAddress testnet s = Err CBitcoinAddressError /\ CBitcoinAddress regtest s = Err CBitcoinAddressError.
Proof. exact address_networks. Qed.
Print Assumptions C69_address_networks.

Example C69_networks_instance : CBitcoinAddress mainnet (txt "1A1zP1eP5QGefi2DMPTfTL5SLmv7DivfNa") = Ok (Address P2PKH 0 (hex "62e907b15cbf27d5425399ebf6f0fb50ebb88f18")) /\
  CBitcoinAddress testnet (txt "1A1zP1eP5QGefi2DMPTfTL5SLmv7DivfNa") = Err CBitcoinAddressError.
Proof. split; vm_compute; reflexivity. Qed.

Theorem C69_address_errors : forall pr s e, CBitcoinAddress pr s = Err e ->
  e = InvalidBase58Error \/ e = Base58ChecksumError \/ e = CBitcoinAddressError.
Proof. exact address_errors. Qed.
Print Assumptions C69_address_errors.

Example C69_errors_instance : CBitcoinAddress mainnet (txt "1A1zP1eP5QGefi2DMPTfTL5SLmv7DivfN") = Err Base58ChecksumError /\
  CBitcoinAddress mainnet (txt "I") = Err InvalidBase58Error /\ CBitcoinAddress mainnet (txt "3y6uvf") = Err CBitcoinAddressError.
Proof. repeat apply conj; vm_compute; reflexivity. Qed.

Example C69_instance :
  CBitcoinAddress mainnet (txt "1A1zP1eP5QGefi2DMPTfTL5SLmv7DivfNa") = Ok (Address P2PKH 0 (hex "62e907b15cbf27d5425399ebf6f0fb50ebb88f18")) /\
  CBitcoinAddress mainnet (txt "37k7toV1Nv4DfmQbmZ8KuZDQCYK9x5KpzP") = Ok (Address P2SH 5 (hex "4266fc6f2c2861d7fe229b279a79803afca7ba34")) /\
  CBitcoinAddress testnet (txt "37k7toV1Nv4DfmQbmZ8KuZDQCYK9x5KpzP") = Err CBitcoinAddressError.
Proof. repeat apply conj; vm_compute; reflexivity. Qed.

(** ** C70 *)

(** The full claim, for every address accepted as text, is false: the length of the payload
    is not checked, and the script made from it is not recognized. *)
Theorem C70_address_script_refuted : exists s a spk, CBitcoinAddress mainnet s = Ok a /\
  to_scriptPubKey mainnet a = Ok spk /\ from_scriptPubKey mainnet spk = Err CBitcoinAddressError.
Proof.
  exists (txt "1Wh4bh"), (Address P2PKH 0 []), (hex "76a90088ac").
  repeat split; vm_compute; reflexivity.
Qed.
Print Assumptions C70_address_script_refuted.

(** Missing from the full claim: payloads that are not 20 bytes long. *)
Theorem C70_address_script_partial : forall pr c h, network pr -> List.length h = 20%nat -> exists s,
  to_scriptPubKey pr (Address c (version_of pr c) h) = Ok s /\ s = script_of c h /\
  from_scriptPubKey pr s = Ok (Address c (version_of pr c) h).
Proof. exact address_script_roundtrip. Qed.
Print Assumptions C70_address_script_partial.

(** The other way round: what a script converts to always has a 20 byte payload, so its
    script is the standard one. *)
Theorem C70_script_address_script : forall pr s a, network pr -> from_scriptPubKey pr s = Ok a ->
  to_scriptPubKey pr a = Ok (script_of (a_class a) (a_data a)) /\
  from_scriptPubKey pr (script_of (a_class a) (a_data a)) = Ok a.
Proof.
  intros pr s a Hn H. destruct (from_script_sound pr s a Hn H) as [Ev _]. pose proof (address_data_length pr s a Hn H) as L.
  destruct a as [c n d]. cbn [a_class a_nVersion a_data] in *. subst n.
  destruct (address_script_roundtrip pr c d Hn L) as (t & Et & -> & Ef). split; [exact Et|exact Ef].
Qed.
Print Assumptions C70_script_address_script.

Example C70_back_instance : from_scriptPubKey mainnet (hex "76a94c1462e907b15cbf27d5425399ebf6f0fb50ebb88f1888ac") = Ok (Address P2PKH 0 (hex "62e907b15cbf27d5425399ebf6f0fb50ebb88f18")) /\
  script_of P2PKH (hex "62e907b15cbf27d5425399ebf6f0fb50ebb88f18") = hex "76a91462e907b15cbf27d5425399ebf6f0fb50ebb88f1888ac".
Proof. split; vm_compute; reflexivity. Qed.

(** The address of a redeem script is that of its pay-to-script-hash script; a redeem script
    that could not be spent is refused. *)
Theorem C70_redeem_script : forall pr r, network pr ->
  (blen r <= 520 -> from_redeemScript pr r = Ok (Address P2SH (SCRIPT_ADDR pr) (Hash160 r)) /\
     to_scriptPubKey pr (Address P2SH (SCRIPT_ADDR pr) (Hash160 r)) = Ok (p2sh_script (Hash160 r))) /\
  (520 < blen r -> from_redeemScript pr r = Err ValueError).
Proof.
  intros pr r Hn. split; [|apply redeem_too_long]. intros L. destruct (redeem_address pr r Hn L) as [E _].
  split; [exact E|]. apply (to_script pr P2SH (Hash160 r) (Hash160_length r)).
Qed.
Print Assumptions C70_redeem_script.

Example C70_redeem_instance : blen (repeat x51 520) <= 520 /\ is_ok (from_redeemScript mainnet (repeat x51 520)) = true /\
  from_redeemScript mainnet (repeat x51 521) = Err ValueError.
Proof. split; [vm_compute; discriminate|]. split; vm_compute; reflexivity. Qed.

(** An address kept across a change of network makes no script of the other network. *)
Theorem C70_other_network : forall c h, to_scriptPubKey testnet (Address c (version_of mainnet c) h) = Err AssertionError /\
  to_scriptPubKey mainnet (Address c (version_of testnet c) h) = Err AssertionError.
Proof. intros [] h; split; reflexivity. Qed.
Print Assumptions C70_other_network.

Example C70_instance :
  to_scriptPubKey mainnet (Address P2PKH 0 (hex "62e907b15cbf27d5425399ebf6f0fb50ebb88f18")) = Ok (hex "76a91462e907b15cbf27d5425399ebf6f0fb50ebb88f1888ac") /\
  from_scriptPubKey mainnet (hex "76a9144c1462e907b15cbf27d5425399ebf6f0fb50ebb88f1888ac") = Err CBitcoinAddressError /\
  from_scriptPubKey mainnet (hex "76a94c1462e907b15cbf27d5425399ebf6f0fb50ebb88f1888ac") = Ok (Address P2PKH 0 (hex "62e907b15cbf27d5425399ebf6f0fb50ebb88f18")) /\
  from_redeemScript mainnet (hex "51") = Ok (Address P2SH 5 (hex "da1745e9b549bd0bfa1a569971c77eba30cd5a4b")).
Proof. repeat apply conj; vm_compute; reflexivity. Qed.

(** ** C71 *)

(** The public key of the first block. *)
Definition genesis_key : bytes :=
  hex "04678afdb0fe5548271967f1a67130b7105cd6a828e03909a67962e0ea1f61deb649f6bc3f4cef38c4f35504e51ec112de5c384df7ba0b8d578a4c702b6bf11d5f".

(** The full claim is false of keys of 65 bytes: the address is the hash of the first 64. *)
Theorem C71_payee_refuted : exists s h, pays key_lengths s P2PKH h /\
  exists a, from_scriptPubKey mainnet s = Ok a /\ a_data a <> h.
Proof.
  exists (x41 :: genesis_key ++ [xac]), (Hash160 genesis_key). split.
  - apply pays_key; [vm_compute; reflexivity|]. right. left. vm_compute. reflexivity.
  - exists (Address P2PKH 0 (hex "ff3ee379b02940f5237e090471934ee24f906c69")). split; [vm_compute; reflexivity|].
    cbn [a_data]. intros E. apply (f_equal (fun l => hd x00 l)) in E. vm_compute in E. discriminate.
Qed.
Print Assumptions C71_payee_refuted.

(** Missing from the full claim: scripts that pay a key of 65 bytes. *)
Theorem C71_payee_partial : forall pr s c h, network pr -> pays [33%nat] s c h ->
  from_scriptPubKey pr s = Ok (Address c (version_of pr c) h).
Proof. intros pr s c h Hn. apply from_script_complete, Hn. Qed.
Print Assumptions C71_payee_partial.

Theorem C71_payee_only_partial : forall pr s a, network pr -> from_scriptPubKey pr s = Ok a ->
  a_nVersion a = version_of pr (a_class a) /\
  (pays [33%nat] s (a_class a) (a_data a) \/
   a_class a = P2PKH /\ exists pk, has_ops s [CData pk; COp 0xac] /\ List.length pk = 65%nat /\ a_data a = Hash160 (firstn 64 pk)).
Proof. exact from_script_sound. Qed.
Print Assumptions C71_payee_only_partial.

Example C71_only_instance : from_scriptPubKey mainnet (x41 :: genesis_key ++ [xac]) = Ok (Address P2PKH 0 (hex "ff3ee379b02940f5237e090471934ee24f906c69")) /\
  Hash160 (firstn 64 genesis_key) = hex "ff3ee379b02940f5237e090471934ee24f906c69".
Proof. split; vm_compute; reflexivity. Qed.

Theorem C71_payee_errors : forall pr s e, network pr -> from_scriptPubKey pr s = Err e -> e = CBitcoinAddressError.
Proof. exact from_script_errors. Qed.
Print Assumptions C71_payee_errors.

Example C71_errors_instance : from_scriptPubKey mainnet (hex "76a914") = Err CBitcoinAddressError /\
  from_scriptPubKey mainnet [] = Err CBitcoinAddressError.
Proof. split; vm_compute; reflexivity. Qed.

(** With both liberties switched off, exactly the standard script is accepted. *)
Theorem C71_payee_strict : forall pr s a, network pr -> p2pkh_from_scriptPubKey pr false false s = Ok a <->
  exists h, List.length h = 20%nat /\ s = p2pkh_script h /\ a = Address P2PKH (PUBKEY_ADDR pr) h.
Proof. exact strict_exact. Qed.
Print Assumptions C71_payee_strict.

Example C71_strict_instance :
  p2pkh_from_scriptPubKey mainnet false false (hex "76a91462e907b15cbf27d5425399ebf6f0fb50ebb88f1888ac") = Ok (Address P2PKH 0 (hex "62e907b15cbf27d5425399ebf6f0fb50ebb88f18")) /\
  is_ok (p2pkh_from_scriptPubKey mainnet false false (hex "76a94c1462e907b15cbf27d5425399ebf6f0fb50ebb88f1888ac")) = false.
Proof. split; vm_compute; reflexivity. Qed.

Example C71_instance : pays [33%nat] (x21 :: x02 :: repeat xaa 32 ++ [xac]) P2PKH (Hash160 (x02 :: repeat xaa 32)) /\
  pays [33%nat] (hex "76a94c1462e907b15cbf27d5425399ebf6f0fb50ebb88f1888ac") P2PKH (hex "62e907b15cbf27d5425399ebf6f0fb50ebb88f18") /\
  pays [33%nat] (hex "a9144266fc6f2c2861d7fe229b279a79803afca7ba3487") P2SH (hex "4266fc6f2c2861d7fe229b279a79803afca7ba34").
Proof.
  split; [|split].
  - apply pays_key; [vm_compute; reflexivity|left; reflexivity].
  - apply pays_key_hash; [vm_compute; reflexivity|reflexivity].
  - apply pays_script; reflexivity.
Qed.

(** ** C72 *)

Theorem C72_secret_text_roundtrip : forall pr k c, network pr -> List.length k = 32%nat -> exists sec s,
  from_secret_bytes pr k c = Ok sec /\ s_key sec = k /\ s_compressed sec = c /\ secret_str sec = Ok s /\ CBitcoinSecret pr s = Ok sec.
Proof. exact secret_text. Qed.
Print Assumptions C72_secret_text_roundtrip.

Theorem C72_secret_text_accepted : forall pr s sec, network pr -> CBitcoinSecret pr s = Ok sec ->
  s_nVersion sec = SECRET_KEY pr /\ secret_str sec = Ok s /\ s_key sec = firstn 32 (s_bytes sec) /\
  (s_compressed sec = true <-> nth_error (s_bytes sec) 32 = Some x01).
Proof. exact secret_accepted. Qed.
Print Assumptions C72_secret_text_accepted.

(** A compressed one. *)
Example C72_accepted_instance : exists s, base58_str (B58 128 (repeat x07 32 ++ [x01])) = Ok s /\
  CBitcoinSecret mainnet s = Ok (Secret 128 (repeat x07 32 ++ [x01]) (repeat x07 32) true).
Proof. eexists. split; [vm_compute; reflexivity|vm_compute; reflexivity]. Qed.

Theorem C72_secret_errors : forall pr s e, CBitcoinSecret pr s = Err e ->
  e = InvalidBase58Error \/ e = Base58ChecksumError \/ e = CBitcoinSecretError.
Proof. exact secret_errors. Qed.
Print Assumptions C72_secret_errors.

Example C72_errors_instance : CBitcoinSecret mainnet (txt "1A1zP1eP5QGefi2DMPTfTL5SLmv7DivfNa") = Err CBitcoinSecretError /\
  CBitcoinSecret mainnet (txt "0") = Err InvalidBase58Error /\ CBitcoinSecret mainnet (txt "11111") = Err Base58ChecksumError.
Proof. repeat apply conj; vm_compute; reflexivity. Qed.

(** The full claim, that an accepted text holds a 32 byte secret, is false. *)
Theorem C72_secret_length_refuted : exists s sec, CBitcoinSecret mainnet s = Ok sec /\ List.length (s_key sec) <> 32%nat.
Proof.
  destruct (base58_text_roundtrip 128 [x01; x02] ltac:(reflexivity)) as (s & _ & E).
  exists s, (Secret 128 [x01; x02] [x01; x02] false). split; [|discriminate].
  unfold CBitcoinSecret. rewrite E. reflexivity.
Qed.
Print Assumptions C72_secret_length_refuted.

Example C72_instance :
  CBitcoinSecret mainnet (txt "5KJvsngHeMpm884wtkJNzQGaCErckhHJBGFsvd3VyK5qMZXj3hS") =
    Ok (Secret 128 (hex "c4bbcb1fbec99d65bf59d85c8cb62ee2db963f0fe106f483d9afa73bd4e39a8a") (hex "c4bbcb1fbec99d65bf59d85c8cb62ee2db963f0fe106f483d9afa73bd4e39a8a") false).
Proof. vm_compute. reflexivity. Qed.
