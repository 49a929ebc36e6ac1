(** Executable model of keys and signing: lib/python-bitcoinlib/bitcoin/core/key.py (cited as key.py) and
    the class CKey of lib/python-bitcoinlib/bitcoin/wallet.py (wallet.py); and of the programs
    lib/python-bitcoinlib/examples/spend-p2pkh-txout.py (p2pkh.py) and spend-p2sh-txout.py (p2sh.py).
    OpenSSL is a parameter: one function for every group of its functions that key.py calls.
    get_privkey, set_privkey and the ECDH functions (key.py:67-69, 75-79, 87-99) are in KeyEx_Model.v. *)
From Verif Require Import Base Sha256 Ripemd160 Hex_Model Tx_Model Block_Model Script_Model SigHash_Model ScriptEval_Model Base58_Model.

(** What key.py uses of OpenSSL; an [EC_KEY] is the state of the object [self.k] points to.
    - [ec_new], key.py:45-46: EC_KEY_new_by_curve_name, which is taken to succeed;
    - [ec_derive], key.py:54-62: BN_bin2bn of 32 bytes, EC_POINT_mul, which may fail, EC_KEY_set_private_key and
      EC_KEY_set_public_key;
    - [ec_form], key.py:119-124: EC_KEY_set_conv_form, [true] for compressed;
    - [ec_i2o], key.py:81-85: i2o_ECPublicKey;
    - [ec_o2i], key.py:71-73: o2i_ECPublicKey: whether it succeeds, and the object after;
    - [ec_sign], key.py:108-113: ECDSA_sign, which draws random numbers (the last argument) and may fail;
    - [ec_verify], key.py:117: ECDSA_verify. *)
Record openssl := OpenSSL {
  EC_KEY : Type;
  ec_new : EC_KEY;
  ec_derive : bytes -> EC_KEY -> option EC_KEY;
  ec_form : bool -> EC_KEY -> EC_KEY;
  ec_i2o : EC_KEY -> bytes;
  ec_o2i : bytes -> EC_KEY -> bool * EC_KEY;
  ec_sign : EC_KEY -> bytes -> N -> option bytes;
  ec_verify : EC_KEY -> bytes -> bytes -> Z }.

Section Key.
Context (L : openssl).

(** key.py:53-65 [set_secretbytes].  BN_bin2bn reads 32 bytes from the address of the bytes object: those of a
    shorter one are followed by a zero byte and then by whatever [memory] holds. *)
Definition set_secretbytes (memory secret : bytes) (k : EC_KEY L) : result (EC_KEY L) :=
  match ec_derive L (firstn 32 (secret ++ x00 :: memory)) k with Some k => Ok k | None => Err ValueError end.

(** key.py:127-154: a [CPubKey], its bytes, its [_cec_key] and [is_fullyvalid]. *)
Record pubkey := PubKey { p_bytes : bytes; p_key : EC_KEY L; is_fullyvalid : bool }.
(** key.py:137-143 [CPubKey.__new__] with the object [k] given as [_cec_key]. *)
Definition pubkey_of (buf : bytes) (k : EC_KEY L) : pubkey :=
  let '(ok, k) := ec_o2i L buf k in PubKey buf k ok.
(** key.py:137-143 without [_cec_key]. *)
Definition CPubKey (buf : bytes) : pubkey := pubkey_of buf (ec_new L).
(** key.py:145-147. *)
Definition is_valid (p : pubkey) : bool := (0 <? blen (p_bytes p))%N.
(** key.py:149-151. *)
Definition is_compressed (p : pubkey) : bool := (blen (p_bytes p) =? 33)%N.
(** key.py:115-117 [CECKey.verify]. *)
Definition ec_verifies (k : EC_KEY L) (hash sig : bytes) : bool := (ec_verify L k hash sig =? 1)%Z.
(** key.py:153-154. *)
Definition pub_verify (p : pubkey) (hash sig : bytes) : bool := ec_verifies (p_key p) hash sig.

(** wallet.py:201-222: a [CKey]; its [_cec_key] is that of [pub]. *)
Record ckey := CKey { pub : pubkey }.
(** wallet.py:210-215 [CKey.__init__]. *)
Definition ckey_new (memory secret : bytes) (compressed : bool) : result ckey :=
  do k <- set_secretbytes memory secret (ec_new L);
  let k := ec_form L compressed k in
  Ok (CKey (pubkey_of (ec_i2o L k) k)).
(** wallet.py:221-222 and key.py:101-113 [sign]; an argument that is not bytes is left out.  [rnd]: the random numbers. *)
Definition sign (k : ckey) (hash : bytes) (rnd : N) : result bytes :=
  if negb (blen hash =? 32)%N then Err ValueError
  else match ec_sign L (p_key (pub k)) hash rnd with Some s => Ok s | None => Err AssertionError end.

(** wallet.py:239-244: the last step of making a [CBitcoinSecret], [CKey.__init__]. *)
Definition secret_ckey (memory : bytes) (s : secret) : result ckey := ckey_new memory (s_key s) (s_compressed s).

(** wallet.py:127-145 [P2PKHBitcoinAddress.from_pubkey(pubkey)] with a CPubKey, which is not made again. *)
Definition address_of_pubkey (pr : prefixes) (p : pubkey) : result address :=
  if is_fullyvalid p then from_pubkey pr (p_bytes p) else Err CBitcoinAddressError.
(** The same with other bytes.  wallet.py:139-140: they are made a CPubKey first. *)
Definition address_of_bytes (pr : prefixes) (b : bytes) : result address := address_of_pubkey pr (CPubKey b).

(** scripteval.py:116-134: the object made for a public key by [_CheckSig], and its [verify]. *)
Definition script_ecdsa (pk hash sig : bytes) : bool := ec_verifies (snd (ec_o2i L pk (ec_new L))) hash sig.

(** p2pkh.py:70, p2sh.py:84: [txin.scriptSig = s]; [txin] is the only input of the transaction. *)
Definition fill_in (t : tx) (s : bytes) : tx :=
  mkTx (set_nth_script (t_vin t) 0 s) (t_vout t) (t_nLockTime t) (t_nVersion t).

(** p2pkh.py:29-79, with the secret, outpoint, amount and address as parameters: the hex text printed. *)
Definition spend_p2pkh (memory : bytes) (rnd : N) (h : bytes) (txid : bytes) (vout : Z) (value : Z) (addr : text) : result string :=
  do sec <- from_secret_bytes mainnet h true;
  do seckey <- secret_ckey memory sec;
  do prevout <- outpoint_new txid vout;
  do txin <- txin_new prevout [] 0xffffffff;
  do txin_scriptPubKey <- cscript [IOp 0x76; IOp 0xa9; IData (Hash160 (p_bytes (pub seckey))); IOp 0x88; IOp 0xac];
  do a <- CBitcoinAddress mainnet addr;
  do spk <- to_scriptPubKey mainnet a;
  do t <- tx_new [txin] [mkTxOut value spk] 0 1;
  do sighash <- SignatureHash txin_scriptPubKey t 0 1;
  do s <- sign seckey sighash rnd;
  let sig := s ++ [x01] in
  do scriptSig <- cscript [IData sig; IData (p_bytes (pub seckey))];
  let t := fill_in t scriptSig in
  do _ <- VerifyScript script_ecdsa scriptSig txin_scriptPubKey t 0 [EvalP2SH];
  do b <- tx_ser t;
  Ok (b2x b).

(** p2sh.py:29-93: the redeem script in hex, the address printed after "Pay to:", and the transaction in hex. *)
Definition spend_p2sh (memory : bytes) (rnd : N) (h : bytes) (txid : bytes) (vout : Z) (value : Z) (addr : text) : result (string * text * string) :=
  do sec <- from_secret_bytes mainnet h true;
  do seckey <- secret_ckey memory sec;
  do redeem <- cscript [IData (p_bytes (pub seckey)); IOp 0xac];
  do txin_scriptPubKey <- to_p2sh_scriptPubKey true redeem;
  do txin_address <- from_scriptPubKey mainnet txin_scriptPubKey;
  do payto <- address_str txin_address;
  do prevout <- outpoint_new txid vout;
  do txin <- txin_new prevout [] 0xffffffff;
  do a <- CBitcoinAddress mainnet addr;
  do spk <- to_scriptPubKey mainnet a;
  do t <- tx_new [txin] [mkTxOut value spk] 0 1;
  do sighash <- SignatureHash redeem t 0 1;
  do s <- sign seckey sighash rnd;
  let sig := s ++ [x01] in
  do scriptSig <- cscript [IData sig; IData redeem];
  let t := fill_in t scriptSig in
  do _ <- VerifyScript script_ecdsa scriptSig txin_scriptPubKey t 0 [EvalP2SH];
  do b <- tx_ser t;
  Ok (b2x redeem, payto, b2x b).
End Key.
