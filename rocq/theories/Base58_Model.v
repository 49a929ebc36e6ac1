(** Executable model of lib/python-bitcoinlib/bitcoin/base58.py (cited as base58.py),
    of the addresses and secrets of lib/python-bitcoinlib/bitcoin/wallet.py (wallet.py)
    and of the address prefixes of lib/python-bitcoinlib/bitcoin/__init__.py. *)
From Verif Require Import Base PySlice Sha256 Ripemd160 Tx_Model Script_Model.
Local Open Scope string_scope.
Local Open Scope list_scope.

(** A Python str (the argument and the result in base58.py:41-92).  Characters above U+00FF are not represented; decode treats them
    like any other character that is not a digit. *)
Definition text := list ascii.

(** base58.py:29 [B58_DIGITS]. *)
Definition B58_DIGITS : text := list_ascii_of_string "123456789ABCDEFGHJKLMNPQRSTUVWXYZabcdefghijkmnopqrstuvwxyz".

(** base58.py:45 [int('0x0' + hexlify(b), 16)]: the bytes as a big-endian number. *)
Definition be_int (b : bytes) : N := fold_left (fun n c => n * 256 + bN c)%N b 0%N.

(** The digits of [n] to a base, the least significant first.  [n] halves at least in
    each round, so the number of its bits is fuel enough.  base58.py:48-50 for base 58
    (the loop), and the digits of '%x' (82) for base 16. *)
Fixpoint divmod_digits (base : N) (fuel : nat) (n : N) : list N :=
  match fuel with
  | O => []
  | S f => if (n =? 0)%N then [] else (n mod base)%N :: divmod_digits base f (n / base)
  end.
(** base58.py:51 [B58_DIGITS[r]], always in range. *)
Definition b58_digit (r : N) : ascii := nth (N.to_nat r) B58_DIGITS "0"%char.

(** base58.py:59-64: the leading zeros of [b]. *)
Fixpoint count_zeros (b : bytes) : nat :=
  match b with c :: b' => if (bN c =? 0)%N then S (count_zeros b') else 0 | [] => 0 end.

(** base58.py:41-65 [encode]. *)
Definition b58encode (b : bytes) : text :=
  let n := be_int b in
  let res := map b58_digit (rev (divmod_digits 58 (N.size_nat n) n)) in
  repeat "1"%char (count_zeros b) ++ res.

(** base58.py:76-78 [B58_DIGITS.index(c)], None when [c not in B58_DIGITS]. *)
Fixpoint index_from (i : N) (c : ascii) (l : text) : option N :=
  match l with
  | [] => None
  | x :: l' => if Ascii.eqb x c then Some i else index_from (i + 1) c l'
  end.
(** base58.py:76-78 [B58_DIGITS.index(c)]. *)
Definition b58_index (c : ascii) : option N := index_from 0 c B58_DIGITS.

(** base58.py:73-79: the text as a number, an exception at the first bad character. *)
Fixpoint b58_int (n : N) (s : text) : result N :=
  match s with
  | [] => Ok n
  | c :: s' =>
    match b58_index c with
    | None => Err InvalidBase58Error
    | Some d => b58_int (n * 58 + d) s'
    end
  end.

(** base58.py:82-84: the values of the digits of [n] in hex, as '%x' prints them, and the
    padding to an even number. *)
Definition hex_of_int (n : N) : list N :=
  if (n =? 0)%N then [0%N] else rev (divmod_digits 16 (N.size_nat n) n).
(** base58.py:83-84: the padding to an even number of digits. *)
Definition even_digits (h : list N) : list N :=
  if Nat.odd (List.length h) then 0%N :: h else h.
(** base58.py:85 [binascii.unhexlify]; binascii.Error is a ValueError. *)
Fixpoint unhexlify_digits (h : list N) : result bytes :=
  match h with
  | [] => Ok []
  | [_] => Err ValueError
  | a :: b :: r => do bs <- unhexlify_digits r; Ok (Nb (16 * a + b) :: bs)
  end.

(** base58.py:88-91: the leading '1's. *)
Fixpoint count_ones (s : text) : nat :=
  match s with c :: s' => if Ascii.eqb c "1"%char then S (count_ones s') else 0 | [] => 0 end.

(** base58.py:67-92 [decode]. *)
Definition b58decode (s : text) : result bytes :=
  match s with
  | [] => Ok []
  | _ :: _ =>
    do n <- b58_int 0 s;
    do res <- unhexlify_digits (even_digits (hex_of_int n));
    let pad := count_ones (removelast s) in
    Ok (repeat x00 pad ++ res)
  end.

(** base58.py:99-147: a [CBase58Data], its bytes and its nVersion. *)
Record b58data := B58 { d_nVersion : N; d_data : bytes }.

(** base58.py:122-130 [CBase58Data.from_bytes]; nVersion is an int, a negative one is
    rejected like one above 255 and not represented. *)
Definition base58_from_bytes (data : bytes) (nVersion : N) : result b58data :=
  if (nVersion <=? 255)%N then Ok (B58 nVersion data) else Err ValueError.

(** base58.py:104-111 [CBase58Data.__new__], where [from_bytes] is that of the class. *)
Definition base58_new {A} (from_bytes : bytes -> N -> result A) (s : text) : result A :=
  do k <- b58decode s;
  do verbyte <- py_slice k (Slice (Some 0%Z) (Some 1%Z) None);
  do data <- py_slice k (Slice (Some 1%Z) (Some (-4)%Z) None);
  do check0 <- py_slice k (Slice (Some (-4)%Z) None None);
  let check1 := firstn 4 (Hash (verbyte ++ data)) in
  if negb (bytes_eqb check0 check1) then Err Base58ChecksumError
  else
    match verbyte with
    | v :: _ => from_bytes data (bN v)
    | [] => Err IndexError
    end.
(** base58.py:104-111: [CBase58Data(s)]. *)
Definition CBase58Data : text -> result b58data := base58_new base58_from_bytes.

(** base58.py:139-143 [__str__]; [_bchr] raises for a version that is no byte. *)
Definition base58_str (d : b58data) : result text :=
  do v <- pybyte (d_nVersion d);
  let vs := v :: d_data d in
  let check := firstn 4 (Hash vs) in
  Ok (b58encode (vs ++ check)).

(** lib/python-bitcoinlib/bitcoin/__init__.py:25-27, 35-37, 44-46 [BASE58_PREFIXES]. *)
Record prefixes := Prefixes { PUBKEY_ADDR : N; SCRIPT_ADDR : N; SECRET_KEY : N }.
(** lib/python-bitcoinlib/bitcoin/__init__.py:25-27. *)
Definition mainnet : prefixes := Prefixes 0 5 128.
(** lib/python-bitcoinlib/bitcoin/__init__.py:35-37. *)
Definition testnet : prefixes := Prefixes 111 196 239.
(** lib/python-bitcoinlib/bitcoin/__init__.py:44-46. *)
Definition regtest : prefixes := Prefixes 111 196 239.

(** wallet.py:34-199: an address is checked data of one of two classes. *)
Inductive addr_class := P2SH | P2PKH.
(** wallet.py:34-199: an address; [nVersion] and the bytes are those of CBase58Data (base58.py:113-129). *)
Record address := Address { a_class : addr_class; a_nVersion : N; a_data : bytes }.

(** wallet.py:37-50 [CBitcoinAddress.from_bytes]; [pr] is [bitcoin.params.BASE58_PREFIXES]
    at the time of the call, here and below. *)
Definition address_from_bytes (pr : prefixes) (data : bytes) (nVersion : N) : result address :=
  do self <- base58_from_bytes data nVersion;
  if (nVersion =? SCRIPT_ADDR pr)%N then Ok (Address P2SH (d_nVersion self) (d_data self))
  else if (nVersion =? PUBKEY_ADDR pr)%N then Ok (Address P2PKH (d_nVersion self) (d_data self))
  else Err CBitcoinAddressError.

(** [CBitcoinAddress(s)]: base58.py:104-111 with the from_bytes of wallet.py:37-50. *)
Definition CBitcoinAddress (pr : prefixes) : text -> result address :=
  base58_new (address_from_bytes pr).

(** wallet.py:77-86 [P2SHBitcoinAddress.from_bytes]. *)
Definition p2sh_from_bytes (pr : prefixes) (data : bytes) (nVersion : N) : result address :=
  if negb (nVersion =? SCRIPT_ADDR pr)%N then Err ValueError
  else address_from_bytes pr data nVersion.
(** wallet.py:115-124 [P2PKHBitcoinAddress.from_bytes]. *)
Definition p2pkh_from_bytes (pr : prefixes) (data : bytes) (nVersion : N) : result address :=
  if negb (nVersion =? PUBKEY_ADDR pr)%N then Err ValueError
  else address_from_bytes pr data nVersion.

(** [str] of an address: base58.py:139-143. *)
Definition address_str (a : address) : result text := base58_str (B58 (a_nVersion a) (a_data a)).

(** wallet.py:96-107 [P2SHBitcoinAddress.from_scriptPubKey]. *)
Definition p2sh_from_scriptPubKey (pr : prefixes) (spk : bytes) : result address :=
  if is_p2sh spk then
    do d <- py_slice spk (Slice (Some 2%Z) (Some 22%Z) None);
    p2sh_from_bytes pr d (SCRIPT_ADDR pr)
  else Err CBitcoinAddressError.

(** lib/python-bitcoinlib/bitcoin/core/script.py:513-527: an item yielded by iterating a
    script, as an item to build a script from. *)
Definition item_of (c : cooked) : sitem :=
  match c with CData d => IData d | CInt z => IInt z | COp op => IOp op end.

(** wallet.py:157-164: the script rebuilt from its items, CScriptInvalidError and its
    subclass CScriptTruncatedPushDataError turned into CBitcoinAddressError. *)
Definition canonicalize (spk : bytes) : result bytes :=
  match script_iter spk with
  | (items, None) => cscript (map item_of items)
  | (_, Some CScriptInvalidError) | (_, Some CScriptTruncatedPushDataError) => Err CBitcoinAddressError
  | (_, Some e) => Err e
  end.

(** wallet.py:167-187, 244: [s[i]] compared with a byte value; evaluated only where [i] is in range. *)
Definition byte_at (s : bytes) (i : nat) (v : N) : bool := (bN (nth i s x00) =? v)%N.

(** wallet.py:127-145 [from_pubkey] with accept_invalid=True, the only use here; the
    validity check of a key is OpenSSL's. *)
Definition from_pubkey (pr : prefixes) (pubkey : bytes) : result address :=
  p2pkh_from_bytes pr (Hash160 pubkey) (PUBKEY_ADDR pr).

(** wallet.py:147-194 [P2PKHBitcoinAddress.from_scriptPubKey]; the two flags. *)
Definition p2pkh_from_scriptPubKey (pr : prefixes) (accept_non_canonical accept_bare : bool) (spk : bytes) : result address :=
  do s <- (if accept_non_canonical then canonicalize spk else Ok spk);
  if (blen s =? 25)%N && byte_at s 0 0x76 && byte_at s 1 0xa9 && byte_at s 2 0x14 && byte_at s 23 0x88 && byte_at s 24 0xac then
    do d <- py_slice s (Slice (Some 3%Z) (Some 23%Z) None);
    p2pkh_from_bytes pr d (PUBKEY_ADDR pr)
  else if accept_bare then
    if (blen s =? 35)%N && byte_at s 0 0x21 && byte_at s 34 0xac then
      do pubkey <- py_slice s (Slice (Some 1%Z) (Some 34%Z) None); from_pubkey pr pubkey
    else if (blen s =? 67)%N && byte_at s 0 0x41 && byte_at s 66 0xac then
      do pubkey <- py_slice s (Slice (Some 1%Z) (Some 65%Z) None); from_pubkey pr pubkey
    else Err CBitcoinAddressError
  else Err CBitcoinAddressError.

(** wallet.py:52-70 [CBitcoinAddress.from_scriptPubKey]. *)
Definition from_scriptPubKey (pr : prefixes) (spk : bytes) : result address :=
  match p2sh_from_scriptPubKey pr spk with
  | Err CBitcoinAddressError =>
    match p2pkh_from_scriptPubKey pr true true spk with
    | Err CBitcoinAddressError => Err CBitcoinAddressError
    | r => r
    end
  | r => r
  end.

(** wallet.py:109-112 and 196-199 [to_scriptPubKey] of the two classes. *)
Definition to_scriptPubKey (pr : prefixes) (a : address) : result bytes :=
  match a_class a with
  | P2SH =>
    do _ <- assert (a_nVersion a =? SCRIPT_ADDR pr)%N;
    cscript [IOp 0xa9; IData (a_data a); IOp 0x87]
  | P2PKH =>
    do _ <- assert (a_nVersion a =? PUBKEY_ADDR pr)%N;
    cscript [IOp 0x76; IOp 0xa9; IData (a_data a); IOp 0x88; IOp 0xac]
  end.

(** lib/python-bitcoinlib/bitcoin/core/script.py:736-750 [to_p2sh_scriptPubKey] and
    wallet.py:88-94 [from_redeemScript]. *)
Definition to_p2sh_scriptPubKey (checksize : bool) (s : bytes) : result bytes :=
  if checksize && (520 <? blen s)%N then Err ValueError
  else cscript [IOp 0xa9; IData (Hash160 s); IOp 0x87].
(** wallet.py:88-94 [from_redeemScript]. *)
Definition from_redeemScript (pr : prefixes) (redeem : bytes) : result address :=
  do spk <- to_p2sh_scriptPubKey true redeem;
  p2sh_from_scriptPubKey pr spk.

(** wallet.py:201-244: a [CBitcoinSecret] is checked data with the secret and the
    compressed flag passed to CKey; deriving the public key is OpenSSL's and left out. *)
Record secret := Secret { s_nVersion : N; s_bytes : bytes; s_key : bytes; s_compressed : bool }.

(** wallet.py:239-244 [CBitcoinSecret.__init__]. *)
Definition secret_init (pr : prefixes) (d : b58data) : result secret :=
  if negb (d_nVersion d =? SECRET_KEY pr)%N then Err CBitcoinSecretError
  else
    do k <- py_slice (d_data d) (Slice (Some 0%Z) (Some 32%Z) None);
    Ok (Secret (d_nVersion d) (d_data d) k ((32 <? blen (d_data d))%N && byte_at (d_data d) 32 1)).

(** wallet.py:231-237 [from_secret_bytes]. *)
Definition from_secret_bytes (pr : prefixes) (sec : bytes) (compressed : bool) : result secret :=
  do d <- base58_from_bytes (sec ++ (if compressed then [x01] else [])) (SECRET_KEY pr);
  secret_init pr d.

(** [CBitcoinSecret(s)]: __new__ of base58.py:104-111, then __init__. *)
Definition CBitcoinSecret (pr : prefixes) (s : text) : result secret :=
  do d <- CBase58Data s; secret_init pr d.
(** [str] of a secret: base58.py:139-143. *)
Definition secret_str (s : secret) : result text := base58_str (B58 (s_nVersion s) (s_bytes s)).
