(** Key exchange and private keys in lib/python-bitcoinlib/bitcoin/core/key.py (cited as key.py): [CECKey] objects, which the
    program makes itself.  OpenSSL is a parameter, as in Key_Model.v. *)
From Verif Require Import Base Sha256 Key_Model.

(** What these methods use of OpenSSL besides:
    - [ec_ecdh], key.py:88-92: ECDH_compute_key with the public point of another object, into a buffer of 32 bytes: those
      written, none if it fails;
    - [ec_i2d], key.py:75-79: i2d_ECPrivateKey;
    - [ec_d2i], key.py:67-69: d2i_ECPrivateKey: whether it succeeds, and the object after. *)
Record exchange (L : openssl) := Exchange {
  ec_ecdh : EC_KEY L -> EC_KEY L -> option bytes;
  ec_i2d : EC_KEY L -> bytes;
  ec_d2i : bytes -> EC_KEY L -> bool * EC_KEY L }.

(** What a call of key.py:87-99 gives: a key, AttributeError, or Exception. *)
Inductive agreed := Agreed (key : bytes) | NoAttribute | Failed.

Section Ex.
Context (L : openssl) (X : exchange L).

(** key.py:45-46, 53-65, 119-124: a new object, its secret and the form of its public key set. *)
Definition own_key (memory secret : bytes) (compressed : bool) : result (EC_KEY L) :=
  do k <- set_secretbytes L memory secret (ec_new L); Ok (ec_form L compressed k).
(** key.py:81-85. *)
Definition get_pubkey (k : EC_KEY L) : bytes := ec_i2o L k.
(** key.py:71-73, the object after. *)
Definition set_pubkey (b : bytes) (k : EC_KEY L) : EC_KEY L := snd (ec_o2i L b k).
(** key.py:75-79. *)
Definition get_privkey (k : EC_KEY L) : bytes := ec_i2d L X k.
(** key.py:67-69, the object after. *)
Definition set_privkey (b : bytes) (k : EC_KEY L) : EC_KEY L := snd (ec_d2i L X b k).

(** [other_pubkey] of key.py:87, 97: a CECKey has the attribute [k], a CPubKey (key.py:127-143) has none. *)
Inductive peer := PeerEC (k : EC_KEY L) | PeerPub (p : pubkey L).
(** key.py:87-94. *)
Definition get_raw_ecdh_key (k : EC_KEY L) (other : peer) : agreed :=
  match other with
  | PeerPub _ => NoAttribute
  | PeerEC o =>
    match ec_ecdh L X k o with
    | Some b => if (blen b =? 32)%N then Agreed b else Failed
    | None => Failed
    end
  end.
(** key.py:96-99. *)
Definition get_ecdh_key (k : EC_KEY L) (other : peer) (kdf : bytes -> bytes) : agreed :=
  match get_raw_ecdh_key k other with Agreed r => Agreed (kdf r) | e => e end.
(** key.py:96: the function used if none is given. *)
Definition default_kdf : bytes -> bytes := sha256.
End Ex.
