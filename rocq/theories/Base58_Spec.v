(** What base58 texts, checked data, addresses and secret texts should be, apart from the
    loops that compute them. *)
From Verif Require Import Base Sha256 Ripemd160 Tx_Model Script_Model Base58_Model.
Local Open Scope string_scope.
Local Open Scope list_scope.

(** The alphabet: digits and letters without 0, O, I and l. *)
Definition alphabet : text := list_ascii_of_string "123456789ABCDEFGHJKLMNPQRSTUVWXYZabcdefghijkmnopqrstuvwxyz".

(** Text [s] denotes the number [n]: positional notation, base 58, the most significant
    digit first. *)
Inductive denotes : text -> N -> Prop :=
| denotes_nil : denotes [] 0
| denotes_snoc s n c d : denotes s n -> nth_error alphabet d = Some c ->
    denotes (s ++ [c]) (58 * n + N.of_nat d).

(** [l] is [k] copies of [x] followed by something that does not start with [x]. *)
Definition leads_with {A} (x : A) (k : nat) (l : list A) : Prop :=
  exists r, l = repeat x k ++ r /\ forall y r', r = y :: r' -> y <> x.

(** Bytes with their checksum: version, payload, the first four bytes of the double
    SHA-256 of both. *)
Definition with_checksum (v : byte) (d : bytes) : bytes := v :: d ++ firstn 4 (Hash (v :: d)).

(** The two standard scripts that have addresses. *)
Definition p2sh_script (h : bytes) : bytes := [xa9; x14] ++ h ++ [x87].
Definition p2pkh_script (h : bytes) : bytes := [x76; xa9; x14] ++ h ++ [x88; xac].

(** The version byte of an address class on a network. *)
Definition version_of (pr : prefixes) (c : addr_class) : N :=
  match c with P2SH => SCRIPT_ADDR pr | P2PKH => PUBKEY_ADDR pr end.
Definition script_of (c : addr_class) (h : bytes) : bytes :=
  match c with P2SH => p2sh_script h | P2PKH => p2pkh_script h end.

(** The networks that can be selected. *)
Definition network (pr : prefixes) : Prop := pr = mainnet \/ pr = testnet \/ pr = regtest.

(** Script [s] is the list of operations [ops]. *)
Definition has_ops (s : bytes) (ops : list cooked) : Prop := script_iter s = (ops, None).

(** Whom a script pays, for the scripts that have an address: a script hash, the hash of
    a public key, or a public key of [len] bytes directly, which is identified with the hash of the key. *)
Inductive pays (lens : list nat) (s : bytes) : addr_class -> bytes -> Prop :=
| pays_script h : s = p2sh_script h -> List.length h = 20 -> pays lens s P2SH h
| pays_key_hash h : has_ops s [COp 0x76; COp 0xa9; CData h; COp 0x88; COp 0xac] -> List.length h = 20 ->
    pays lens s P2PKH h
| pays_key pk : has_ops s [CData pk; COp 0xac] -> In (List.length pk) lens -> pays lens s P2PKH (Hash160 pk).

(** The two lengths of a public key. *)
Definition key_lengths : list nat := [33; 65].
