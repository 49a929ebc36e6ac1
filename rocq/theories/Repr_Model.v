(** Executable model of the printed forms (repr and str) of the objects of python-bitcoinlib and
    python-proofmarshal: lib/python-bitcoinlib/bitcoin/core/__init__.py (core.py),
    lib/python-bitcoinlib/bitcoin/core/script.py (script.py), lib/python-bitcoinlib/bitcoin/core/key.py
    (key.py), lib/python-bitcoinlib/bitcoin/base58.py (base58.py), lib/python-proofmarshal/proofmarshal/bits.py
    (bits.py) and lib/python-proofmarshal/proofmarshal/serialize.py (serialize.py).  Python 3 only. *)
From Verif Require Import Base Tx_Model Script_Model Block_Model Hex_Model Money_Model Base58_Model Bits_Model.

(** ** Pieces of text *)

(** A text literal.  Such as 'COutPoint()' in core.py:149. *)
Definition T (s : string) : text := list_ascii_of_string s.

(** The hexadecimal digits of a number in lower case, as %x prints them (core.py:208, 435). *)
Fixpoint hexdigits (fuel : nat) (n : N) : text :=
  match fuel with
  | O => []
  | S fuel' => if (n <? 16)%N then [hexdigit n] else hexdigits fuel' (n / 16) ++ [hexdigit (n mod 16)]
  end.
(** [%x].  core.py:208; script.py:94. *)
Definition fmt_x (z : Z) : text :=
  let d := hexdigits (S (N.to_nat (N.size (Z.abs_N z)))) (Z.abs_N z) in
  if (z <? 0)%Z then "-"%char :: d else d.
(** [%08x] of a number that is not negative.  core.py:435. *)
Definition fmt_08x (z : Z) : text := let d := fmt_x z in repeat "0"%char (8 - List.length d) ++ d.

(** Python's ', '.join(l) (script.py:659) and ','.join(l) (bits.py:65). *)
Fixpoint join (sep : text) (l : list text) : text :=
  match l with
  | [] => []
  | [a] => a
  | a :: l' => a ++ sep ++ join sep l'
  end.

(** repr of a tuple, given the reprs of its items: one item is followed by a comma.  core.py:340. *)
Definition tuple_repr (l : list text) : text :=
  match l with
  | [a] => T "(" ++ a ++ T ",)"
  | _ => T "(" ++ join (T ", ") l ++ T ")"
  end.
(** repr of a list, given the reprs of its items.  core.py:340, when the transaction is mutable. *)
Definition list_repr (l : list text) : text := T "[" ++ join (T ", ") l ++ T "]".

(** One byte in the repr of a bytes object between the quotes [q].  key.py:163. *)
Definition byte_repr (q : ascii) (b : byte) : text :=
  let c := ascii_of_N (bN b) in
  if (Ascii.eqb c q || Ascii.eqb c "\")%bool then ["\"%char; c]
  else if (bN b =? 9)%N then T "\t" else if (bN b =? 10)%N then T "\n" else if (bN b =? 13)%N then T "\r"
  else if ((bN b <? 32) || (127 <=? bN b))%N then T "\x" ++ [hexdigit (bN b / 16); hexdigit (bN b mod 16)]
  else [c].
(** repr of a bytes object: double quotes only if there is a single and no double quote in it.  key.py:163. *)
Definition bytes_repr (b : bytes) : text :=
  let has c := existsb (fun y => Ascii.eqb (ascii_of_N (bN y)) c) b in
  let q := if (has "'"%char && negb (has """"%char))%bool then """"%char else "'"%char in
  "b"%char :: q :: flat_map (byte_repr q) b ++ [q].

(** ** Scripts *)

(** script.py:249-366 [OPCODE_NAMES]. *)
Definition OPCODE_NAMES : list (N * string) := [
  (0x00, "OP_0"); (0x4c, "OP_PUSHDATA1"); (0x4d, "OP_PUSHDATA2"); (0x4e, "OP_PUSHDATA4");
  (0x4f, "OP_1NEGATE"); (0x50, "OP_RESERVED"); (0x51, "OP_1"); (0x52, "OP_2"); (0x53, "OP_3");
  (0x54, "OP_4"); (0x55, "OP_5"); (0x56, "OP_6"); (0x57, "OP_7"); (0x58, "OP_8"); (0x59, "OP_9");
  (0x5a, "OP_10"); (0x5b, "OP_11"); (0x5c, "OP_12"); (0x5d, "OP_13"); (0x5e, "OP_14"); (0x5f, "OP_15");
  (0x60, "OP_16"); (0x61, "OP_NOP"); (0x62, "OP_VER"); (0x63, "OP_IF"); (0x64, "OP_NOTIF");
  (0x65, "OP_VERIF"); (0x66, "OP_VERNOTIF"); (0x67, "OP_ELSE"); (0x68, "OP_ENDIF"); (0x69, "OP_VERIFY");
  (0x6a, "OP_RETURN"); (0x6b, "OP_TOALTSTACK"); (0x6c, "OP_FROMALTSTACK"); (0x6d, "OP_2DROP");
  (0x6e, "OP_2DUP"); (0x6f, "OP_3DUP"); (0x70, "OP_2OVER"); (0x71, "OP_2ROT"); (0x72, "OP_2SWAP");
  (0x73, "OP_IFDUP"); (0x74, "OP_DEPTH"); (0x75, "OP_DROP"); (0x76, "OP_DUP"); (0x77, "OP_NIP");
  (0x78, "OP_OVER"); (0x79, "OP_PICK"); (0x7a, "OP_ROLL"); (0x7b, "OP_ROT"); (0x7c, "OP_SWAP");
  (0x7d, "OP_TUCK"); (0x7e, "OP_CAT"); (0x7f, "OP_SUBSTR"); (0x80, "OP_LEFT"); (0x81, "OP_RIGHT");
  (0x82, "OP_SIZE"); (0x83, "OP_INVERT"); (0x84, "OP_AND"); (0x85, "OP_OR"); (0x86, "OP_XOR");
  (0x87, "OP_EQUAL"); (0x88, "OP_EQUALVERIFY"); (0x89, "OP_RESERVED1"); (0x8a, "OP_RESERVED2");
  (0x8b, "OP_1ADD"); (0x8c, "OP_1SUB"); (0x8d, "OP_2MUL"); (0x8e, "OP_2DIV"); (0x8f, "OP_NEGATE");
  (0x90, "OP_ABS"); (0x91, "OP_NOT"); (0x92, "OP_0NOTEQUAL"); (0x93, "OP_ADD"); (0x94, "OP_SUB");
  (0x95, "OP_MUL"); (0x96, "OP_DIV"); (0x97, "OP_MOD"); (0x98, "OP_LSHIFT"); (0x99, "OP_RSHIFT");
  (0x9a, "OP_BOOLAND"); (0x9b, "OP_BOOLOR"); (0x9c, "OP_NUMEQUAL"); (0x9d, "OP_NUMEQUALVERIFY");
  (0x9e, "OP_NUMNOTEQUAL"); (0x9f, "OP_LESSTHAN"); (0xa0, "OP_GREATERTHAN"); (0xa1, "OP_LESSTHANOREQUAL");
  (0xa2, "OP_GREATERTHANOREQUAL"); (0xa3, "OP_MIN"); (0xa4, "OP_MAX"); (0xa5, "OP_WITHIN");
  (0xa6, "OP_RIPEMD160"); (0xa7, "OP_SHA1"); (0xa8, "OP_SHA256"); (0xa9, "OP_HASH160"); (0xaa, "OP_HASH256");
  (0xab, "OP_CODESEPARATOR"); (0xac, "OP_CHECKSIG"); (0xad, "OP_CHECKSIGVERIFY"); (0xae, "OP_CHECKMULTISIG");
  (0xaf, "OP_CHECKMULTISIGVERIFY"); (0xb0, "OP_NOP1"); (0xb1, "OP_NOP2"); (0xb2, "OP_NOP3");
  (0xb3, "OP_NOP4"); (0xb4, "OP_NOP5"); (0xb5, "OP_NOP6"); (0xb6, "OP_NOP7"); (0xb7, "OP_NOP8");
  (0xb8, "OP_NOP9"); (0xb9, "OP_NOP10"); (0xfa, "OP_SMALLINTEGER"); (0xfb, "OP_PUBKEYS");
  (0xfd, "OP_PUBKEYHASH"); (0xfe, "OP_PUBKEY"); (0xff, "OP_INVALIDOPCODE")
  ]%N%string.

(** script.py:91-92: the name of an opcode, if it is in the table. *)
Definition op_name (n : N) : option string :=
  match find (fun e => (fst e =? n)%N) OPCODE_NAMES with Some e => Some (snd e) | None => None end.

(** script.py:90-94 [CScriptOp.__repr__]. *)
Definition op_repr (n : N) : text :=
  match op_name n with Some s => T s | None => T "CScriptOp(0x" ++ fmt_x (Z.of_N n) ++ T ")" end.

(** script.py:635-639 [_repr]. *)
Definition item_repr (c : cooked) : text :=
  match c with
  | CData d => T "x('" ++ T (b2x d) ++ T "')"
  | CInt z => fmt_i z
  | COp n => op_repr n
  end.

(** script.py:574-595: the name of a push in error messages. *)
Definition push_name (op : N) : text :=
  if (op <? 0x4c)%N then T "PUSHDATA(" ++ fmt_i (Z.of_N op) ++ T ")"
  else if (op =? 0x4c)%N then T "PUSHDATA1" else if (op =? 0x4d)%N then T "PUSHDATA2" else T "PUSHDATA4".

(** script.py:646-651 with 580-604: the text for the exception that ends the iteration, if one does. *)
Fixpoint script_error (fuel : nat) (s : bytes) : option text :=
  match fuel, s with
  | O, _ | _, [] => None
  | S fuel', b :: s1 =>
    let op := bN b in
    if (0x4e <? op)%N then script_error fuel' s1
    else
      match push_size op s1 with
      | Err _ => Some (T "<ERROR: " ++ push_name op ++ T ": missing data length>")
      | Ok (datasize, _, s2) =>
        if (blen s2 <? datasize)%N
        then Some (item_repr (CData s2) ++ T "...<ERROR: " ++ push_name op ++ T ": truncated data>")
        else script_error fuel' (skipn (N.to_nat datasize) s2)
      end
  end.

(** script.py:632-660 [CScript.__repr__]. *)
Definition script_repr (s : bytes) : text :=
  let ops := map item_repr (fst (script_iter s)) ++
    match script_error (S (List.length s)) s with Some e => [e] | None => [] end in
  T "CScript([" ++ join (T ", ") ops ++ T "])".

(** ** Transactions *)

(** core.py:147-151 [COutPoint.__repr__]; %r of a hex string puts it between single quotes. *)
Definition outpoint_repr (o : outpoint) : text :=
  if outpoint_is_null o then T "COutPoint()"
  else T "COutPoint(lx('" ++ T (b2lx (o_hash o)) ++ T "'), " ++ fmt_i (o_n o) ++ T ")".

(** core.py:207-208 [CTxIn.__repr__]. *)
Definition txin_repr (i : txin) : text :=
  T "CTxIn(" ++ outpoint_repr (i_prevout i) ++ T ", " ++ script_repr (i_scriptSig i) ++ T ", 0x" ++ fmt_x (i_nSequence i) ++ T ")".

(** core.py:274-278 [CTxOut.__repr__]. *)
Definition txout_repr (o : txout) : result text :=
  if (0 <=? o_nValue o)%Z then
    do m <- str_money_value (o_nValue o);
    Ok (T "CTxOut(" ++ m ++ T "*COIN, " ++ script_repr (o_scriptPubKey o) ++ T ")")
  else Ok (T "CTxOut(" ++ fmt_i (o_nValue o) ++ T ", " ++ script_repr (o_scriptPubKey o) ++ T ")").

(** core.py:339-340 [CTransaction.__repr__]; [vin] and [vout] are lists if the object is a
    CMutableTransaction (365-366), whose class prints the same name, and tuples if not. *)
Definition tx_repr (c : cls) (t : tx) : result text :=
  let many := match c with Imm => tuple_repr | Mut => list_repr end in
  do vout <- mapM txout_repr (t_vout t);
  Ok (T "CTransaction(" ++ many (map txin_repr (t_vin t)) ++ T ", " ++ many vout ++ T ", " ++
      fmt_i (t_nLockTime t) ++ T ", " ++ fmt_i (t_nVersion t) ++ T ")").

(** ** Block headers and blocks *)

(** core.py:434-437 [CBlockHeader.__repr__]; a CBlock (439) inherits it and prints its own class name.
    The hashes are not quoted. *)
Definition header_repr (name : string) (h : header) : text :=
  T name ++ T "(" ++ fmt_i (h_nVersion h) ++ T ", lx(" ++ T (b2lx (h_prev h)) ++ T "), lx(" ++ T (b2lx (h_merkle h)) ++
  T "), " ++ fmt_i (h_nTime h) ++ T ", 0x" ++ fmt_08x (h_nBits h) ++ T ", 0x" ++ fmt_08x (h_nNonce h) ++ T ")".
(** core.py:434-437, of a CBlock: the transactions are not printed. *)
Definition block_repr (b : block) : text := header_repr "CBlock" (b_header b).

(** ** Addresses, secrets, public keys *)

(** base58.py:145-146 [CBase58Data.__repr__]; [name] is the class.  The text has no quote in it. *)
Definition base58_repr (name : string) (s : text) : text := T name ++ T "('" ++ s ++ T "')".
(** base58.py:145-146 for the two classes of addresses (wallet.py:34-49). *)
Definition address_repr (a : address) : result text :=
  do s <- address_str a;
  Ok (base58_repr (match a_class a with P2SH => "P2SHBitcoinAddress" | P2PKH => "P2PKHBitcoinAddress" end)%string s).
(** base58.py:145-146 for CBitcoinSecret (wallet.py:215). *)
Definition secret_repr (s : secret) : result text := do t <- secret_str s; Ok (base58_repr "CBitcoinSecret" t).
(** base58.py:145-146 for CBase58Data itself. *)
Definition base58data_repr (d : b58data) : result text := do t <- base58_str d; Ok (base58_repr "CBase58Data" t).
(** key.py:159-163 [CPubKey.__repr__]. *)
Definition pubkey_repr (b : bytes) : text := T "CPubKey(" ++ bytes_repr b ++ T ")".

(** ** python-proofmarshal *)

(** bits.py:63-65 [Bits.__repr__]. *)
Definition bits_repr (b : Bits) : result text :=
  do l <- bits_iter b;
  Ok (T "Bits([" ++ join (T ",") (map (fun x => if (x =? 0)%N then T "0" else T "1") l) ++ T "])").

(** serialize.py:459-461 [HashTag.__str__]. *)
Definition tag_str (t : bytes) : text :=
  let h := T (to_hex t) in
  firstn 8 h ++ T "-" ++ firstn 4 (skipn 8 h) ++ T "-" ++ firstn 4 (skipn 12 h) ++ T "-" ++ firstn 4 (skipn 16 h) ++ T "-" ++ skipn 20 h.
(** serialize.py:463-464 [HashTag.__repr__]. *)
Definition tag_repr (t : bytes) : text := T "HashTag('" ++ tag_str t ++ T "')".
