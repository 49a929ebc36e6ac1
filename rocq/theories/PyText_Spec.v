(** Python expressions: reading a text as an expression and evaluating it with the names of the two
    libraries defined.  Only the part of Python's grammar that printed forms can be made of: numbers, texts,
    bytes, names, calls, tuples, lists, a minus sign and a product; other texts count as no expression.
    (Two kinds of texts outside of it are printed: such with [<ERROR: ...>], which is no syntax of Python either,
    and numbers with an exponent like [1e5] as the argument of [lx], which refuses all numbers.)
    Nothing here is about how printing works. *)
From Verif Require Import Base Tx_Model Script_Model Block_Model Hex_Model Base58_Model Bits_Model.
Local Open Scope Z_scope.
Local Open Scope list_scope.

(** ** Floating point numbers: IEEE 754 doubles that are not negative *)

(** The number [mant * 2 ^ expo]. *)
Record double := Double { mant : Z; expo : Z }.

(** [n / d] rounded to an integer, ties to even. *)
Definition half_even (n d : Z) : Z :=
  let q := n / d in
  let r := n mod d in
  if 2 * r <? d then q else if d <? 2 * r then q + 1 else if Z.even q then q else q + 1.
(** [n / (d * 2 ^ e)] as numerator and denominator. *)
Definition scale (n d e : Z) : Z * Z := if 0 <=? e then (n, d * 2 ^ e) else (n * 2 ^ (- e), d).
(** The exponent of the double nearest to [n / d]: 53 binary digits, or 2^-1074 for small numbers. *)
Definition exponent (n d : Z) : Z :=
  let e := Z.log2 n - Z.log2 d - 52 in
  let '(a, b) := scale n d e in
  Z.max (if a <? 2 ^ 52 * b then e - 1 else e) (-1074).
(** The double nearest to [n / d], for [0 <= n] and [0 < d], if it is below 2^1024. *)
Definition nearest (n d : Z) : double :=
  let e := exponent n d in
  let '(a, b) := scale n d e in
  Double (half_even a b) e.
(** A double as numerator and denominator. *)
Definition ratio (x : double) : Z * Z := scale (mant x) 1 (- expo x).
Definition double_mul (x y : double) : double :=
  let '(a, b) := ratio x in let '(c, d) := ratio y in nearest (a * c) (b * d).
Definition double_div (x y : double) : double :=
  let '(a, b) := ratio x in let '(c, d) := ratio y in nearest (a * d) (b * c).
(** float(z) and int(x). *)
Definition of_int (z : Z) : double := nearest z 1.
Definition to_int (x : double) : Z := let '(a, b) := ratio x in a / b.

(** ** Expressions *)

Inductive expr :=
| ENum (z : Z)                       (* 12 or 0xc *)
| EDec (m : Z) (k : nat)             (* m / 10 ^ k: 1.25 is EDec 125 2 *)
| EStr (t : text)                    (* 'abc' *)
| EBytes (b : bytes)                 (* b'abc' *)
| EName (t : text)
| ENeg (e : expr)
| EMul (a b : expr)
| ECall (f : text) (args : list expr)
| ETuple (l : list expr)
| EList (l : list expr).

Definition is_digit (c : ascii) : bool := let n := N_of_ascii c in ((48 <=? n) && (n <=? 57))%N.
(** A letter or an underscore. *)
Definition is_letter (c : ascii) : bool :=
  let n := N_of_ascii c in ((65 <=? n) && (n <=? 90) || (97 <=? n) && (n <=? 122) || (n =? 95))%N.
Definition is_ident (c : ascii) : bool := (is_digit c || is_letter c)%bool.
Definition is_hex (c : ascii) : bool := match hex_digit c with Some _ => true | None => false end.

(** The longest beginning of [s] whose characters satisfy [p], and the rest. *)
Fixpoint span (p : ascii -> bool) (s : text) : text * text :=
  match s with
  | c :: s' => if p c then let '(a, b) := span p s' in (c :: a, b) else ([], s)
  | [] => ([], [])
  end.
(** Digits in base [b]. *)
Definition value_of (b : Z) (l : text) : Z :=
  fold_left (fun v c => b * v + Z.of_N (match hex_digit c with Some d => d | None => 0%N end)) l 0.

(** A number ends where no letter, digit or point follows. *)
Definition ends (e : expr) (r : text) : option (expr * text) :=
  match r with
  | c :: _ => if (is_ident c || Ascii.eqb c ".")%bool then None else Some (e, r)
  | [] => Some (e, r)
  end.
(** No zeros in front of an integer. *)
Definition leading_zero (d : text) : bool :=
  match d with c :: _ :: _ => Ascii.eqb c "0" | _ => false end.
Definition p_decimal (s : text) : option (expr * text) :=
  let '(d, r) := span is_digit s in
  match r with
  | c :: r' =>
    if Ascii.eqb c "." then let '(f, r'') := span is_digit r' in ends (EDec (value_of 10 (d ++ f)) (List.length f)) r''
    else if leading_zero d then None else ends (ENum (value_of 10 d)) r
  | [] => if leading_zero d then None else ends (ENum (value_of 10 d)) r
  end.
Definition p_number (s : text) : option (expr * text) :=
  match s with
  | a :: b :: s' =>
    if (Ascii.eqb a "0" && Ascii.eqb b "x")%bool then
      let '(h, r) := span is_hex s' in
      match h with [] => None | _ => ends (ENum (value_of 16 h)) r end
    else p_decimal s
  | _ => p_decimal s
  end.

(** The rest of a text literal; those with backslashes are left out. *)
Definition p_str (s : text) : option (expr * text) :=
  let '(t, r) := span (fun c => negb (Ascii.eqb c "'" || Ascii.eqb c "\"))%bool s in
  match r with c :: r' => if Ascii.eqb c "'" then Some (EStr t, r') else None | [] => None end.

(** The rest of a bytes literal between quotes [q], with the escapes \x.. \t \n \r \\ \' and the double quote. *)
Fixpoint p_bytes (q : ascii) (s : text) : option (bytes * text) :=
  match s with
  | [] => None
  | c :: s1 =>
    if Ascii.eqb c q then Some ([], s1)
    else
      let next (b : N) (r : option (bytes * text)) := match r with Some (l, r) => Some (Nb b :: l, r) | None => None end in
      if Ascii.eqb c "\" then
        match s1 with
        | [] => None
        | e :: s2 =>
          if Ascii.eqb e "t" then next 9%N (p_bytes q s2)
          else if Ascii.eqb e "n" then next 10%N (p_bytes q s2)
          else if Ascii.eqb e "r" then next 13%N (p_bytes q s2)
          else if (Ascii.eqb e "\" || Ascii.eqb e "'" || Ascii.eqb e """")%bool then next (N_of_ascii e) (p_bytes q s2)
          else if Ascii.eqb e "x" then
            match s2 with
            | h :: l :: s3 =>
              match hex_digit h, hex_digit l with
              | Some u, Some v => next (16 * u + v)%N (p_bytes q s3)
              | _, _ => None
              end
            | _ => None
            end
          else None
        end
      else if ((N_of_ascii c <? 32) || (127 <=? N_of_ascii c))%N then None
      else next (N_of_ascii c) (p_bytes q s1)
  end.

Fixpoint skip_spaces (s : text) : text :=
  match s with c :: s' => if Ascii.eqb c " " then skip_spaces s' else s | [] => [] end.

(** Recursive descent; [fuel] bounds the depth.  [p_items] reads up to the closing bracket and says
    whether there was a comma before it. *)
Fixpoint p_expr (fuel : nat) (s : text) : option (expr * text) :=
  match fuel with
  | O => None
  | S f =>
    match p_atom f s with
    | Some (a, c :: r) =>
      if Ascii.eqb c "*" then match p_atom f r with Some (b, r') => Some (EMul a b, r') | None => None end
      else Some (a, c :: r)
    | x => x
    end
  end
with p_atom (fuel : nat) (s : text) : option (expr * text) :=
  match fuel with
  | O => None
  | S f =>
    match s with
    | [] => None
    | c :: r =>
      if Ascii.eqb c "-" then match p_atom f r with Some (e, r) => Some (ENeg e, r) | None => None end
      else if Ascii.eqb c "(" then
        match p_items f ")" r with
        | Some ([e], false, r) => Some (e, r)
        | Some (l, _, r) => Some (ETuple l, r)
        | None => None
        end
      else if Ascii.eqb c "[" then match p_items f "]" r with Some (l, _, r) => Some (EList l, r) | None => None end
      else if Ascii.eqb c "'" then p_str r
      else if is_digit c then p_number s
      else if is_letter c then
        let '(n, r) := span is_ident s in
        match r with
        | d :: r' =>
          if Ascii.eqb d "(" then match p_items f ")" r' with Some (l, _, r) => Some (ECall n l, r) | None => None end
          else if (Ascii.eqb d "'" || Ascii.eqb d """")%bool then
            if list_eq_dec Ascii.ascii_dec n ["b"%char]
            then match p_bytes d r' with Some (b, r) => Some (EBytes b, r) | None => None end else None
          else Some (EName n, r)
        | [] => Some (EName n, r)
        end
      else None
    end
  end
with p_items (fuel : nat) (close : ascii) (s : text) : option (list expr * bool * text) :=
  match fuel with
  | O => None
  | S f =>
    match s with
    | [] => None
    | c :: r =>
      if Ascii.eqb c close then Some ([], false, r)
      else
        match p_expr f s with
        | Some (e, d :: r) =>
          if Ascii.eqb d close then Some ([e], false, r)
          else if Ascii.eqb d "," then
            match skip_spaces r with
            | d :: r' =>
              if Ascii.eqb d close then Some ([e], true, r')
              else match p_items f close (skip_spaces r) with Some (l, t, r) => Some (e :: l, t, r) | None => None end
            | [] => None
            end
          else None
        | _ => None
        end
    end
  end.

(** The whole text is one expression. *)
Definition read (s : text) : option expr :=
  match p_expr (3 * List.length s + 3) s with Some (e, []) => Some e | _ => None end.

(** ** Evaluation *)

Inductive value :=
| VInt (z : Z) | VFloat (x : double) | VStr (t : text) | VBytes (b : bytes) | VList (l : list value) | VTuple (l : list value)
| VOp (n : N) | VScript (s : bytes) | VOutPoint (o : outpoint) | VTxIn (i : txin) | VTxOut (o : txout) | VTx (t : tx)
| VHeader (h : header) | VBlock (b : block)
| VBase58 (d : b58data) | VAddress (a : address) | VSecret (s : secret) | VPubKey (b : bytes)
| VBits (b : Bits) | VTag (t : bytes).

(** The opcodes that script.py:110-247 names. *)
Definition opcodes : list (string * N) := [
  ("OP_0", 0x00); ("OP_FALSE", 0x00); ("OP_PUSHDATA1", 0x4c); ("OP_PUSHDATA2", 0x4d); ("OP_PUSHDATA4", 0x4e);
  ("OP_1NEGATE", 0x4f); ("OP_RESERVED", 0x50); ("OP_1", 0x51); ("OP_TRUE", 0x51); ("OP_2", 0x52);
  ("OP_3", 0x53); ("OP_4", 0x54); ("OP_5", 0x55); ("OP_6", 0x56); ("OP_7", 0x57); ("OP_8", 0x58);
  ("OP_9", 0x59); ("OP_10", 0x5a); ("OP_11", 0x5b); ("OP_12", 0x5c); ("OP_13", 0x5d); ("OP_14", 0x5e);
  ("OP_15", 0x5f); ("OP_16", 0x60); ("OP_NOP", 0x61); ("OP_VER", 0x62); ("OP_IF", 0x63); ("OP_NOTIF", 0x64);
  ("OP_VERIF", 0x65); ("OP_VERNOTIF", 0x66); ("OP_ELSE", 0x67); ("OP_ENDIF", 0x68); ("OP_VERIFY", 0x69);
  ("OP_RETURN", 0x6a); ("OP_TOALTSTACK", 0x6b); ("OP_FROMALTSTACK", 0x6c); ("OP_2DROP", 0x6d);
  ("OP_2DUP", 0x6e); ("OP_3DUP", 0x6f); ("OP_2OVER", 0x70); ("OP_2ROT", 0x71); ("OP_2SWAP", 0x72);
  ("OP_IFDUP", 0x73); ("OP_DEPTH", 0x74); ("OP_DROP", 0x75); ("OP_DUP", 0x76); ("OP_NIP", 0x77);
  ("OP_OVER", 0x78); ("OP_PICK", 0x79); ("OP_ROLL", 0x7a); ("OP_ROT", 0x7b); ("OP_SWAP", 0x7c);
  ("OP_TUCK", 0x7d); ("OP_CAT", 0x7e); ("OP_SUBSTR", 0x7f); ("OP_LEFT", 0x80); ("OP_RIGHT", 0x81);
  ("OP_SIZE", 0x82); ("OP_INVERT", 0x83); ("OP_AND", 0x84); ("OP_OR", 0x85); ("OP_XOR", 0x86);
  ("OP_EQUAL", 0x87); ("OP_EQUALVERIFY", 0x88); ("OP_RESERVED1", 0x89); ("OP_RESERVED2", 0x8a);
  ("OP_1ADD", 0x8b); ("OP_1SUB", 0x8c); ("OP_2MUL", 0x8d); ("OP_2DIV", 0x8e); ("OP_NEGATE", 0x8f);
  ("OP_ABS", 0x90); ("OP_NOT", 0x91); ("OP_0NOTEQUAL", 0x92); ("OP_ADD", 0x93); ("OP_SUB", 0x94);
  ("OP_MUL", 0x95); ("OP_DIV", 0x96); ("OP_MOD", 0x97); ("OP_LSHIFT", 0x98); ("OP_RSHIFT", 0x99);
  ("OP_BOOLAND", 0x9a); ("OP_BOOLOR", 0x9b); ("OP_NUMEQUAL", 0x9c); ("OP_NUMEQUALVERIFY", 0x9d);
  ("OP_NUMNOTEQUAL", 0x9e); ("OP_LESSTHAN", 0x9f); ("OP_GREATERTHAN", 0xa0); ("OP_LESSTHANOREQUAL", 0xa1);
  ("OP_GREATERTHANOREQUAL", 0xa2); ("OP_MIN", 0xa3); ("OP_MAX", 0xa4); ("OP_WITHIN", 0xa5);
  ("OP_RIPEMD160", 0xa6); ("OP_SHA1", 0xa7); ("OP_SHA256", 0xa8); ("OP_HASH160", 0xa9); ("OP_HASH256", 0xaa);
  ("OP_CODESEPARATOR", 0xab); ("OP_CHECKSIG", 0xac); ("OP_CHECKSIGVERIFY", 0xad); ("OP_CHECKMULTISIG", 0xae);
  ("OP_CHECKMULTISIGVERIFY", 0xaf); ("OP_NOP1", 0xb0); ("OP_NOP2", 0xb1); ("OP_NOP3", 0xb2);
  ("OP_NOP4", 0xb3); ("OP_NOP5", 0xb4); ("OP_NOP6", 0xb5); ("OP_NOP7", 0xb6); ("OP_NOP8", 0xb7);
  ("OP_NOP9", 0xb8); ("OP_NOP10", 0xb9); ("OP_SMALLINTEGER", 0xfa); ("OP_PUBKEYS", 0xfb);
  ("OP_PUBKEYHASH", 0xfd); ("OP_PUBKEY", 0xfe); ("OP_INVALIDOPCODE", 0xff)
  ]%N%string.

(** The names that are values. *)
Definition name (t : text) : result value :=
  if list_eq_dec Ascii.ascii_dec t (list_ascii_of_string "COIN") then Ok (VInt 100000000)
  else match find (fun e => if list_eq_dec Ascii.ascii_dec t (list_ascii_of_string (fst e)) then true else false) opcodes with
       | Some e => Ok (VOp (snd e))
       | None => Err NameError
       end.

(** What can be put into a script. *)
Definition script_item (v : value) : result sitem :=
  match v with
  | VOp n => Ok (IOp n) | VInt z => Ok (IInt z) | VBytes b => Ok (IData b) | _ => Err TypeError
  end.
Definition as_txin (v : value) : result txin := match v with VTxIn i => Ok i | _ => Err AttributeError end.
Definition as_txout (v : value) : result txout := match v with VTxOut o => Ok o | _ => Err AttributeError end.
(** Whether a number is a true bit. *)
Definition as_bit (v : value) : result bool := match v with VInt z => Ok (negb (z =? 0)) | _ => Err TypeError end.
(** uuid.UUID(t).bytes: 32 hexadecimal digits, dashes anywhere. *)
Definition uuid_of (t : text) : result bytes :=
  let h := filter (fun c => negb (Ascii.eqb c "-")) t in
  if (Nat.eqb (List.length h) 32 && forallb is_hex h)%bool then Ok (hex (string_of_list_ascii h)) else Err ValueError.
Definition null : outpoint := mkOutPoint (repeat x00 32) 0xffffffff.
(** int(v). *)
Definition as_amount (v : value) : result Z :=
  match v with VInt z => Ok z | VFloat x => Ok (to_int x) | _ => Err TypeError end.

(** What a call of a function or class gives; [pr] are the address prefixes of the selected network. *)
Definition call (pr : prefixes) (f : text) (args : list value) : result value :=
  let is s := if list_eq_dec Ascii.ascii_dec f (list_ascii_of_string s) then true else false in
  match args with
  | [] => if is "COutPoint"%string then Ok (VOutPoint null) else Err TypeError
  | [VStr t] =>
    if is "x"%string then do b <- x_hex (string_of_list_ascii t); Ok (VBytes b)
    else if is "lx"%string then do b <- lx (string_of_list_ascii t); Ok (VBytes b)
    else if is "HashTag"%string then do b <- uuid_of t; Ok (VTag b)
    else if is "CBase58Data"%string then do d <- CBase58Data t; Ok (VBase58 d)
    else if is "P2SHBitcoinAddress"%string then do a <- base58_new (p2sh_from_bytes pr) t; Ok (VAddress a)
    else if is "P2PKHBitcoinAddress"%string then do a <- base58_new (p2pkh_from_bytes pr) t; Ok (VAddress a)
    else if is "CBitcoinSecret"%string then do s <- CBitcoinSecret pr t; Ok (VSecret s)
    else Err TypeError
  | [VInt n] => if (is "CScriptOp"%string && (0 <=? n) && (n <=? 255))%bool then Ok (VOp (Z.to_N n)) else Err TypeError
  | [VBytes b] => if is "CPubKey"%string then Ok (VPubKey b) else Err TypeError
  | [VList l] =>
    if is "CScript"%string then do items <- mapM script_item l; do s <- cscript items; Ok (VScript s)
    else if is "Bits"%string then do bits <- mapM as_bit l; do b <- bits_new bits; Ok (VBits b)
    else Err TypeError
  | [VBytes h; VInt n] => if is "COutPoint"%string then do o <- outpoint_new h n; Ok (VOutPoint o) else Err TypeError
  | [VOutPoint o; VScript s; VInt q] => if is "CTxIn"%string then do i <- txin_new o s q; Ok (VTxIn i) else Err TypeError
  | [v; VScript s] => if is "CTxOut"%string then do z <- as_amount v; Ok (VTxOut (mkTxOut z s)) else Err TypeError
  | [VTuple vin; VTuple vout; VInt lock; VInt ver] | [VList vin; VList vout; VInt lock; VInt ver] =>
    if is "CTransaction"%string then
      do vin <- mapM as_txin vin; do vout <- mapM as_txout vout; do t <- tx_new vin vout lock ver; Ok (VTx t)
    else Err TypeError
  | [VInt v; VBytes p; VBytes m; VInt t; VInt b; VInt n] =>
    if is "CBlockHeader"%string then do h <- header_new v p m t b n; Ok (VHeader h)
    else if is "CBlock"%string then do b <- block_new v p m t b n []; Ok (VBlock b)
    else Err TypeError
  | _ => Err TypeError
  end.

Fixpoint evaluate (pr : prefixes) (e : expr) : result value :=
  let all := fix all (l : list expr) : result (list value) :=
    match l with [] => Ok [] | e :: l => do v <- evaluate pr e; do r <- all l; Ok (v :: r) end in
  match e with
  | ENum z => Ok (VInt z)
  | EDec m k => Ok (VFloat (nearest m (10 ^ Z.of_nat k)))
  | EStr t => Ok (VStr t)
  | EBytes b => Ok (VBytes b)
  | EName t => name t
  | ENeg e => do v <- evaluate pr e; match v with VInt z => Ok (VInt (- z)) | _ => Err TypeError end
  | EMul a b =>
    do v <- evaluate pr a; do w <- evaluate pr b;
    match v, w with
    | VInt a, VInt b => Ok (VInt (a * b))
    | VFloat x, VInt b => Ok (VFloat (double_mul x (of_int b)))
    | _, _ => Err TypeError
    end
  | ECall f args => do l <- all args; call pr f l
  | ETuple l => do l <- all l; Ok (VTuple l)
  | EList l => do l <- all l; Ok (VList l)
  end.

(** What Python gives for the text [s]: [None] if it is no expression. *)
Definition python (pr : prefixes) (s : text) : option (result value) :=
  match read s with Some e => Some (evaluate pr e) | None => None end.
