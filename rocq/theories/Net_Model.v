(** Executable model of network messages:
    lib/python-bitcoinlib/bitcoin/messages.py (cited as messages.py),
    lib/python-bitcoinlib/bitcoin/net.py (cited as net.py) and
    lib/python-bitcoinlib/bitcoin/core/serialize.py (cited as bserialize.py).

    Attributes hold values of the type their class reads and writes; an attribute of
    another Python type is not modelled, except None in version messages. *)
From Verif Require Import Base PySlice Sha256 Tx_Model Block_Model.
Local Open Scope string_scope.
Local Open Scope list_scope.
Local Open Scope Z_scope.

(** ** Serializers *)

(** bserialize.py:285-296 [VarStringSerializer]: the same code as BytesSerializer. *)
Definition varstring_ser (s : bytes) : result bytes := do l <- varint_ser (Z.of_N (blen s)); Ok (l ++ s).
(** bserialize.py:293-296: reading. *)
Definition varstring_de (s : bytes) : result (bytes * bytes) := do (l, s) <- varint_de s; ser_read l s.

(** bserialize.py:256-258, the body of the loop: assert len(uint) == 32. *)
Definition uint256_ser (u : bytes) : result bytes := do _ <- assert (blen u =? 32)%N; Ok u.
(** bserialize.py:251-266 [uint256VectorSerializer]. *)
Definition uint256s_ser (l : list bytes) : result bytes := vector_ser uint256_ser l.
(** bserialize.py:260-266: reading. *)
Definition uint256s_de (s : bytes) : result (list bytes * bytes) := vector_de (ser_read 32) s.

(** bserialize.py:269-282 [intVectorSerialzer]: the list read is dropped, None is returned. *)
Definition ints_ser (l : list Z) : result bytes := vector_ser (pack_s 4) l.
(** bserialize.py:277-282: reading. *)
Definition ints_de (s : bytes) : result (option (list Z) * bytes) :=
  do (_, s) <- vector_de (ser_read 4) s; Ok (None, s).

(** ** Addresses *)

(** net.py:25-26. *)
Definition PROTO_VERSION : Z := 60002.
(** net.py:26. *)
Definition CADDR_TIME_VERSION : Z := 31402.

(** net.py:29-35 [CAddress.__init__]: the attributes. *)
Record address := mkAddress {
  a_protover : Z; a_nTime : Z; a_nServices : Z; a_pchReserved : bytes; a_ip : string; a_port : Z }.
(** net.py:29-35: the values. *)
Definition address_new (protover : Z) : address :=
  mkAddress protover 0 1 (repeat x00 10 ++ repeat xff 2) "0.0.0.0" 0.

(** The decimal digits of a byte, as printed by socket.inet_ntoa (net.py:44). *)
Definition digit (n : N) : ascii := ascii_of_N (48 + n).
(** net.py:44: the digits of one byte. *)
Definition dec (n : N) : string :=
  if (n <? 10)%N then String (digit n) ""
  else if (n <? 100)%N then String (digit (n / 10)) (String (digit (n mod 10)) "")
  else String (digit (n / 100)) (String (digit (n / 10 mod 10)) (String (digit (n mod 10)) "")).
(** socket.inet_ntoa (net.py:44): OSError unless there are four bytes. *)
Definition inet_ntoa (b : bytes) : result string :=
  match b with
  | [w; x; y; z] => Ok (dec (bN w) ++ "." ++ dec (bN x) ++ "." ++ dec (bN y) ++ "." ++ dec (bN z))%string
  | _ => Err OSError
  end.

(** The text before the first dot, and after it.  For inet_aton (net.py:53). *)
Fixpoint until_dot (s : string) : string * option string :=
  match s with
  | "" => ("", None)
  | String c s' =>
    if Ascii.eqb c "."%char then ("", Some s')
    else let (a, r) := until_dot s' in (String c a, r)
  end.
(** The byte with these decimal digits and no others.  For inet_aton (net.py:53). *)
Definition byte_of (s : string) : option byte :=
  find (fun b => String.eqb (dec (bN b)) s) (map (fun k => Nb (N.of_nat k)) (seq 0 256)).
(** Four bytes in decimal, separated by dots.  inet_ntoa (net.py:44). *)
Definition dotted (s : string) : option bytes :=
  match until_dot s with
  | (a, Some s) => match until_dot s with
    | (b, Some s) => match until_dot s with
      | (c, Some s) => match until_dot s with
        | (d, None) => match byte_of a, byte_of b, byte_of c, byte_of d with
          | Some a, Some b, Some c, Some d => Some [a; b; c; d]
          | _, _, _, _ => None
          end
        | _ => None end
      | _ => None end
    | _ => None end
  | _ => None end.

Section Texts.
(** What the C library makes of a text that is not four plain decimal numbers with
    dots (such as 127.1 or 0x7f000001); it differs between systems and is left open. *)
Context (other : string -> option bytes).

(** socket.inet_aton (net.py:53). *)
Definition inet_aton (s : string) : result bytes :=
  match dotted s with
  | Some b => Ok b
  | None => match other s with Some b => Ok b | None => Err OSError end
  end.

(** struct.pack(b">H"), net.py:54. *)
Definition pack_be16 (v : Z) : result bytes := do b <- pack_u 2 v; Ok (rev b).

(** net.py:48-54 [CAddress.stream_serialize]. *)
Definition address_ser (without_time : bool) (a : address) : result bytes :=
  do t <- (if (CADDR_TIME_VERSION <=? a_protover a) && negb without_time then pack_u 4 (a_nTime a) else Ok []);
  do s <- pack_u 8 (a_nServices a);
  do i <- inet_aton (a_ip a);
  do p <- pack_be16 (a_port a);
  Ok (t ++ s ++ a_pchReserved a ++ i ++ p).

(** net.py:37-46 [CAddress.stream_deserialize]; cls() has the default protover. *)
Definition address_de (without_time : bool) (s : bytes) : result (address * bytes) :=
  let c := address_new PROTO_VERSION in
  do (t, s) <- (if (CADDR_TIME_VERSION <=? a_protover c) && negb without_time
                then do (b, s) <- ser_read 4 s; Ok (Z.of_N (le_dec b), s) else Ok (a_nTime c, s));
  do (v, s) <- ser_read 8 s;
  do (r, s) <- ser_read 12 s;
  do (i, s) <- ser_read 4 s;
  do ip <- inet_ntoa i;
  do (p, s) <- ser_read 2 s;
  Ok (mkAddress (a_protover c) t (Z.of_N (le_dec v)) r ip (Z.of_N (le_dec (rev p))), s).

(** ** The other parts of messages *)

(** net.py:60-80 [CInv]. *)
Record inv := mkInv { v_type : Z; v_hash : bytes }.
(** net.py:78-80. *)
Definition inv_ser (v : inv) : result bytes := do t <- pack_s 4 (v_type v); Ok (t ++ v_hash v).
(** net.py:71-76. *)
Definition inv_de (s : bytes) : result (inv * bytes) :=
  do (t, s) <- ser_read 4 s; do (h, s) <- ser_read 32 s; Ok (mkInv (unpack_s 4 t) h, s).

(** net.py:86-100 [CBlockLocator]. *)
Record locator := mkLocator { l_nVersion : Z; l_vHave : list bytes }.
(** net.py:98-100. *)
Definition locator_ser (l : locator) : result bytes :=
  do v <- pack_s 4 (l_nVersion l); do h <- uint256s_ser (l_vHave l); Ok (v ++ h).
(** net.py:91-96. *)
Definition locator_de (s : bytes) : result (locator * bytes) :=
  do (v, s) <- ser_read 4 s; do (h, s) <- uint256s_de s; Ok (mkLocator (unpack_s 4 v) h, s).

(** net.py:159-173 [CAlert]. *)
Record alert := mkAlert { al_vchMsg : bytes; al_vchSig : bytes }.
(** net.py:171-173. *)
Definition alert_ser (a : alert) : result bytes :=
  do m <- varstring_ser (al_vchMsg a); do s <- varstring_ser (al_vchSig a); Ok (m ++ s).
(** net.py:164-169. *)
Definition alert_de (s : bytes) : result (alert * bytes) :=
  do (m, s) <- varstring_de s; do (g, s) <- varstring_de s; Ok (mkAlert m g, s).

(** net.py:106-120 [CUnsignedAlert]: the attributes written and read before the first name
    that net.py does not define. *)
Record ualert := mkUalert { u_nVersion : Z; u_nRelayUntil : Z; u_nExpiration : Z; u_nID : Z; u_nCancel : Z }.
(** net.py:140-153 [stream_serialize]: ser_int_vector is not defined. *)
Definition ualert_ser (u : ualert) : result bytes :=
  do _ <- pack_s 4 (u_nVersion u);
  do _ <- pack_s 8 (u_nRelayUntil u);
  do _ <- pack_s 8 (u_nExpiration u);
  do _ <- pack_s 4 (u_nID u);
  do _ <- pack_s 4 (u_nCancel u);
  Err NameError.
(** net.py:122-138 [stream_deserialize]: intVectorSerialzer is not imported. *)
Definition ualert_de (s : bytes) : result (ualert * bytes) :=
  do (_, s) <- ser_read 4 s;
  do (_, s) <- ser_read 8 s;
  do (_, s) <- ser_read 8 s;
  do (_, s) <- ser_read 4 s;
  do (_, s) <- ser_read 4 s;
  Err NameError.

(** ** Messages *)

(** messages.py:116-125 [msg_version.__init__]; None is possible after reading. *)
Record version := mkVersion {
  n_nVersion : Z; n_nServices : Z; n_nTime : Z; n_addrTo : address; n_addrFrom : option address;
  n_nNonce : option Z; n_strSubVer : option bytes; n_nStartingHeight : option Z }.

(** messages.py:113-439: an instance of one of the classes, with its attributes. *)
Inductive msg :=
| MVersion (v : version) | MVerack | MAddr (addrs : list address) | MAlert (a : alert)
| MInv (l : list inv) | MGetData (l : list inv)
| MGetBlocks (l : locator) (hashstop : bytes) | MGetHeaders (l : locator) (hashstop : bytes)
| MHeaders (l : list block) | MTx (t : tx) | MBlock (b : block) | MGetAddr
| MPing (nonce : Z) | MPong (nonce : Z) | MMempool.

(** messages.py:151-159 [msg_version.msg_ser].  None has no stream_serialize, no length, and
    is no number. *)
Definition version_ser (v : version) : result bytes :=
  do n <- pack_s 4 (n_nVersion v);
  do s <- pack_u 8 (n_nServices v);
  do t <- pack_s 8 (n_nTime v);
  do a <- address_ser true (n_addrTo v);
  do f <- match n_addrFrom v with Some f => address_ser true f | None => Err AttributeError end;
  do c <- match n_nNonce v with Some c => pack_u 8 c | None => Err StructError end;
  do u <- match n_strSubVer v with Some u => varstring_ser u | None => Err TypeError end;
  do h <- match n_nStartingHeight v with Some h => pack_s 4 h | None => Err StructError end;
  Ok (n ++ s ++ t ++ a ++ f ++ c ++ u ++ h).

(** messages.py:127-149 [msg_version.msg_deser]. *)
Definition version_de (s : bytes) : result (version * bytes) :=
  do (n, s) <- ser_read 4 s;
  let n := unpack_s 4 n in
  let n := if n =? 10300 then 300 else n in
  do (v, s) <- ser_read 8 s;
  do (t, s) <- ser_read 8 s;
  do (a, s) <- address_de true s;
  if 106 <=? n then
    do (f, s) <- address_de true s;
    do (c, s) <- ser_read 8 s;
    do (u, s) <- varstring_de s;
    if 209 <=? n then
      do (h, s) <- ser_read 4 s;
      Ok (mkVersion n (Z.of_N (le_dec v)) (unpack_s 8 t) a (Some f) (Some (Z.of_N (le_dec c))) (Some u) (Some (unpack_s 4 h)), s)
    else Ok (mkVersion n (Z.of_N (le_dec v)) (unpack_s 8 t) a (Some f) (Some (Z.of_N (le_dec c))) (Some u) None, s)
  else Ok (mkVersion n (Z.of_N (le_dec v)) (unpack_s 8 t) a None None None None, s).

(** messages.py:271-280, 294-303: locator and hash of getblocks and getheaders. *)
Definition locate_ser (l : locator) (hashstop : bytes) : result bytes :=
  do b <- locator_ser l; Ok (b ++ hashstop).
(** messages.py:271-276, 294-299: reading. *)
Definition locate_de (s : bytes) : result ((locator * bytes) * bytes) :=
  do (l, s) <- locator_de s; do (h, s) <- ser_read 32 s; Ok ((l, h), s).

(** messages.py:393-400, 413-420: the nonce of ping and pong. *)
Definition nonce_de (s : bytes) : result (Z * bytes) := do (b, s) <- ser_read 8 s; Ok (Z.of_N (le_dec b), s).

(** The attribute [command] of the classes (messages.py:114, 166, 184, 204, 224, 244, 264, 287, 310,
    330, 350, 370, 387, 407, 427). *)
Definition command (m : msg) : bytes :=
  match m with
  | MVersion _ => str "version" | MVerack => str "verack" | MAddr _ => str "addr" | MAlert _ => str "alert"
  | MInv _ => str "inv" | MGetData _ => str "getdata" | MGetBlocks _ _ => str "getblocks"
  | MGetHeaders _ _ => str "getheaders" | MHeaders _ => str "headers" | MTx _ => str "tx" | MBlock _ => str "block"
  | MGetAddr => str "getaddr" | MPing _ => str "ping" | MPong _ => str "pong" | MMempool => str "mempool"
  end.

(** msg_ser of each class (messages.py:151-159, 176-177, 196-197, 216-217, 236-237, 256-257, 278-280,
    301-303, 322-323, 342-343, 362-363, 379-380, 399-400, 419-420, 436-437). *)
Definition msg_ser (m : msg) : result bytes :=
  match m with
  | MVersion v => version_ser v
  | MVerack | MGetAddr | MMempool => Ok []
  | MAddr l => vector_ser (address_ser false) l
  | MAlert a => alert_ser a
  | MInv l | MGetData l => vector_ser inv_ser l
  | MGetBlocks l h | MGetHeaders l h => locate_ser l h
  | MHeaders l => vector_ser block_ser l
  | MTx t => tx_ser t
  | MBlock b => block_ser b
  | MPing n | MPong n => pack_u 8 n
  end.

(** [msg_deser f b]: read with [f], wrap with the class.  messages.py:127-149, 172-174 and the other msg_deser methods. *)
Definition wrap {A} (mk : A -> msg) (f : bytes -> result (A * bytes)) (s : bytes) : result (msg * bytes) :=
  do (a, s) <- f s; Ok (mk a, s).

(** messages.py:442-449 [messagemap], with the msg_deser of each class (messages.py:127-149, 172-174,
    190-194, 210-214, 230-234, 250-254, 271-276, 294-299, 316-320, 336-340, 356-360, 375-377, 393-397,
    413-417, 432-434). *)
Definition messagemap : list (bytes * (bytes -> result (msg * bytes))) :=
  [ (str "version", wrap MVersion version_de);
    (str "verack", fun s => Ok (MVerack, s));
    (str "addr", wrap MAddr (vector_de (address_de false)));
    (str "alert", wrap MAlert alert_de);
    (str "inv", wrap MInv (vector_de inv_de));
    (str "getdata", wrap MGetData (vector_de inv_de));
    (str "getblocks", wrap (fun p => MGetBlocks (fst p) (snd p)) locate_de);
    (str "getheaders", wrap (fun p => MGetHeaders (fst p) (snd p)) locate_de);
    (str "headers", wrap MHeaders (vector_de block_de));
    (str "tx", wrap MTx tx_de);
    (str "block", wrap MBlock block_de);
    (str "getaddr", fun s => Ok (MGetAddr, s));
    (str "ping", wrap MPing nonce_de);
    (str "pong", wrap MPong nonce_de);
    (str "mempool", fun s => Ok (MMempool, s)) ].

(** messages.py:101-102: command in messagemap, messagemap[command]. *)
Definition lookup (c : bytes) : option (bytes -> result (msg * bytes)) :=
  match find (fun e => bytes_eqb (fst e) c) messagemap with Some e => Some (snd e) | None => None end.

(** bitcoin/__init__.py:17, 30, 40: MESSAGE_START of MainParams, TestNetParams and RegTestParams. *)
Inductive chain := Mainnet | Testnet | Regtest.
(** bitcoin/__init__.py:17, 30, 40. *)
Definition MESSAGE_START (c : chain) : bytes :=
  match c with Mainnet => hex "f9beb4d9" | Testnet => hex "0b110907" | Regtest => hex "fabfb5da" end.

(** messages.py:54-69 [to_bytes]. *)
Definition to_bytes (c : chain) (m : msg) : result bytes :=
  do body <- msg_ser m;
  do len <- pack_u 4 (Z.of_N (blen body));
  Ok (MESSAGE_START c ++ command m ++ repeat x00 (12 - List.length (command m)) ++ len ++ firstn 4 (Hash body) ++ body).

(** bserialize.py:70-82 [ser_read] of an int that may be negative: f.read then reads all. *)
Definition ser_read_int (n : Z) (s : bytes) : result (bytes * bytes) :=
  if n <? 0 then Ok (s, []) else ser_read (Z.to_N n) s.

(** recvbuf[4:16].split(b"\x00", 1)[0], messages.py:86: up to the first zero byte. *)
Fixpoint until_zero (b : bytes) : bytes :=
  match b with [] => [] | x :: b' => if (bN x =? 0)%N then [] else x :: until_zero b' end.

(** messages.py:76-106 [stream_deserialize]: the message, or None after printing that the command is not
    known; str(command, 'ascii') raises for bytes above 127.  The header is sliced at
    fixed places; only the last slice has an end that may be negative. *)
Definition stream_deserialize (c : chain) (s : bytes) : result (option msg * bytes) :=
  do (recvbuf, s) <- ser_read 24 s;
  if negb (bytes_eqb (firstn 4 recvbuf) (MESSAGE_START c)) then Err ValueError
  else
    let cmd := until_zero (firstn 12 (skipn 4 recvbuf)) in
    let msglen := unpack_s 4 (firstn 4 (skipn 16 recvbuf)) in
    let checksum := firstn 4 (skipn 20 recvbuf) in
    do (more, s) <- ser_read_int msglen s;
    let recvbuf := recvbuf ++ more in
    do body <- py_slice recvbuf (Slice (Some 24) (Some (24 + msglen)) None);
    if negb (bytes_eqb checksum (firstn 4 (Hash body))) then Err ValueError
    else match lookup cmd with
         | Some msg_deser => do (m, _) <- msg_deser body; Ok (Some m, s)
         | None => if forallb (fun b => (bN b <? 128)%N) cmd then Ok (None, s) else Err UnicodeDecodeError
         end.

(** messages.py:71-74 [from_bytes]: always the main network. *)
Definition from_bytes (b : bytes) : result (option msg) :=
  do (m, _) <- stream_deserialize Mainnet b; Ok m.

(** bserialize.py:99-103 [serialize] with messages.py:108-110 [stream_serialize]: the main network. *)
Definition msg_serialize (m : msg) : result bytes := to_bytes Mainnet m.

(** bserialize.py:105-121 [deserialize], which also refuses bytes after the message. *)
Definition msg_deserialize (b : bytes) : result (option msg) := bdeserialize (stream_deserialize Mainnet) false b.

(** bserialize.py:123-125 [GetHash] of a message. *)
Definition msg_GetHash (m : msg) : result bytes := do b <- msg_serialize m; Ok (Hash b).

(** bserialize.py:127-131 [__eq__] of two messages.  Neither of two different message classes
    derives from the other, so both sides answer NotImplemented and == is False. *)
Definition msg_eq (m1 m2 : msg) : result bool :=
  if bytes_eqb (command m1) (command m2)
  then do a <- msg_serialize m1; do b <- msg_serialize m2; Ok (bytes_eqb a b)
  else Ok false.

(** The messages of a stream, by calling stream_deserialize [k] times on it (messages.py:76-106). *)
Fixpoint receive (c : chain) (k : nat) (s : bytes) : result (list (option msg) * bytes) :=
  match k with
  | O => Ok ([], s)
  | S k' => do (m, s) <- stream_deserialize c s; do (ms, s) <- receive c k' s; Ok (m :: ms, s)
  end.
(** A stream of messages, by writing to_bytes of each to it (messages.py:54-69). *)
Fixpoint send (c : chain) (ms : list msg) : result bytes :=
  match ms with
  | [] => Ok []
  | m :: ms' => do b <- to_bytes c m; do r <- send c ms'; Ok (b ++ r)
  end.

End Texts.
