(** Executable model of the printed forms of network messages: lib/python-bitcoinlib/bitcoin/net.py (net.py)
    and lib/python-bitcoinlib/bitcoin/messages.py (messages.py).  Python 3 only. *)
From Verif Require Import Base Tx_Model Block_Model Money_Model Hex_Model Base58_Model Net_Model Repr_Model.
Local Open Scope Z_scope.
Local Open Scope list_scope.

(** net.py:56-57 [CAddress.__repr__]. *)
Definition caddress_repr (a : Net_Model.address) : text :=
  T "CAddress(nTime=" ++ fmt_i (Net_Model.a_nTime a) ++ T " nServices=" ++ fmt_i (Net_Model.a_nServices a) ++
  T " ip=" ++ T (Net_Model.a_ip a) ++ T " port=" ++ fmt_i (Net_Model.a_port a) ++ T ")".

(** net.py:61-65 [CInv.typemap], and the lookup in line 83. *)
Definition typemap (t : Z) : result text :=
  if t =? 0 then Ok (T "Error") else if t =? 1 then Ok (T "TX") else if t =? 2 then Ok (T "Block")
  else if t =? 3 then Ok (T "FilteredBlock") else Err KeyError.
(** net.py:82-83 [CInv.__repr__]; hexlify makes bytes, which %s prints as a bytes literal. *)
Definition inv_repr (v : inv) : result text :=
  do n <- typemap (v_type v);
  Ok (T "CInv(type=" ++ n ++ T " hash=b'" ++ T (to_hex (v_hash v)) ++ T "')").

(** net.py:102-103 [CBlockLocator.__repr__]. *)
Definition locator_repr (l : locator) : text :=
  T "CBlockLocator(nVersion=" ++ fmt_i (l_nVersion l) ++ T " vHave=" ++ list_repr (map bytes_repr (l_vHave l)) ++ T ")".

(** net.py:175-176 [CAlert.__repr__]. *)
Definition alert_repr (a : alert) : text :=
  T "CAlert(vchMsg.sz " ++ fmt_i (Z.of_nat (List.length (al_vchMsg a))) ++ T ", vchSig.sz " ++ fmt_i (Z.of_nat (List.length (al_vchSig a))) ++ T ")".

(** %016X of a number that is not negative, in messages.py:162: digits in upper case. *)
Definition upper (c : ascii) : ascii := let n := N_of_ascii c in if ((97 <=? n) && (n <=? 122))%N then ascii_of_N (n - 32) else c.
(** %016X, messages.py:162. *)
Definition fmt_016X (z : Z) : text := let d := map upper (fmt_x z) in repeat "0"%char (16 - List.length d) ++ d.

(** messages.py:161-162 [msg_version.__repr__].  [ctime] is time.ctime, which raises for times that the C
    library has no date for; it is called before anything is printed.  None prints as a text (%s) but is no number
    (%i, %X). *)
Definition version_repr (ctime : Z -> result text) (v : version) : result text :=
  do t <- ctime (n_nTime v);
  do n <- match n_nNonce v with Some n => Ok (fmt_016X n) | None => Err TypeError end;
  do h <- match n_nStartingHeight v with Some h => Ok (fmt_i h) | None => Err TypeError end;
  Ok (T "msg_version(nVersion=" ++ fmt_i (n_nVersion v) ++ T " nServices=" ++ fmt_i (n_nServices v) ++ T " nTime=" ++ t ++
      T " addrTo=" ++ caddress_repr (n_addrTo v) ++
      T " addrFrom=" ++ match n_addrFrom v with Some a => caddress_repr a | None => T "None" end ++
      T " nNonce=0x" ++ n ++
      T " strSubVer=" ++ match n_strSubVer v with Some s => bytes_repr s | None => T "None" end ++
      T " nStartingHeight=" ++ h ++ T ")").

(** messages.py:161-162, 179-180, 199-200, 219-220, 239-240, 259-260, 282-283, 305-306, 325-326, 345-346, 365-366,
    382-383, 402-403, 422-423, 439-440: [__repr__] of each class.  The lists are Python lists; the headers of
    msg_headers are CBlock objects (messages.py:319) and the transaction of msg_tx an immutable one (339). *)
Definition msg_repr (ctime : Z -> result text) (m : msg) : result text :=
  match m with
  | MVersion v => version_repr ctime v
  | MVerack => Ok (T "msg_verack()")
  | MAddr l => Ok (T "msg_addr(addrs=" ++ list_repr (map caddress_repr l) ++ T ")")
  | MAlert a => Ok (T "msg_alert(alert=" ++ alert_repr a ++ T ")")
  | MInv l => do s <- mapM inv_repr l; Ok (T "msg_inv(inv=" ++ list_repr s ++ T ")")
  | MGetData l => do s <- mapM inv_repr l; Ok (T "msg_getdata(inv=" ++ list_repr s ++ T ")")
  | MGetBlocks l h => Ok (T "msg_getblocks(locator=" ++ locator_repr l ++ T " hashstop=" ++ T (to_hex h) ++ T ")")
  | MGetHeaders l h => Ok (T "msg_getheaders(locator=" ++ locator_repr l ++ T " hashstop=" ++ T (to_hex h) ++ T ")")
  | MHeaders l => Ok (T "msg_headers(headers=" ++ list_repr (map block_repr l) ++ T ")")
  | MTx t => do s <- tx_repr Imm t; Ok (T "msg_tx(tx=" ++ s ++ T ")")
  | MBlock b => Ok (T "msg_block(block=" ++ block_repr b ++ T ")")
  | MGetAddr => Ok (T "msg_getaddr()")
  | MPing n => Ok (T "msg_ping(0x" ++ fmt_x n ++ T ")")
  | MPong n => Ok (T "msg_pong(0x" ++ fmt_x n ++ T ")")
  | MMempool => Ok (T "msg_mempool()")
  end.
