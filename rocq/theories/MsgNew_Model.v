(** Executable model of making messages: the constructors in lib/python-bitcoinlib/bitcoin/messages.py (messages.py)
    and of what they hold, and of the program lib/python-bitcoinlib/examples/msg-serializable.py. *)
From Verif Require Import Base Tx_Model Block_Model Base58_Model Net_Model Repr_Model MsgRepr_Model.
Local Open Scope Z_scope.
Local Open Scope list_scope.

(** messages.py:442-445: the classes. *)
Inductive msg_class :=
| NewVersion | NewVerack | NewAddr | NewAlert | NewInv | NewGetData | NewGetBlocks | NewGetHeaders | NewHeaders | NewTx | NewBlock | NewGetAddr
| NewPing (nonce : Z) | NewPong (nonce : Z) | NewMempool.
(** net.py:84-88 [CBlockLocator()]. *)
Definition locator_new : locator := mkLocator PROTO_VERSION [].
(** net.py:159-162 [CAlert()]. *)
Definition alert_new : alert := mkAlert [] [].

(** messages.py:116-125 [msg_version(protover)]; [now] is int(time.time()) and [random] random.getrandbits(64). *)
Definition version_new (protover now random : Z) : version :=
  mkVersion protover 1 now (address_new PROTO_VERSION) (Some (address_new PROTO_VERSION)) (Some random) (Some (str "/python-bitcoin-0.0.1/")) (Some (-1)).

(** messages.py:116-125, 168-170, 186-188, 206-208, 226-228, 246-248, 266-269, 289-292, 312-314, 332-334, 352-354, 372-373,
    389-391, 409-411, 429-430: the constructors, with CTransaction() (core.py:307) and CBlock() (core.py:490).  The attribute
    protover of messages is left out: nothing reads it.  The nonce of ping and pong is part of the class here; it is 0 by
    default. *)
Definition msg_new (c : msg_class) (protover now random : Z) : result msg :=
  match c with
  | NewVersion => Ok (MVersion (version_new protover now random))
  | NewVerack => Ok MVerack
  | NewAddr => Ok (MAddr [])
  | NewAlert => Ok (MAlert alert_new)
  | NewInv => Ok (MInv [])
  | NewGetData => Ok (MGetData [])
  | NewGetBlocks => Ok (MGetBlocks locator_new (repeat x00 32))
  | NewGetHeaders => Ok (MGetHeaders locator_new (repeat x00 32))
  | NewHeaders => Ok (MHeaders [])
  | NewTx => do t <- tx_new [] [] 0 1; Ok (MTx t)
  | NewBlock => do b <- block_new 2 (repeat x00 32) (repeat x00 32) 0 0 0 []; Ok (MBlock b)
  | NewGetAddr => Ok MGetAddr
  | NewPing n => Ok (MPing n)
  | NewPong n => Ok (MPong n)
  | NewMempool => Ok MMempool
  end.

Section Program.
Context (other : string -> option bytes) (ctime : Z -> result text).

(** msg-serializable.py:29-34: the body of the loop, and the lines it prints.  print of a message prints its repr. *)
Definition show (c : msg_class) (name : text) (now random : Z) : result (list text) :=
  do m <- msg_new c PROTO_VERSION now random;
  do r <- msg_repr ctime m;
  do b <- to_bytes other Mainnet m;
  Ok [name ++ T " repr:"; r; name ++ T " serialized:"; bytes_repr b].
(** msg-serializable.py:25-34, the whole program.  Lines printed before an exception are left out. *)
Definition msg_serializable (now random : Z) : result (list text) :=
  do v <- show NewVersion (T "msg_version") now random;
  do t <- show NewTx (T "msg_tx") now random;
  do b <- show NewBlock (T "msg_block") now random;
  Ok (v ++ t ++ b).
End Program.
