(** Executable model of two programs of lib/python-bitcoinlib/examples: make-bootstrap-rpc.py (cited as boot.py) and
    timestamp-op-ret.py (stamp.py).  What they write to the standard error stream is left out. *)
From Verif Require Import Base Sha256 Hex_Model Tx_Model Block_Model Script_Model Base58_Model Rpc_Model Conf_Model Net_Model.
#[local] Open Scope string_scope.
#[local] Open Scope list_scope.

(** boot.py, stamp.py: how a run ends (Val: normally), what it wrote to the standard output, and the requests sent to the node.
    boot.py:14-61, stamp.py:14-77. *)
Record run := Run { r_end : outcome unit; r_out : bytes; r_sent : list json }.

(** lib/python-bitcoinlib/bitcoin/__init__.py:56-72 [SelectParams(name)]; [_SelectCoreParams] in lib/python-bitcoinlib/bitcoin/core/__init__.py:564-578
    knows the same names. *)
Definition SelectParams (name : text) : result chain :=
  if is_text name "mainnet" then Ok Mainnet
  else if is_text name "testnet" then Ok Testnet
  else if is_text name "regtest" then Ok Regtest
  else Err ValueError.
(** lib/python-bitcoinlib/bitcoin/__init__.py:16-47: the prefixes of the network chosen. *)
Definition prefixes_of (c : chain) : prefixes := match c with Mainnet => mainnet | Testnet => testnet | Regtest => regtest end.

Section Prog.
Context (ip_ok : text -> bool) (node : list json -> reply) (conf : option text).

(** ** make-bootstrap-rpc.py *)

(** boot.py:29-39: the arguments after the name of the program; whatever goes wrong, the program exits with status 1. *)
Definition boot_args (argv : list text) : result (Z * chain) :=
  match argv with
  | [n] => match int_of n with Ok n => Ok (n, Mainnet) | Err _ => Err SystemExit end
  | [n; net] => match (do n <- int_of n; do c <- SelectParams net; Ok (n, c)) with Ok r => Ok r | Err _ => Err SystemExit end
  | _ => Err SystemExit
  end.

(** boot.py:49-51: one block, serialized. *)
Definition boot_block (i : Z) : M bytes := fun s =>
  match getblockhash node i s with
  | (Val (PBytes h), s) =>
    match getblock node h s with
    | (Val (PBlock b), s) => lift (block_ser b) s
    | (Val _, s) => (Exc TypeError, s)
    | (Rpc e, s) => (Rpc e, s)
    | (Exc e, s) => (Exc e, s)
    end
  | (Val _, s) => (Exc TypeError, s)
  | (Rpc e, s) => (Rpc e, s)
  | (Exc e, s) => (Exc e, s)
  end.

(** boot.py:48-61 for the heights given.  [stopped i]: the clock shows the time of the start when block [i] has come; the speed
    printed is a quotient by the time passed (54-57). *)
Fixpoint boot_loop (stopped : Z -> bool) (c : chain) (heights : list Z) (out : bytes) (s : proxy) : outcome unit * bytes * proxy :=
  match heights with
  | [] => (Val tt, out, s)
  | i :: heights' =>
    match boot_block i s with
    | (Rpc e, s) => (Rpc e, out, s)
    | (Exc e, s) => (Exc e, out, s)
    | (Val b, s) =>
      if stopped i then (Exc ZeroDivisionError, out, s)
      else match pack_s 4 (Z.of_N (blen b)) with
           | Err e => (Exc e, out ++ MESSAGE_START c, s)
           | Ok len => boot_loop stopped c heights' (out ++ MESSAGE_START c ++ len ++ b) s
           end
    end
  end.

(** boot.py:29-61; [conf] is what the configuration file contains. *)
Definition make_bootstrap (stopped : Z -> bool) (argv : list text) : run :=
  match boot_args argv with
  | Err e => Run (Exc e) [] []
  | Ok (n, c) =>
    match raw_proxy ip_ok (prefixes_of c) None None conf with
    | Err e => Run (Exc e) [] []
    | Ok _ =>
      let '(r, out, s) := boot_loop stopped c (map Z.of_nat (seq 0 (Z.to_nat (n + 1)))) [] new_proxy in
      Run r out (sent s)
    end
  end.

(** ** timestamp-op-ret.py *)

(** stamp.py:35: what open finds by a name: a file that can be read, none, or something else, such as a directory. *)
Inductive found := Contents (b : bytes) | NotFound | Unreadable.

(** stamp.py:33-44: the digests of the files named, or given in hex. *)
Fixpoint stamp_digests (files : string -> found) (names : list string) : result (list bytes) :=
  match names with
  | [] => Ok []
  | f :: names' =>
    match files f with
    | Contents b => do r <- stamp_digests files names'; Ok (Hash b :: r)
    | NotFound =>
      if ((String.length f =? 40) || (String.length f =? 64))%nat
      then do d <- x_hex f; do r <- stamp_digests files names'; Ok (d :: r)
      else Err OSError
    | Unreadable => stamp_digests files names'
    end
  end.

(** stamp.py:46-58 for one digest.  [script] is not among the names that the two modules of 25-26 export
    (lib/python-bitcoinlib/bitcoin/core/__init__.py:736-772, lib/python-bitcoinlib/bitcoin/core/script.py:868-1008), so 58 raises NameError.  Which output comes last by the hash
    of its amount (49) makes no difference before that. *)
Definition stamp_one (digest : bytes) : M unit := fun s =>
  match listunspent node mainnet 0 9999999 None s with
  | (Val (PList []), s) => (Exc IndexError, s)
  | (Val (PList _), s) =>
    match getnewaddress node mainnet None s with
    | (Val (PAddr a), s) =>
      match validateaddress node mainnet a s with
      | (Val (PDict d), s) =>
        match dget "pubkey" d with
        | Some (PBytes p) => match cscript [IData p; IOp 0xac] with Ok _ => (Exc NameError, s) | Err e => (Exc e, s) end
        | Some _ => (Exc TypeError, s)
        | None => (Exc KeyError, s)
        end
      | (Val _, s) => (Exc TypeError, s)
      | (Rpc e, s) => (Rpc e, s)
      | (Exc e, s) => (Exc e, s)
      end
    | (Val _, s) => (Exc TypeError, s)
    | (Rpc e, s) => (Rpc e, s)
    | (Exc e, s) => (Exc e, s)
    end
  | (Val _, s) => (Exc TypeError, s)
  | (Rpc e, s) => (Rpc e, s)
  | (Exc e, s) => (Exc e, s)
  end.

(** stamp.py:46-77. *)
Fixpoint stamp_all (digests : list bytes) (s : proxy) : outcome unit * proxy :=
  match digests with
  | [] => (Val tt, s)
  | d :: digests' =>
    match stamp_one d s with
    | (Val _, s) => stamp_all digests' s
    | (Rpc e, s) => (Rpc e, s)
    | (Exc e, s) => (Exc e, s)
    end
  end.

(** stamp.py:28-77: the names given, the files; nothing is printed before the failure. *)
Definition timestamp (files : string -> found) (names : list string) : run :=
  match raw_proxy ip_ok mainnet None None conf with
  | Err e => Run (Exc e) [] []
  | Ok _ =>
    match names with
    | [] => Run (Exc AssertionError) [] []
    | _ =>
      match stamp_digests files names with
      | Err e => Run (Exc e) [] []
      | Ok digests => let '(r, s) := stamp_all digests new_proxy in Run r [] (sent s)
      end
    end
  end.
End Prog.
