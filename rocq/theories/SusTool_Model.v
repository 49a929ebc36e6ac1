(** Executable model of sus-tool.py as a program: command line, files, configuration, node, what it prints and how it ends.
    The commands themselves are those of Chain_Model.v.  argparse is modelled by what happens to the arguments in their order; the file
    name "-", which argparse takes for the standard streams, is taken for a file here.  Files can be read and created unless
    they are missing or there already; directories, permissions and full disks are left out, and other programs do not change
    files meanwhile. *)
From Verif Require Import Base Sha256 Serialize_Model Tx_Model Base58_Model Proof_Model Proof_Spec Hex_Model Rpc_Model Conf_Model Chain_Model.
#[local] Open Scope string_scope.
#[local] Open Scope list_scope.

(** ** Files *)

(** sus-tool.py:87, 103, 141, 182: what open() finds by a name. *)
Definition disk := string -> option bytes.
(** sus-tool.py:87, 182 [open(name, 'xb')] and write. *)
Definition put (d : disk) (name : string) (b : bytes) : disk := fun n => if String.eqb n name then Some b else d n.
(** sus-tool.py:103, 141, 191, 198, 224, 239 [argparse.FileType('rb')].  The file is read later (sus-tool.py:122, 165, 208, 228, 243); it is the same then. *)
Definition open_rb (d : disk) (name : string) : result bytes := match d name with Some b => Ok b | None => Err SystemExit end.
(** sus-tool.py:103-104, 141-142: the names and contents of all files in the list; at least one is required (nargs='+'). *)
Fixpoint open_all (d : disk) (names : list string) : result (list (string * bytes)) :=
  match names with [] => Ok [] | n :: names' => do b <- open_rb d n; do r <- open_all d names'; Ok ((n, b) :: r) end.
(** sus-tool.py:103-104, 141-142: nargs='+'. *)
Definition open_some (d : disk) (names : list string) : result (list (string * bytes)) :=
  match names with [] => Err SystemExit | _ => open_all d names end.

(** ** The command line *)

(** sus-tool.py:107-117. *)
Inductive meth := MDefault | MOpReturn | MP2sh | MP2pkh.
(** sus-tool.py:107-117: the name of the method. *)
Definition meth_name (m : meth) : string := match m with MDefault | MOpReturn => "op_return" | MP2sh => "p2sh" | MP2pkh => "p2pkh" end.
(** sus-tool.py:145-151: one of them is required. *)
Inductive closing := ByTxid (txid : string) | ByTx (tx : string).
(** sus-tool.py:78-250: the commands with their arguments, as texts; none may be given (275). *)
Inductive command :=
| Mkseal (outpoint : string) (file : string)
| Mkclosetx (digest : string) (files : list string) (m : meth)
| Mkwitness (files : list string) (how : closing)
| Verifywitness (file : string) (digest : option string) (seal_file seal_id : option string) (local : bool)
| Sealinfo (file : string)
| Witnessinfo (file : string)
| NoCommand.
(** sus-tool.py:67-76; -q and -v, which only change logging, are left out. *)
Record options := Options { testnet_flag : bool; dryrun : bool }.

(** sus-tool.py:254: the attributes of args after parsing, with the contents of the files opened. *)
Inductive parsed :=
| PMkseal (o : outpoint) (file : string)
| PMkclosetx (digest : bytes) (fds : list (string * bytes)) (m : meth)
| PMkwitness (fds : list (string * bytes)) (how : bytes + bytes)
| PVerifywitness (fd : bytes) (digest : option bytes)
| PSealinfo (fd : bytes)
| PWitnessinfo (fd : bytes)
| PNone.

(** sus-tool.py:146-151 [type=lx], [type=x]: argparse makes SystemExit of ValueError. *)
Definition closing_arg (c : closing) : result (bytes + bytes) :=
  or_exit (match c with ByTxid s => do b <- lx s; Ok (inl b) | ByTx s => do b <- x_hex s; Ok (inr b) end).
(** sus-tool.py:193-202: an option, None if it is not given. *)
Definition opt_arg {A} (f : string -> result A) (o : option string) : result (option A) :=
  match o with None => Ok None | Some s => do a <- f s; Ok (Some a) end.
(** sus-tool.py:254 [parser.parse_args()].  The file of mkseal is created here, empty (87); the seal file and seal id of verifywitness are
    read and then not used (197-202, 216). *)
Definition parse_args (d : disk) (c : command) : result parsed * disk :=
  match c with
  | Mkseal o file =>
    match parse_outpoint o with
    | Err e => (Err e, d)
    | Ok o => match d file with Some _ => (Err SystemExit, d) | None => (Ok (PMkseal o file), put d file []) end
    end
  | Mkclosetx digest files m => (do h <- parse_digest digest; do fds <- open_some d files; Ok (PMkclosetx h fds m), d)
  | Mkwitness files how => (do fds <- open_some d files; do b <- closing_arg how; Ok (PMkwitness fds b), d)
  | Verifywitness file digest seal_file seal_id _ =>
    (do fd <- open_rb d file; do h <- opt_arg parse_digest digest; do _ <- opt_arg (open_rb d) seal_file; do _ <- opt_arg parse_digest seal_id;
     Ok (PVerifywitness fd h), d)
  | Sealinfo file => (do fd <- open_rb d file; Ok (PSealinfo fd), d)
  | Witnessinfo file => (do fd <- open_rb d file; Ok (PWitnessinfo fd), d)
  | NoCommand => (Ok PNone, d)
  end.

(** ** The commands *)

Section Tool.
Context (ct : ctable) (P : chain) (ip_ok : text -> bool) (node : list json -> reply) (conf_name : string).

(** sus-tool.py:254-279: how a run of the tool ends: what it raises (Val: it ends normally), the files then, the lines printed, and the requests sent to the node. *)
Record ending := Ending { e_result : outcome unit; e_files : disk; e_out : list string; e_sent : list json }.

(** sus-tool.py:165-178: the witness, before it is serialized. *)
Definition make_witness (t : tx) (txproof : val) (f : bytes) : result val :=
  do s <- deserialize ct (p_bseal P) f;
  do i <- find_input ct s 0 (t_vin t);
  match i with
  | None => Err SystemExit
  | Some i =>
    do a <- construct ct (p_txin P) [("i", VPrim (PyInt i)); ("txproof", txproof)];
    do b <- construct ct (p_txout P) [("i", VPrim (PyInt 0)); ("txproof", txproof)];
    construct ct (p_bwit P) [("seal", s); ("txinproof", a); ("txoutproof", b)]
  end.
(** sus-tool.py:164-183: FileExistsError is written OSError. *)
Fixpoint write_witnesses (t : tx) (txproof : val) (fds : list (string * bytes)) (d : disk) : outcome unit * disk :=
  match fds with
  | [] => (Val tt, d)
  | (name, f) :: fds' =>
    match make_witness t txproof f with
    | Err e => (Exc e, d)
    | Ok w =>
      let witness := String.append name ".witness" in
      match d witness with
      | Some _ => (Exc OSError, d)
      | None =>
        match ser_proof ct w with
        | Err e => (Exc e, put d witness [])
        | Ok b => write_witnesses t txproof fds' (put d witness b)
        end
      end
    end
  end.
(** sus-tool.py:153-162: the transaction; what a node sends that is no transaction has raised before. *)
Definition closing_tx (how : bytes + bytes) : M tx :=
  match how with
  | inr raw => lift (bdeserialize tx_de false raw)
  | inl txid => fun s =>
    match getrawtransaction node txid false s with
    | (Val (PTx t), s') => (Val t, s')
    | (Val _, s') => (Exc AttributeError, s')
    | (Rpc e, s') => (Rpc e, s')
    | (Exc e, s') => (Exc e, s')
    end
  end.
(** sus-tool.py:153-183 [cmd_mkwitness]. *)
Definition tool_mkwitness (fds : list (string * bytes)) (how : bytes + bytes) (d : disk) : ending :=
  let '(r, s) := closing_tx how new_proxy in
  match r with
  | Val t =>
    match construct ct (p_tx P) [("tx", VTx t)] with
    | Ok txproof => let '(r, d') := write_witnesses t txproof fds d in Ending r d' [] (sent s)
    | Err e => Ending (Exc e) d [] (sent s)
    end
  | Rpc e => Ending (Rpc e) d [] (sent s)
  | Exc e => Ending (Exc e) d [] (sent s)
  end.
(** sus-tool.py:134, 230-231, 245-248: a command that prints lines.  Simplified: lines printed before it fails are left out. *)
Definition printing (d : disk) (r : result (list string)) : ending :=
  match r with Ok l => Ending (Val tt) d l [] | Err e => Ending (Exc e) d [] [] end.
(** sus-tool.py:275-279: cmd_func; those of sus-tool.py:90-92, 119-134, 153-183, 207-216, 227-231, 242-248. *)
Definition command_of (p : parsed) (d : disk) : ending :=
  match p with
  | PMkseal o file => match cmd_mkseal ct P o with Ok b => Ending (Val tt) (put d file b) [] [] | Err e => Ending (Exc e) d [] [] end
  | PMkclosetx h fds m => printing d (do s <- cmd_mkclosetx ct P h (map snd fds) (meth_name m); Ok [s])
  | PMkwitness fds how => tool_mkwitness fds how d
  | PVerifywitness fd h => printing d (do _ <- cmd_verifywitness ct P fd h; Ok [])
  | PSealinfo fd => printing d (do p <- cmd_sealinfo ct P fd; Ok [String.append "Hash:		" (fst p); String.append "OutPoint:	" (snd p)])
  | PWitnessinfo fd =>
    printing d (do p <- cmd_witnessinfo ct P fd;
                let '(h, t, sh, o) := p in
                Ok [String.append "Hash:		" h; String.append "Txid:		" t; String.append "Seal Hash:	" sh; String.append "Seal OutPoint:	" o])
  | PNone => Ending (Exc SystemExit) d [] []
  end.
(** The file bitcoin.conf as text (rpc.py:81 of lib/python-bitcoinlib/bitcoin). *)
Definition conf_text (d : disk) : option text := option_map (map ascii_of_byte) (d conf_name).
(** sus-tool.py:270-271 [bitcoin.SelectParams('testnet')]. *)
Definition network (o : options) : prefixes := if testnet_flag o then testnet else mainnet.
(** sus-tool.py:254-279: the whole run.  The proxy is made for all commands (273). *)
Definition sus_tool (o : options) (c : command) (d : disk) : ending :=
  match parse_args d c with
  | (Err e, d) => Ending (Exc e) d [] []
  | (Ok p, d) =>
    match raw_proxy ip_ok (network o) None None (conf_text d) with
    | Err e => Ending (Exc e) d [] []
    | Ok _ => command_of p d
    end
  end.

End Tool.
