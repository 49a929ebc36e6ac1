(** Vocabulary for the properties of sus-tool.py as a program. *)
From Verif Require Import Base Tx_Model Tx_Spec Base58_Model Proof_Model Proof_Spec Chain_Model Chain_Spec Grammar_Spec Rpc_Model Rpc_Spec Conf_Model Conf_Spec SusTool_Model.
#[local] Open Scope string_scope.
#[local] Open Scope list_scope.

(** A configuration from which a proxy can be made: user and password without special characters, a valid port and rpcssl if there are any. *)
Definition usable_conf (pr : prefixes) (file : text) : Prop :=
  exists ls d n b user pw, lines_of file ls /\ ascii_text file /\ asked_port pr None d /\ port_of ls d n /\ (0 <= n <= 65535)%Z /\ ssl_of ls b /\
    setting "rpcuser" ls user /\ setting "rpcpassword" ls pw /\ clean user /\ clean pw.
(** The characters of a file in ASCII. *)
Definition spells (b : bytes) (t : text) : Prop := Forall2 (fun x c => bN x = N_of_ascii c) b t.
Definition configured (o : options) (conf_name : string) (d : disk) : Prop :=
  exists b t, d conf_name = Some b /\ spells b t /\ usable_conf (network o) t.

(** The run ends normally. *)
Definition succeeds (e : ending) : Prop := e_result e = Val tt.

(** The name of the witness file for a seal file. *)
Definition witness_name (n : string) : string := (n ++ ".witness")%string.

(** The file [n] holds a seal for the outpoint [fst on] with the nonce [snd on]. *)
Definition holds_seal (ct : ctable) (P : chain) (d : disk) (n : string) (on : outpoint * bytes) : Prop :=
  exists f, d n = Some f /\ deserialize ct (p_bseal P) f = Ok (Seal P (fst on) (snd on)).

(** [b] is a witness file that the seal in [f] was closed by the transaction [t], and is valid. *)
Definition valid_witness (ct : ctable) (P : chain) (t : tx) (f b : bytes) : Prop :=
  exists o n i x, deserialize ct (p_bseal P) f = Ok (Seal P o n) /\
    deserialize ct (p_bwit P) b = Ok (Witness P (Seal P o n) (TxInProof P i (TxProof P t)) (TxOutProof P 0 (TxProof P t))) /\
    input t i x /\ i_prevout x = o /\ cmd_verifywitness ct P b None = Ok tt.

(** The files a command names to be read. *)
Definition reads_files (c : command) : list string :=
  match c with
  | Mkseal _ _ | NoCommand => []
  | Mkclosetx _ files _ => files
  | Mkwitness files _ => files
  | Verifywitness f _ s _ _ => f :: match s with Some s => [s] | None => [] end
  | Sealinfo f | Witnessinfo f => [f]
  end.
(** Commands that only look at files. *)
Definition looks (c : command) : Prop :=
  match c with Mkclosetx _ _ _ | Verifywitness _ _ _ _ _ | Sealinfo _ | Witnessinfo _ => True | _ => False end.

(** [s] is [b] in hex digits, with whitespace before, between and after the bytes. *)
Inductive spaced_hex : string -> bytes -> Prop :=
| spaced_nil : spaced_hex "" []
| spaced_skip : forall c s b, In (N_of_ascii c) [9; 10; 11; 12; 13; 32]%N -> spaced_hex s b -> spaced_hex (String c s) b
| spaced_byte : forall c1 c2 n1 n2 x s b, digit_text c1 n1 -> digit_text c2 n2 -> bN x = N.of_nat (16 * n1 + n2) -> spaced_hex s b ->
    spaced_hex (String c1 (String c2 s)) (x :: b).
Definition digest_text (s : string) (h : bytes) : Prop := spaced_hex s h /\ List.length h = 32%nat.

(** The transaction that [--tx] gives. *)
Definition given (how : closing) (t : tx) : Prop := exists s b, how = ByTx s /\ hex_text s b /\ tx_text t b.
