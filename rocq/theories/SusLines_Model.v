(** Executable model of what the info commands of sus-tool.py print, also when they fail after some lines. *)
From Verif Require Import Base Hex_Model Tx_Model Proof_Model Chain_Model.
Local Open Scope string_scope.

(** Lines printed, and how it ends.  For sus-tool.py:227-231, 242-248. *)
Definition output : Type := list string * result unit.
(** Print a line made of a value, or stop with the exception that making it raises; then go on.  The calls of print in
    sus-tool.py:230-231, 245-248. *)
Definition line {A} (r : result A) (show : A -> string) (rest : output) : output :=
  match r with Ok x => (show x :: fst rest, snd rest) | Err e => ([], Err e) end.

(** sus-tool.py:227-231 [cmd_sealinfo].  Each print evaluates its arguments first. *)
Definition sealinfo_lines (ct : ctable) (P : chain) (file : bytes) : output :=
  match deserialize ct (p_bseal P) file with
  | Err e => ([], Err e)
  | Ok s =>
    line (phash ct s) (fun h => String.append "Hash:		" (b2x h))
    (line (seal_outpoint ct s) (fun o => String.append "OutPoint:	" (show_outpoint (b2lx (o_hash o)) (o_n o))) ([], Ok tt))
  end.

(** sus-tool.py:242-248 [cmd_witnessinfo]. *)
Definition witnessinfo_lines (ct : ctable) (P : chain) (file : bytes) : output :=
  match deserialize ct (p_bwit P) file with
  | Err e => ([], Err e)
  | Ok w =>
    line (phash ct w) (fun h => String.append "Hash:		" (b2x h))
    (line (do i <- peek ct w "txinproof"; do p <- peek ct i "txproof"; txhash ct p) (fun t => String.append "Txid:		" (b2lx t))
    (line (do s <- peek ct w "seal"; phash ct s) (fun h => String.append "Seal Hash:	" (b2x h))
    (line (do s <- peek ct w "seal"; seal_outpoint ct s) (fun o => String.append "Seal OutPoint:	" (show_outpoint (b2x (o_hash o)) (o_n o))) ([], Ok tt))))
  end.
