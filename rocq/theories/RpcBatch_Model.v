(** A proxy used for single calls and for batches.
    Models lib/python-bitcoinlib/bitcoin/rpc.py:131-185, 211-468. *)
From Verif Require Import Base Tx_Model Block_Model Base58_Model Rpc_Model.

(** rpc.py:154-165, 168-177, 211-468: what a program does with a proxy, a method or [_batch(calls)]. *)
Inductive action := Call (c : rpc) | Batch (calls : list json).

(** rpc.py:168-177, 211-468: one of them. *)
Definition act (node : list json -> reply) (pr : prefixes) (a : action) : M pv :=
  match a with
  | Call c => perform node pr c
  | Batch calls => mbind (batch node calls) (fun j => ret (PJ j))
  end.

(** A program that uses one proxy: any sequence of methods and batches of rpc.py:168-177, 211-468. *)
Fixpoint act_all (node : list json -> reply) (pr : prefixes) (l : list action) (s : proxy) : list (outcome pv) * proxy :=
  match l with
  | [] => ([], s)
  | a :: l' => let '(o, s) := act node pr a s in let '(os, s) := act_all node pr l' s in (o :: os, s)
  end.
