(** Vocabulary for C159: the requests a node sees when calls and batches are mixed. *)
From Verif Require Import Base Tx_Model Block_Model Base58_Model Rpc_Model Rpc_Spec RpcBatch_Model.
#[local] Open Scope Z_scope.

(** What a batch gives when the node replies [r]: whatever the node answered, be it results, errors or something else. *)
Definition batch_outcome (r : reply) (o : outcome pv) : Prop :=
  match r with
  | Answer j => o = Val (PJ j)
  | NoReply => exists e, o = Rpc e /\ entry "code" (JInt (-342)) e
  | Broken e => o = Exc e
  end.

(** [told node before k l os js]: a node that has seen the requests [before] is told [js] by the program [l],
    with [k] the number of the next call and [os] the outcomes in the program.  One request for each, in order; a call
    that raises an exception may have sent none; a batch is sent as it is, without a number. *)
Inductive told (node : list json -> reply) : list json -> Z -> list action -> list (outcome pv) -> list json -> Prop :=
| T_end before k : told node before k [] [] []
| T_call before k c args o l os js : told node (before ++ [request k (method_name c) args]) (k + 1) l os js ->
    told node before k (Call c :: l) (o :: os) (request k (method_name c) args :: js)
| T_raised before k c e l os js : told node before k l os js -> told node before k (Call c :: l) (Exc e :: os) js
| T_batch before k calls o l os js : batch_outcome (node (before ++ [JArr calls])) o -> told node (before ++ [JArr calls]) k l os js ->
    told node before k (Batch calls :: l) (o :: os) (JArr calls :: js).

(** The batches of a program; the requests that are not batches. *)
Definition batches (l : list action) : list json := flat_map (fun a => match a with Batch calls => [JArr calls] | Call _ => [] end) l.
Definition is_batch (j : json) : bool := match j with JArr _ => true | _ => false end.
Definition single (js : list json) : list json := filter (fun j => negb (is_batch j)) js.
