(** Property C159: calls and batches on one proxy. *)
From Verif Require Import Base Tx_Model Block_Model Base58_Model Base58_Spec Rpc_Model Rpc_Spec RpcBatch_Model RpcBatch_Spec RpcBatch_Proofs.
#[local] Open Scope string_scope.
#[local] Open Scope list_scope.
#[local] Open Scope Z_scope.

(** C159: the node is told what the program does, step by step, and every batch gives what the node answered to it. *)
Theorem C159_calls_and_batches : forall node pr l,
  told node [] 1 l (fst (act_all node pr l new_proxy)) (sent (snd (act_all node pr l new_proxy))).
Proof.
  intros node pr l. destruct (act_all_told node pr l new_proxy) as (js & E & T). rewrite E. exact T.
Qed.

(** Hence batches do not disturb the numbers of the calls, and no batch is lost, changed or sent twice. *)
Theorem C159_numbers : forall node pr l, let js := sent (snd (act_all node pr l new_proxy)) in
  numbered 1 (single js) /\ filter is_batch js = batches l.
Proof.
  intros node pr l js. destruct (told_numbered _ _ _ _ _ _ (C159_calls_and_batches node pr l)) as (N & B & _). split; assumption.
Qed.

(** A call after a batch, a batch with an answer that tells of an error, and a call that is refused before anything is sent. *)
Definition busy (js : list json) : reply :=
  match List.last js JNull with
  | JArr _ => Answer (JArr [JObj [("error", JStr "no"); ("result", JNull)]])
  | _ => Answer (JObj [("error", JNull); ("result", JInt 7)])
  end.
Example C159_instance : act_all busy mainnet
    [Call (GetBalance "*" 1); Batch [JObj [("method", JStr "stop")]]; Call (Other "__len__" []); Call (Other "getblockcount" []); Batch []] new_proxy =
  ([Val (PInt 700000000); Val (PJ (JArr [JObj [("error", JStr "no"); ("result", JNull)]])); Exc AttributeError; Val (PJ (JInt 7));
    Val (PJ (JArr [JObj [("error", JStr "no"); ("result", JNull)]]))],
   Px 2 [request 1 "getbalance" [JStr "*"; JInt 1]; JArr [JObj [("method", JStr "stop")]]; request 2 "getblockcount" []; JArr []]).
Proof. vm_compute. reflexivity. Qed.
Print Assumptions C159_calls_and_batches.
Print Assumptions C159_numbers.
