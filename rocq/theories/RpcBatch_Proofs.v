(** Proofs for C159. *)
From Verif Require Import Base Tx_Model Block_Model Base58_Model Rpc_Model Rpc_Spec Rpc_Proofs RpcBatch_Model RpcBatch_Spec.
#[local] Open Scope Z_scope.

Lemma batch_act node pr calls s : exists o, act node pr (Batch calls) s = (o, Px (id_count s) (sent s ++ [JArr calls])) /\
  batch_outcome (node (sent s ++ [JArr calls])) o.
Proof.
  unfold act, mbind, batch. cbv zeta. unfold ret. destruct (node (sent s ++ [JArr calls])) as [e| |j]; eexists; (split; [reflexivity|]); cbn [batch_outcome].
  - reflexivity.
  - eexists. split; [reflexivity|]. eexists. split; [reflexivity|]. exists [], [("message"%string, JStr "missing HTTP response from server")]. split; [reflexivity|]. intros [].
  - reflexivity.
Qed.

Lemma act_all_told node pr l : forall s, exists js, sent (snd (act_all node pr l s)) = sent s ++ js /\
  told node (sent s) (id_count s + 1) l (fst (act_all node pr l s)) js.
Proof.
  induction l as [|a l IH]; intros s.
  - exists []. cbn [act_all snd fst]. rewrite app_nil_r. split; [reflexivity|constructor].
  - cbn [act_all]. destruct (act node pr a s) as [o s1] eqn:E. specialize (IH s1). destruct (act_all node pr l s1) as [os s2]. cbn [fst snd] in *.
    destruct IH as (js & ES & T). destruct a as [c|calls].
    + cbn [act] in E. destruct (perform_shaped node pr c s o s1 E) as [[-> (e & ->)]|(args & -> & _)].
      * exists js. split; [exact ES|]. constructor. exact T.
      * cbn [after sent id_count] in *. exists (request (id_count s + 1) (method_name c) args :: js). rewrite ES, <- app_assoc. split; [reflexivity|].
        constructor. exact T.
    + destruct (batch_act node pr calls s) as (o' & E' & B). rewrite E in E'. injection E' as -> ->. cbn [sent id_count] in *.
      exists (JArr calls :: js). rewrite ES, <- app_assoc. split; [reflexivity|]. constructor; assumption.
Qed.

Lemma told_numbered node before k l os js : told node before k l os js -> numbered k (single js) /\ filter is_batch js = batches l /\ List.length os = List.length l.
Proof.
  induction 1 as [|before k c args o l os js T (N & B & L)|before k c e l os js T (N & B & L)|before k calls o l os js O T (N & B & L)].
  - repeat split.
  - split; [cbn; split; [eauto|exact N]|]. split; [exact B|]. cbn [List.length]. congruence.
  - split; [exact N|]. split; [exact B|]. cbn [List.length]. congruence.
  - split; [exact N|]. split; [cbn; f_equal; exact B|]. cbn [List.length]. congruence.
Qed.
