(** Proofs about Rpc_Model.v: requests and answers. *)
From Verif Require Import Base Hex_Model Tx_Model Tx_Spec Tx_Proofs Block_Model Block_Spec Block_Proofs Base58_Model Rpc_Model Rpc_Spec
  ChainPipe_Proofs NetErr_Proofs Grammar_Spec Grammar_Proofs.
From Coq Require Import ZifyBool ZifyNat ZifyN.
#[local] Open Scope string_scope.
#[local] Open Scope list_scope.

(** ** Dicts *)

Lemma dget_holds {A} k (v : A) l : dget k l = Some v <-> holds k v l.
Proof.
  split.
  - induction l as [|[k' v'] l IH]; [discriminate|]. cbn [dget]. destruct (String.eqb_spec k k') as [->|N]; intros H.
    + inversion H; subst. exists [], l. split; [reflexivity|intros []].
    + destruct (IH H) as (l1 & l2 & -> & F). exists ((k', v') :: l1), l2. split; [reflexivity|]. cbn. intros [E|E]; [congruence|exact (F E)].
  - intros (l1 & l2 & -> & F). induction l1 as [|[k' v'] l1 IH]; cbn [app dget].
    + rewrite String.eqb_refl. reflexivity.
    + cbn in F. destruct (String.eqb_spec k k') as [->|N]; [tauto|]. apply IH. tauto.
Qed.
Lemma dget_none {A} k (l : list (string * A)) : dget k l = None <-> ~ In k (map fst l).
Proof.
  induction l as [|[k' v'] l IH]; cbn [dget map fst In]; [split; auto; intros []|].
  destruct (String.eqb_spec k k') as [->|N]; [split; [discriminate|intros H; tauto]|].
  rewrite IH. split; [intros H [E|E]; [congruence|tauto]|tauto].
Qed.
Lemma item_entry k r v : item k r = Ok v <-> entry k v r.
Proof.
  unfold item, as_dict, key, entry. split.
  - destruct r; try discriminate. cbn [bind]. destruct (dget k l) eqn:E; [|discriminate]. intros H; inversion H; subst. exists l. split; [reflexivity|apply dget_holds, E].
  - intros (l & -> & H). cbn [bind]. apply dget_holds in H. rewrite H. reflexivity.
Qed.
Lemma item_none k r : item k r = Err KeyError <-> no_entry k r.
Proof.
  unfold item, as_dict, key, no_entry. split.
  - destruct r; try discriminate. cbn [bind]. destruct (dget k l) eqn:E; [discriminate|]. intros _. exists l. split; [reflexivity|apply dget_none, E].
  - intros (l & -> & H). cbn [bind]. apply dget_none in H. rewrite H. reflexivity.
Qed.
Lemma dget_dset {A} k k' (v : A) l : dget k (dset k' v l) = if String.eqb k k' then Some v else dget k l.
Proof.
  induction l as [|[k2 v2] l IH]; cbn [dset dget].
  - destruct (String.eqb k k'); reflexivity.
  - destruct (String.eqb_spec k' k2) as [->|N]; cbn [dget].
    + destruct (String.eqb_spec k k2); reflexivity.
    + rewrite IH. destruct (String.eqb_spec k k2) as [->|N2]; [|reflexivity]. destruct (String.eqb_spec k2 k'); [congruence|reflexivity].
Qed.
Lemma dget_plain k l : dget k (plain l) = option_map PJ (dget k l).
Proof. induction l as [|[k' v'] l IH]; cbn [plain map dget fst snd]; [reflexivity|]. destruct (String.eqb k k'); [reflexivity|exact IH]. Qed.

(** ** Requests and answers *)

Section Calls.
Context (node : list json -> reply) (pr : prefixes).

Lemma response_answer r j : response r = Val j <-> exists b, r = Answer b /\ entry "error" JNull b /\ entry "result" j b.
Proof.
  split.
  - destruct r as [e| |b]; try discriminate. cbn [response]. destruct (item "error" b) as [er|] eqn:E; [|discriminate].
    destruct er; try (unfold rpc_error; destruct (item "message" _); [destruct (item "code" _)|]; discriminate).
    destruct (item "result" b) as [j'|] eqn:R; [|discriminate]. intros H; inversion H; subst.
    exists b. split; [reflexivity|]. split; apply item_entry; assumption.
  - intros (b & -> & E & R). apply item_entry in E, R. cbn [response]. rewrite E, R. reflexivity.
Qed.

Lemma call_answers s name args j : answers node s name args j -> call node name args s = (Val j, after s name args).
Proof.
  intros (r & E & H). unfold call, reply_to in *.
  change (body (id_count s + 1) name args) with (request (id_count s + 1) name args). rewrite E.
  f_equal. apply response_answer. eauto.
Qed.
Lemma call_after s name args : snd (call node name args s) = after s name args.
Proof. reflexivity. Qed.
Lemma call_val s name args j s' : call node name args s = (Val j, s') -> s' = after s name args /\ answers node s name args j.
Proof.
  unfold call. intros H. inversion H as [[E F]]. split; [reflexivity|]. apply response_answer in E. destruct E as (b & E & H1). exists b. split; [exact E|exact H1].
Qed.

(** What a method does before its request, and after. *)
Definition shaped (m : M pv) (name : string) : Prop := forall s o s', m s = (o, s') ->
  (s' = s /\ exists e, o = Exc e) \/
  (exists args, s' = after s name args /\ (forall v, o = Val v -> exists j, answers node s name args j)).

Lemma shaped_lift {A} (r : result A) k name : (forall a, shaped (k a) name) -> shaped (mbind (lift r) k) name.
Proof.
  intros K s o s'. unfold mbind, lift. destruct r as [a|e]; [apply K|]. intros H; inversion H. left. eauto.
Qed.
Lemma after_call {A} name args (k : json -> A -> M pv) (f : json -> result A) :
  (forall j a s, exists o, k j a s = (o, s)) -> shaped (mbind (call node name args) (fun r => mbind (lift (f r)) (k r))) name.
Proof.
  intros K s o s' H. right. exists args. unfold mbind in H. destruct (call node name args s) as [c s1] eqn:C.
  assert (s1 = after s name args) as -> by (rewrite <- call_after, C; reflexivity).
  destruct c as [j|e|e]; [|inversion H; split; [reflexivity|discriminate]..].
  assert (answers node s name args j) as A1 by (apply call_val in C; tauto). unfold lift in H.
  destruct (f j) as [a|e]; [|inversion H; split; [reflexivity|discriminate]].
  destruct (K j a (after s name args)) as (o' & E). rewrite E in H. inversion H; subst. split; [reflexivity|]. intros v _. eauto.
Qed.
Lemma quiet_shaped name args (k : json -> M pv) : (forall j s, exists o, k j s = (o, s)) -> shaped (mbind (call node name args) k) name.
Proof.
  intros K s o s' H. right. exists args. unfold mbind in H. destruct (call node name args s) as [c s1] eqn:C.
  assert (s1 = after s name args) as -> by (rewrite <- call_after, C; reflexivity).
  destruct c as [j|e|e]; [|inversion H; split; [reflexivity|discriminate]..].
  destruct (K j (after s name args)) as (o' & E). rewrite E in H. inversion H; subst. split; [reflexivity|]. intros v _. exists j. apply call_val in C. tauto.
Qed.
Lemma index_shaped name args (k : json -> M pv) : (forall j s, exists o, k j s = (o, s)) -> shaped (mbind (or_index_error (call node name args)) k) name.
Proof.
  intros K s o s' H. right. exists args. unfold mbind, or_index_error in H. destruct (call node name args s) as [c s1] eqn:C.
  assert (s1 = after s name args) as -> by (rewrite <- call_after, C; reflexivity).
  destruct c as [j|e|e].
  - destruct (K j (after s name args)) as (o' & E). rewrite E in H. inversion H; subst. split; [reflexivity|]. intros v _. exists j. apply call_val in C. tauto.
  - destruct (item "message" e); [destruct (item "code" e) as [[]|]|]; inversion H; (split; [reflexivity|discriminate]).
  - inversion H. split; [reflexivity|discriminate].
Qed.

Lemma quiet_lift {A} (r : result A) (k : A -> M pv) s : (forall a, exists o, k a s = (o, s)) -> exists o, mbind (lift r) k s = (o, s).
Proof. intros K. unfold mbind, lift. destruct r as [a|e]; [apply K|eauto]. Qed.
Ltac quiet := intros; repeat first [apply quiet_lift; intros | match goal with |- exists o, (if ?b then _ else _) _ = _ => destruct b end | eexists; reflexivity].

Lemma perform_shaped c : shaped (perform node pr c) (method_name c).
Proof.
  destruct c; cbn [perform method_name];
  unfold getaccountaddress, getbalance, getblock, getblockhash, getinfo, getnewaddress, getrawchangeaddress, getrawmempool, getrawtransaction,
    getreceivedbyaddress, gettransaction, gettxout, listunspent, lockunspent, sendrawtransaction, sendtoaddress, signrawtransaction, submitblock,
    validateaddress, addnode;
  try (destruct verbose);
  repeat (apply shaped_lift; intros ?); try (first [apply quiet_shaped | apply index_shaped]; quiet; fail).
  - apply quiet_shaped. intros j s. destruct j; unfold lift; eauto.
  - unfold other. destruct (dunder name); [|apply quiet_shaped; quiet].
    intros s o s' H. inversion H; subst. left. eauto.
Qed.

Lemma perform_all_sent l : forall s, exists more, sent (snd (perform_all node pr l s)) = sent s ++ more /\ (List.length more <= List.length l)%nat /\
  numbered (id_count s + 1) more /\ id_count (snd (perform_all node pr l s)) = (id_count s + Z.of_nat (List.length more))%Z.
Proof.
  induction l as [|c l IH]; intros s; cbn [perform_all].
  - exists []. rewrite app_nil_r. cbn. repeat split; lia.
  - destruct (perform node pr c s) as [o s1] eqn:E. specialize (IH s1). destruct (perform_all node pr l s1) as [os s2]. cbn [snd] in *.
    destruct IH as (more & S2 & L & N & I).
    destruct (perform_shaped c s o s1 E) as [[-> _]|(args & -> & _)].
    + exists more. repeat split; auto. cbn [List.length]. lia.
    + cbn [after sent id_count] in *. exists (request (id_count s + 1) (method_name c) args :: more). rewrite S2, <- app_assoc. split; [reflexivity|].
      cbn [List.length numbered]. split; [lia|]. split; [|lia]. split; [eauto|exact N].
Qed.

(** ** Errors *)

Lemma rpc_error_proper e : proper_error e -> rpc_error e = Rpc e.
Proof. intros (m & n & Hm & Hn). apply item_entry in Hm, Hn. unfold rpc_error. rewrite Hm, Hn. reflexivity. Qed.
Lemma call_reports s name args e : reports node s name args e -> call node name args s = (rpc_error e, after s name args).
Proof.
  intros (r & E & H & N). apply item_entry in H. unfold call. change (body (id_count s + 1) name args) with (request (id_count s + 1) name args).
  unfold reply_to in E. rewrite E. cbn [response]. rewrite H. destruct e; try reflexivity. congruence.
Qed.

End Calls.
