(** Proofs about Rpc_Model.v: what each method asks, returns and raises. *)
From Verif Require Import Base Hex_Model Tx_Model Tx_Spec Tx_Proofs Block_Model Block_Spec Block_Proofs Script_Model Base58_Model Base58_Spec Base58_Proofs
  Rpc_Model Rpc_Spec Rpc_Proofs RpcAmount_Proofs RpcUse_Proofs ChainPipe_Proofs NetErr_Proofs Grammar_Spec Grammar_Proofs Net_Spec Net_Proofs.
From Coq Require Import ZifyBool ZifyNat ZifyN.
#[local] Open Scope string_scope.
#[local] Open Scope list_scope.

(** ** Names *)

Lemma dunder_split name : dunder name = true -> (exists x, name = "__" ++ x)%string /\ (exists x, name = x ++ "__")%string.
Proof.
  unfold dunder. intros H. apply andb_prop in H as [H1 H2]. split.
  - destruct name as [|c1 [|c2 r]]; cbn [String.prefix] in H1; [discriminate| |].
    + destruct (ascii_dec "_" c1); [|discriminate]. cbn in H1. discriminate.
    + destruct (ascii_dec "_" c1) as [<-|]; [|discriminate]. destruct (ascii_dec "_" c2) as [<-|]; [|discriminate]. exists r. reflexivity.
  - apply String.eqb_eq in H2. clear H1.
    assert (forall n, forall s, String.length s = n -> substring (n - 2) 2 s = "__" -> exists x, s = (x ++ "__")%string) as G; [|exact (G _ _ eq_refl H2)].
    clear. induction n as [|n IH]; intros s L H.
    + destruct s; [cbn in H; discriminate|discriminate].
    + destruct s as [|c s]; [discriminate|]. cbn in L. injection L as L. destruct n as [|[|n]].
      * destruct s; [|discriminate]. cbn in H. inversion H.
      * exists "". destruct s as [|c2 [|]]; cbn in L; try discriminate. cbn in H. inversion H. reflexivity.
      * replace (S (S (S n)) - 2)%nat with (S (S (S n) - 2)) in H by lia. cbn [substring] in H. destruct (IH s L H) as [x ->]. exists (String c x). reflexivity.
Qed.

(** ** Requests *)

Lemma bind_after {A B} (m : M A) (k : A -> M B) s n args : snd (m s) = after s n args -> (forall a s', snd (k a s') = s') ->
  snd (mbind m k s) = after s n args.
Proof. intros H K. unfold mbind. destruct (m s) as [[a|e|e] s1]; cbn [snd] in H; subst; [apply K|reflexivity|reflexivity]. Qed.
Lemma or_index_after node s n args : snd (or_index_error (call node n args) s) = after s n args.
Proof. unfold or_index_error. pose proof (call_after node s n args) as H. destruct (call node n args s) as [[a|e|e] s1]; cbn [snd] in *; exact H. Qed.
Lemma bind_lift {A B} (r : result A) (k : A -> M B) s a : r = Ok a -> mbind (lift r) k s = k a s.
Proof. intros ->. reflexivity. Qed.
Lemma quiet_snd {A B} (r : result A) (k : A -> M B) s : (forall a s', snd (k a s') = s') -> snd (mbind (lift r) k s) = s.
Proof. intros K. unfold mbind, lift. destruct r; [apply K|reflexivity]. Qed.
Lemma lift_snd {A} (r : result A) s : snd (lift r s) = s.
Proof. reflexivity. Qed.

Lemma tx_ser_text t : (exists b, tx_text t b /\ (blen b <= MAX_SIZE)%N) -> exists b, tx_ser t = Ok b /\ tx_text t b.
Proof.
  intros (b & T & L). destruct tx_writes as [S W]. destruct (W t b I T) as (b1 & E & L1). exists b1. split; [exact E|]. apply S; [exact I|exact E|]. unfold blen in *. lia.
Qed.
Lemma block_ser_text k : (exists b, block_bytes k b /\ (blen b <= MAX_SIZE)%N) -> exists b, block_ser k = Ok b /\ block_bytes k b.
Proof.
  intros (b & T & L). destruct block_writes as [S W]. destruct (W k b I T) as (b1 & E & L1). exists b1. split; [exact E|]. apply S; [exact I|exact E|]. unfold blen in *. lia.
Qed.
Lemma addr_str_text pr a : network pr -> on_network pr a -> exists t, addr_text pr a t.
Proof.
  intros Hn E. unfold on_network in E. destruct (network_versions pr (a_class a) Hn) as (v & V & _). exists (string_of_list_ascii (b58encode (with_checksum v (a_data a)))), v.
  split; [congruence|]. split; [congruence|]. apply list_ascii_of_string_of_list_ascii.
Qed.
Lemma all_addrs pr l : network pr -> Forall (on_network pr) l -> exists ts, Forall2 (addr_text pr) l ts /\ all addr_arg l = Ok (map JStr ts).
Proof.
  intros Hn F. induction F as [|a l A F IH]; [exists []; split; [constructor|reflexivity]|]. destruct (addr_str_text pr a Hn A) as [t T]. destruct IH as (ts & F2 & E).
  exists (t :: ts). split; [constructor; assumption|]. cbn [all map]. rewrite (addr_arg_text _ _ _ Hn T). cbn [bind]. rewrite E. reflexivity.
Qed.

Ltac still := intros; repeat first [apply quiet_snd; intros | apply lift_snd | match goal with |- snd ((if ?b then _ else _) _) = _ => destruct b end | reflexivity].
Lemma perform_asks node pr c s : network pr -> sendable pr c -> exists args, asks pr c args /\ snd (perform node pr c s) = after s (method_name c) args.
Proof.
  intros Hn P. destruct c; cbn [perform method_name sendable] in *.
  1: { exists [opt_str account]. split; [destruct account; constructor|]. unfold getaccountaddress. apply bind_after; [apply call_after|still]. }
  1: { eexists. split; [constructor|]. unfold getbalance. apply bind_after; [apply call_after|still]. }
  1: { eexists. split; [constructor|]. unfold getblock. apply bind_after; [apply or_index_after|still]. }
  1: { eexists. split; [constructor|]. unfold getblockhash. apply bind_after; [apply or_index_after|still]. }
  1: { eexists. split; [constructor|]. unfold getinfo. apply bind_after; [apply call_after|still]. }
  1: { exists (match account with Some a => [JStr a] | None => [] end). split; [destruct account; constructor|]. unfold getnewaddress. apply bind_after; [apply call_after|still]. }
  1: { eexists. split; [constructor|]. unfold getrawchangeaddress. apply bind_after; [apply call_after|still]. }
  1: { unfold getrawmempool. destruct verbose; (eexists; split; [constructor|]; apply bind_after; [apply call_after|still]). }
  1: { unfold getrawtransaction. destruct verbose; (eexists; split; [constructor|]; apply bind_after; [apply or_index_after|still]). }
  1: { destruct (addr_str_text _ _ Hn P) as [t T]. eexists. split; [apply ask_received, T|]. unfold getreceivedbyaddress. rewrite (bind_lift _ _ _ _ (addr_arg_text _ _ _ Hn T)).
       apply bind_after; [apply call_after|still]. }
  1: { eexists. split; [constructor|]. unfold gettransaction. apply bind_after; [apply or_index_after|still]. }
  1: { destruct o as [h n]. eexists. split; [constructor|]. unfold gettxout. apply bind_after; [apply call_after|]. intros a s'. destruct a; reflexivity. }
  1: { unfold listunspent. destruct addrs as [l|].
       - destruct (all_addrs _ _ Hn P) as (ts & F & E). eexists. split; [apply ask_unspent_of, F|]. erewrite bind_lift; [|rewrite E; reflexivity]. apply bind_after; [apply call_after|still].
       - eexists. split; [constructor|]. erewrite bind_lift; [|reflexivity]. apply bind_after; [apply call_after|still]. }
  1: { eexists. split; [apply ask_lock with (js := map lock_entry l)|].
       - induction l; constructor; [reflexivity|assumption].
       - unfold lockunspent. apply bind_after; [apply call_after|still]. }
  1: { destruct (tx_ser_text _ P) as (b & E & T). exists (hexlify b :: if allowhighfees then [JBool true] else []). split; [destruct allowhighfees; constructor; exact T|].
       unfold sendrawtransaction. rewrite (bind_lift _ _ _ _ E). apply bind_after; [apply call_after|still]. }
  1: { destruct P as [PA PV]. destruct (addr_str_text _ _ Hn PA) as [t T]. destruct (float_amount_reads value PV) as (f & E & R). eexists. split; [apply ask_pay; [exact T|exact R]|].
       unfold sendtoaddress. rewrite (bind_lift _ _ _ _ (addr_arg_text _ _ _ Hn T)), (bind_lift _ _ _ _ E). apply bind_after; [apply call_after|still]. }
  1: { destruct (tx_ser_text _ P) as (b & E & T). eexists. split; [apply ask_sign, T|].
       unfold signrawtransaction. rewrite (bind_lift _ _ _ _ E). apply bind_after; [apply call_after|still]. }
  1: { destruct (block_ser_text _ P) as (k & E & T). exists (hexlify k :: match params with Some p => [p] | None => [] end). split; [destruct params; constructor; exact T|].
       unfold submitblock. rewrite (bind_lift _ _ _ _ E). apply bind_after; [apply call_after|still]. }
  1: { destruct (addr_str_text _ _ Hn P) as [t T]. eexists. split; [apply ask_valid, T|]. unfold validateaddress. rewrite (bind_lift _ _ _ _ (addr_arg_text _ _ _ Hn T)).
       apply bind_after; [apply call_after|still]. }
  1-3: eexists; (split; [constructor|]); unfold addnode; apply bind_after; [apply call_after|still].
  eexists. split; [constructor|]. unfold other. destruct (dunder name) eqn:D.
  - exfalso. apply dunder_split in D as [[x X] [y Y]]. destruct P as [P|P]; [exact (P x X)|exact (P y Y)].
  - apply bind_after; [apply call_after|still].
Qed.

(** ** Errors *)

Lemma after_inj s n args args' : after s n args = after s n args' -> args = args'.
Proof. intros H. injection H as H. apply app_inv_head in H. unfold request in H. inversion H. reflexivity. Qed.

Section Errors.
Context (node : list json -> reply) (pr : prefixes).

(** [m] is a method that passes on an error as [f] says. *)
Definition passes (m : M pv) (name : string) (f : json -> outcome pv) : Prop := forall s o s', m s = (o, s') ->
  (s' = s /\ exists e, o = Exc e) \/
  (exists args, s' = after s name args /\ forall e, reports node s name args e -> proper_error e -> o = f e).
Lemma passes_lift {A} (r : result A) k name f : (forall a, passes (k a) name f) -> passes (mbind (lift r) k) name f.
Proof. intros K s o s'. unfold mbind, lift. destruct r as [a|e]; [apply K|]. intros H; inversion H. left. eauto. Qed.
Lemma passes_call name args (k : json -> M pv) : (forall j s, snd (k j s) = s) -> passes (mbind (call node name args) k) name Rpc.
Proof.
  intros K s o s' H. right. exists args. split.
  - replace s' with (snd (mbind (call node name args) k s)) by (rewrite H; reflexivity). apply bind_after; [apply call_after|exact K].
  - intros e R P. unfold mbind in H. rewrite (call_reports node s name args e R), (rpc_error_proper e P) in H. inversion H. reflexivity.
Qed.
Lemma passes_index name args (k : json -> M pv) : (forall j s, snd (k j s) = s) -> passes (mbind (or_index_error (call node name args)) k) name (fun _ => Exc IndexError).
Proof.
  intros K s o s' H. right. exists args. split.
  - replace s' with (snd (mbind (or_index_error (call node name args)) k s)) by (rewrite H; reflexivity). apply bind_after; [apply or_index_after|exact K].
  - intros e R P. unfold mbind, or_index_error in H. rewrite (call_reports node s name args e R), (rpc_error_proper e P) in H.
    destruct P as (m & n & Hm & Hn). apply item_entry in Hm, Hn. rewrite Hm, Hn in H. inversion H. reflexivity.
Qed.
Lemma perform_passes c : passes (perform node pr c) (method_name c) (fun e => if lookup c then Exc IndexError else Rpc e).
Proof.
  destruct c; cbn [perform method_name lookup];
  unfold getaccountaddress, getbalance, getblock, getblockhash, getinfo, getnewaddress, getrawchangeaddress, getrawmempool, getrawtransaction,
    getreceivedbyaddress, gettransaction, gettxout, listunspent, lockunspent, sendrawtransaction, sendtoaddress, signrawtransaction, submitblock,
    validateaddress, addnode;
  try (destruct verbose);
  repeat (apply passes_lift; intros ?); try (first [apply passes_call | apply passes_index]; still; fail).
  - apply passes_call. intros j s. destruct j; reflexivity.
  - unfold other. destruct (dunder name); [|apply passes_call; still]. intros s o s' H. inversion H; subst. left. eauto.
Qed.
Lemma perform_reports c s o args e : perform node pr c s = (o, after s (method_name c) args) -> reports node s (method_name c) args e -> proper_error e ->
  o = if lookup c then Exc IndexError else Rpc e.
Proof.
  intros H R P. destruct (perform_passes c s o _ H) as [[E _]|(args' & E & F)].
  - exfalso. apply (f_equal id_count) in E. cbn in E. lia.
  - apply after_inj in E. subst args'. apply F; assumption.
Qed.

(** When a lookup raises IndexError. *)
Lemma response_rpc r e : response r = Rpc e -> failure r \/ (item "message" e <> Err IndexError /\ exists m n, item "message" e = Ok m /\ item "code" e = Ok n /\
  match n with JInt _ | JBool _ | JDec _ | JFloat _ => False | _ => True end).
Proof.
  destruct r as [x| |b]; cbn [response]; intros H; [discriminate|left; constructor; reflexivity|].
  destruct (item "error" b) as [er|x] eqn:E; [|discriminate].
  assert (er = JNull \/ er <> JNull) as [->|N] by (destruct er; auto; right; discriminate).
  - destruct (item "result" b) as [j|x] eqn:R; [discriminate|]. left. apply item_entry in E as E'. apply (fail_empty _ b eq_refl); [exact E'|].
    apply item_none. destruct E' as (l & -> & _). unfold item, as_dict, key in *. cbn [bind] in *. destruct (dget "result" l); [discriminate|reflexivity].
  - assert (rpc_error er = Rpc e) as H' by (destruct er; auto; congruence). unfold rpc_error in H'. destruct (item "message" er) as [m|] eqn:Hm; [|discriminate].
    destruct (item "code" er) as [n|] eqn:Hn; [|discriminate]. inversion H'; subst. apply item_entry in E. apply item_entry in Hm as Hm'. apply item_entry in Hn as Hn'.
    destruct n; try (left; exact (fail_error _ b e m _ eq_refl E N Hm' Hn' I)); right; (split; [rewrite Hm; discriminate|]);
      exists m; eexists; (split; [exact Hm|]); (split; [exact Hn|exact I]).
Qed.
Lemma failure_response r : failure r -> exists e, response r = Rpc e /\ exists m n, item "message" e = Ok m /\ item "code" e = Ok n /\
  match n with JInt _ | JBool _ | JDec _ | JFloat _ => True | _ => False end.
Proof.
  intros [->|b e m n -> E N Hm Hn Q|b -> E R]; cbn [response].
  - eexists. split; [reflexivity|]. eexists _, _. split; [reflexivity|]. split; [reflexivity|exact I].
  - apply item_entry in E, Hm, Hn. rewrite E. exists e. split; [|eauto]. unfold rpc_error. destruct e; try congruence; rewrite Hm, Hn; reflexivity.
  - apply item_entry in E. apply item_none in R. rewrite E, R. eexists. split; [reflexivity|]. eexists _, _. split; [reflexivity|]. split; [reflexivity|exact I].
Qed.
Lemma or_index_iff name args (k : json -> M pv) s : (forall j s', fst (k j s') <> Exc IndexError) ->
  fst (mbind (or_index_error (call node name args)) k s) = Exc IndexError <->
  exists r, reply_to node s name args r /\ (failure r \/ r = Broken IndexError).
Proof.
  intros K. unfold mbind, or_index_error, call, reply_to. change (body (id_count s + 1) name args) with (request (id_count s + 1) name args).
  set (r := node (sent s ++ [request (id_count s + 1) name args])). split.
  - intros H. exists r. split; [reflexivity|]. destruct (response r) as [j|e|e] eqn:E.
    + exfalso. exact (K _ _ H).
    + destruct (response_rpc r e E) as [F|(_ & m & n & Hm & Hn & Q)]; [left; exact F|]. rewrite Hm, Hn in H. destruct n; cbn in *; first [contradiction|discriminate].
    + cbn in H. injection H as ->. right. destruct r as [x| |b]; cbn [response] in E; [congruence|discriminate|].
      exfalso. destruct (item "error" b) as [er|x] eqn:Er; [|inversion E; subst; apply item_err in Er as [Er|Er]; discriminate].
      assert (forall er, rpc_error er <> Exc IndexError) as Z.
      { intros x Hx. unfold rpc_error in Hx. destruct (item "message" x) eqn:E1; [destruct (item "code" x) eqn:E2; [discriminate|]|]; inversion Hx; subst.
        - apply item_err in E2 as [E2|E2]; discriminate.
        - apply item_err in E1 as [E1|E1]; discriminate. }
      destruct er; try (exact (Z _ E)). destruct (item "result" b); discriminate.
  - intros (r' & <- & [F|F]).
    + destruct (failure_response r F) as (e & -> & m & n & Hm & Hn & Q). rewrite Hm, Hn. destruct n; try contradiction; reflexivity.
    + rewrite F. reflexivity.
Qed.
Lemma lookup_index c s : lookup c = true -> fst (perform node pr c s) = Exc IndexError <->
  exists args r, snd (perform node pr c s) = after s (method_name c) args /\ reply_to node s (method_name c) args r /\ (failure r \/ r = Broken IndexError).
Proof.
  intros L.
  assert (exists args, snd (perform node pr c s) = after s (method_name c) args /\ (fst (perform node pr c s) = Exc IndexError <->
    exists r, reply_to node s (method_name c) args r /\ (failure r \/ r = Broken IndexError))) as (args & A & B).
  { destruct c; try discriminate L; cbn [perform method_name]; unfold getblock, getblockhash, getrawtransaction, gettransaction;
    eexists; (split; [apply bind_after; [apply or_index_after|still]|]); apply or_index_iff; intros j s'.
    - unfold mbind, lift. destruct (block_of j) eqn:E; cbn; [discriminate|]. intros H. injection H as ->. exact (block_of_err _ _ E eq_refl).
    - unfold mbind, lift. destruct (lx_of j) eqn:E; cbn; [discriminate|]. intros H. injection H as ->. apply lx_of_err in E as [E|E]; discriminate.
    - destruct verbose; unfold mbind, lift.
      + destruct (raw_verbose j) eqn:E; cbn; [discriminate|]. intros H. injection H as ->. exact (raw_verbose_err _ _ E eq_refl).
      + destruct (tx_of j) eqn:E; cbn; [discriminate|]. intros H. injection H as ->. exact (tx_of_err _ _ E eq_refl).
    - discriminate. }
  rewrite B. split.
  - intros (r & R & F). exists args, r. auto.
  - intros (args' & r & A' & R & F). rewrite A in A'. apply after_inj in A'. subst. eauto.
Qed.
Lemma gettxout_index o m s : fst (perform node pr (GetTxOut o m) s) = Exc IndexError <->
  answers node s "gettxout" [hash_text (o_hash o); JInt (o_n o); JBool m] JNull \/
  reply_to node s "gettxout" [hash_text (o_hash o); JInt (o_n o); JBool m] (Broken IndexError).
Proof.
  cbn [perform]. unfold gettxout. change (hash_arg (o_hash o)) with (hash_text (o_hash o)). set (args := [hash_text (o_hash o); JInt (o_n o); JBool m]). split.
  - unfold mbind. destruct (call node "gettxout" args s) as [c s1] eqn:C. destruct c as [j|e|e].
    + destruct (call_val _ _ _ _ _ _ C) as [_ A]. destruct j; try (unfold lift; destruct (txout_of _) eqn:E; cbn; [discriminate|]; intros H; injection H as ->; exfalso; exact (txout_of_err _ _ E eq_refl)).
      intros _. left. exact A.
    + discriminate.
    + cbn. intros H. injection H as ->. right. unfold call in C. apply (f_equal fst) in C. cbn [fst] in C. rename C into E. unfold reply_to.
      change (body (id_count s + 1) "gettxout" args) with (request (id_count s + 1) "gettxout" args) in E.
      destruct (node (sent s ++ [request (id_count s + 1) "gettxout" args])) as [x| |b]; cbn [response] in E; [congruence|discriminate|].
      exfalso. destruct (item "error" b) as [er|x] eqn:Er; [|inversion E; subst; apply item_err in Er as [Er|Er]; discriminate].
      assert (forall er, rpc_error er <> Exc IndexError) as Z.
      { intros x Hx. unfold rpc_error in Hx. destruct (item "message" x) eqn:E1; [destruct (item "code" x) eqn:E2; [discriminate|]|]; inversion Hx; subst.
        - apply item_err in E2 as [E2|E2]; discriminate.
        - apply item_err in E1 as [E1|E1]; discriminate. }
      destruct er; try (exact (Z _ E)). destruct (item "result" b); discriminate.
  - intros [A|R].
    + unfold mbind. rewrite (call_answers _ _ _ _ _ A). reflexivity.
    + unfold mbind, call. change (body (id_count s + 1) "gettxout" args) with (request (id_count s + 1) "gettxout" args). unfold reply_to in R. rewrite R. reflexivity.
Qed.

(** ** Results *)

Lemma call_then name args (k : json -> M pv) s j : answers node s name args j -> mbind (call node name args) k s = k j (after s name args).
Proof. intros A. unfold mbind. rewrite (call_answers _ _ _ _ _ A). reflexivity. Qed.
Lemma index_then name args (k : json -> M pv) s j : answers node s name args j -> mbind (or_index_error (call node name args)) k s = k j (after s name args).
Proof. intros A. unfold mbind, or_index_error. rewrite (call_answers _ _ _ _ _ A). reflexivity. Qed.
Lemma lift_val {A} (r : result A) (f : A -> pv) (s : proxy) v s' : mbind (lift r) (fun a => ret (f a)) s = (Val v, s') <-> s' = s /\ exists a, r = Ok a /\ v = f a.
Proof.
  unfold mbind, lift, ret. destruct r as [a|e]; split.
  - intros H; inversion H; subst. split; [reflexivity|]. exists a. auto.
  - intros (-> & b & E & ->). inversion E. reflexivity.
  - discriminate.
  - intros (_ & b & E & _). discriminate.
Qed.

Lemma rawtransaction_result h s t v : answers node s "getrawtransaction" [hash_text h; JInt 0] (JStr t) ->
  perform node pr (GetRawTransaction h false) s = (Val v, after s "getrawtransaction" [hash_text h; JInt 0]) <-> exists x b, v = PTx x /\ hex_text t b /\ tx_text x b.
Proof.
  intros A. cbn [perform]. unfold getrawtransaction. change (hash_arg h) with (hash_text h). rewrite (index_then _ _ _ _ _ A), lift_val. split.
  - intros (_ & x & E & ->). apply tx_of_text in E as (b & H & T). eauto.
  - intros (x & b & -> & H & T). split; [reflexivity|]. exists x. split; [|reflexivity]. apply tx_of_text. eauto.
Qed.
Lemma block_result h s t v : answers node s "getblock" [hash_text h; JBool false] (JStr t) ->
  perform node pr (GetBlock h) s = (Val v, after s "getblock" [hash_text h; JBool false]) <-> exists x b, v = PBlock x /\ hex_text t b /\ block_bytes x b.
Proof.
  intros A. cbn [perform]. unfold getblock. change (hash_arg h) with (hash_text h). rewrite (index_then _ _ _ _ _ A), lift_val. split.
  - intros (_ & x & E & ->). apply block_of_text in E as (b & H & T). eauto.
  - intros (x & b & -> & H & T). split; [reflexivity|]. exists x. split; [|reflexivity]. apply block_of_text. eauto.
Qed.
Lemma blockhash_result n s t v : answers node s "getblockhash" [JInt n] (JStr t) ->
  perform node pr (GetBlockHash n) s = (Val v, after s "getblockhash" [JInt n]) <-> exists h, v = PBytes h /\ hex_text t (rev h).
Proof.
  intros A. cbn [perform]. unfold getblockhash. rewrite (index_then _ _ _ _ _ A), lift_val. split.
  - intros (_ & x & E & ->). apply lx_of_text in E. eauto.
  - intros (x & -> & H). split; [reflexivity|]. exists x. split; [|reflexivity]. apply lx_of_text, H.
Qed.
Lemma all_ok {A B} (f : A -> result B) l r : all f l = Ok r <-> Forall2 (fun a b => f a = Ok b) l r.
Proof.
  revert r. induction l as [|a l IH]; intros r; cbn [all].
  - split; intros H; inversion H; constructor.
  - split.
    + destruct (f a) as [b|] eqn:E; [|discriminate]. cbn [bind]. destruct (all f l) as [r'|] eqn:E'; [|discriminate]. cbn [bind]. intros H; inversion H; subst.
      constructor; [exact E|]. apply IH. reflexivity.
    + intros H. inversion H as [|? b ? r' E F]; subst. rewrite E. cbn [bind]. apply IH in F. rewrite F. reflexivity.
Qed.
Lemma mempool_result s ts v : answers node s "getrawmempool" [] (JArr (map JStr ts)) ->
  perform node pr (GetRawMempool false) s = (Val v, after s "getrawmempool" []) <-> exists hs, v = PList (map PBytes hs) /\ Forall2 (fun t h => hex_text t (rev h)) ts hs.
Proof.
  intros A. cbn [perform]. unfold getrawmempool. rewrite (call_then _ _ _ _ _ A), lift_val. cbn [iterate bind].
  assert (forall hs, all lx_of (map JStr ts) = Ok hs <-> Forall2 (fun t h => hex_text t (rev h)) ts hs) as G.
  { intros hs. rewrite all_ok. clear. revert hs. induction ts as [|t ts IH]; intros hs; cbn [map]; split; intros H; inversion H; subst; constructor;
      solve [apply lx_of_text; assumption | apply IH; assumption]. }
  split.
  - intros (_ & x & E & ->). apply G in E. eauto.
  - intros (x & -> & H). split; [reflexivity|]. exists x. split; [|reflexivity]. apply G, H.
Qed.
Lemma sent_hash c args j s v : answers node s (method_name c) args j -> snd (perform node pr c s) = after s (method_name c) args ->
  (match c with SendRawTransaction _ _ | SendToAddress _ _ => True | _ => False end) ->
  fst (perform node pr c s) = Val v <-> exists h, v = PBytes h /\ lx_of j = Ok h.
Proof.
  intros A S C. destruct c; try contradiction; cbn [perform method_name] in *; unfold sendrawtransaction, sendtoaddress in *.
  - unfold mbind at 1 in S. unfold mbind at 1. unfold lift in S at 1. unfold lift at 1. destruct (tx_ser t) as [b|e]; [|cbn in S; apply (f_equal id_count) in S; cbn in S; lia].
    assert (args = hexlify b :: if allowhighfees then [JBool true] else []) as ->.
    { rewrite (bind_after _ _ s _ _ (call_after node s _ _)) in S by still. symmetry. exact (after_inj _ _ _ _ S). }
    rewrite (call_then _ _ _ _ _ A). unfold mbind, lift, ret. destruct (lx_of j) as [h|e]; cbn; split.
    + intros H; inversion H. eauto.
    + intros (h' & -> & E). inversion E. reflexivity.
    + discriminate.
    + intros (h' & _ & E). discriminate.
  - unfold mbind at 1 in S. unfold mbind at 1. unfold lift in S at 1. unfold lift at 1. destruct (addr_arg addr) as [b|e]; [|cbn in S; apply (f_equal id_count) in S; cbn in S; lia].
    unfold mbind at 1 in S. unfold mbind at 1. unfold lift in S at 1. unfold lift at 1. destruct (float_amount value) as [f|e]; [|cbn in S; apply (f_equal id_count) in S; cbn in S; lia].
    assert (args = [b; JFloat f]) as ->.
    { rewrite (bind_after _ _ s _ _ (call_after node s _ _)) in S by still. symmetry. exact (after_inj _ _ _ _ S). }
    rewrite (call_then _ _ _ _ _ A). unfold mbind, lift, ret. destruct (lx_of j) as [h|e]; cbn; split.
    + intros H; inversion H. eauto.
    + intros (h' & -> & E). inversion E. reflexivity.
    + discriminate.
    + intros (h' & _ & E). discriminate.
Qed.

(** Addresses. *)
Lemma address_result c args t s v : network pr -> answers node s (method_name c) args (JStr t) -> asks pr c args ->
  (match c with GetAccountAddress _ | GetNewAddress _ | GetRawChangeAddress => True | _ => False end) ->
  perform node pr c s = (Val v, after s (method_name c) args) <-> exists a, v = PAddr a /\ addr_text pr a t.
Proof.
  intros Hn A S C. destruct c; try contradiction; cbn [perform method_name] in *; unfold getaccountaddress, getnewaddress, getrawchangeaddress.
  all: inversion S; subst args; try subst account.
  all: match goal with |- context [opt_str ?a] => let r := eval cbv in (opt_str a) in change (opt_str a) with r | _ => idtac end.
  all: rewrite (call_then _ _ _ _ _ A), lift_val; split.
  all: try (intros (_ & x & E & ->); apply address_of_text in E; [eauto|exact Hn]).
  all: intros (x & -> & H); split; [reflexivity|]; exists x; split; [|reflexivity]; apply address_of_text; assumption.
Qed.

(** Amounts. *)
Lemma balance_result a m s j v : answers node s "getbalance" [JStr a; JInt m] j -> coins j v -> (Z.abs v < 10 ^ 28)%Z ->
  perform node pr (GetBalance a m) s = (Val (PInt v), after s "getbalance" [JStr a; JInt m]).
Proof.
  intros A C B. cbn [perform]. unfold getbalance. rewrite (call_then _ _ _ _ _ A). apply lift_val. split; [reflexivity|]. exists v. split; [|reflexivity]. apply amount_coins; assumption.
Qed.
Lemma received_result a t m s j v : network pr -> addr_text pr a t -> answers node s "getreceivedbyaddress" [JStr t; JInt m] j -> coins j v -> (Z.abs v < 10 ^ 28)%Z ->
  perform node pr (GetReceivedByAddress a m) s = (Val (PInt v), after s "getreceivedbyaddress" [JStr t; JInt m]).
Proof.
  intros Hn T A C B. cbn [perform]. unfold getreceivedbyaddress. rewrite (bind_lift _ _ _ _ (addr_arg_text _ _ _ Hn T)), (call_then _ _ _ _ _ A).
  apply lift_val. split; [reflexivity|]. exists v. split; [|reflexivity]. apply amount_coins; assumption.
Qed.
Lemma nodup_plain d : NoDup (map fst d) -> NoDup (map fst (plain d)).
Proof. rewrite plain_names. auto. Qed.
Lemma info_result s d jb b jf f : NoDup (map fst d) -> answers node s "getinfo" [] (JObj d) ->
  holds "balance" jb d -> coins jb b -> (Z.abs b < 10 ^ 28)%Z -> holds "paytxfee" jf d -> coins jf f -> (Z.abs f < 10 ^ 28)%Z ->
  exists d', perform node pr GetInfo s = (Val (PDict d'), after s "getinfo" []) /\ rewritten d [] [("balance", PInt b); ("paytxfee", PInt f)] d'.
Proof.
  intros N A Hb Cb Bb Hf Cf Bf. cbn [perform]. unfold getinfo. rewrite (call_then _ _ _ _ _ A). cbn [as_dict].
  apply dget_holds in Hb. rewrite (bind_lift _ _ _ d eq_refl), Hb. rewrite (amount_coins _ _ Cb Bb). cbn [bind]. erewrite bind_lift; [|reflexivity].
  unfold key. apply dget_holds in Hf. rewrite Hf. cbn [bind]. rewrite (amount_coins _ _ Cf Bf). erewrite bind_lift; [|reflexivity].
  eexists. split; [reflexivity|]. apply rewritten_get.
  - repeat apply dset_nodup. apply nodup_plain, N.
  - cbn. repeat constructor; cbn; intuition discriminate.
  - intros k [].
  - intros k. rewrite !dget_dset, dget_plain. cbn [dget drop]. destruct (String.eqb_spec k "paytxfee") as [->|_]; [reflexivity|]. destruct (String.eqb k "balance"); reflexivity.
Qed.
(** A node without a wallet names no balance. *)
Lemma info_no_wallet s d jf f : NoDup (map fst d) -> answers node s "getinfo" [] (JObj d) ->
  ~ In "balance" (map fst d) -> holds "paytxfee" jf d -> coins jf f -> (Z.abs f < 10 ^ 28)%Z ->
  exists d', perform node pr GetInfo s = (Val (PDict d'), after s "getinfo" []) /\ rewritten d [] [("paytxfee", PInt f)] d'.
Proof.
  intros N A Hb Hf Cf Bf. cbn [perform]. unfold getinfo. rewrite (call_then _ _ _ _ _ A). cbn [as_dict].
  apply dget_none in Hb. rewrite (bind_lift _ _ _ d eq_refl), Hb. erewrite bind_lift; [|reflexivity].
  unfold key. apply dget_holds in Hf. rewrite Hf. cbn [bind]. rewrite (amount_coins _ _ Cf Bf). erewrite bind_lift; [|reflexivity].
  eexists. split; [reflexivity|]. apply rewritten_get.
  - repeat apply dset_nodup. apply nodup_plain, N.
  - cbn. repeat constructor; cbn; intuition discriminate.
  - intros k [].
  - intros k. rewrite !dget_dset, dget_plain. cbn [dget drop]. destruct (String.eqb_spec k "paytxfee") as [->|_]; reflexivity.
Qed.
(** No fee is made up. *)
Lemma info_no_fee s d v s' : answers node s "getinfo" [] (JObj d) -> ~ In "paytxfee" (map fst d) -> perform node pr GetInfo s <> (Val v, s').
Proof.
  intros A Hf. cbn [perform]. unfold getinfo. rewrite (call_then _ _ _ _ _ A). cbn [as_dict]. rewrite (bind_lift _ _ _ d eq_refl).
  apply dget_none in Hf. unfold mbind, lift, key. rewrite Hf. cbn [bind]. destruct (dget "balance" d) as [b|]; [destruct (amount b)|]; discriminate.
Qed.

(** Unspent outputs. *)
Lemma key_plain k (j : json) d : holds k j d -> key k d = Ok j.
Proof. apply key_holds. Qed.
Lemma unspent_result d f : network pr -> unspent pr d f ->
  exists d', unspent_of pr (JObj d) = Ok (PDict d') /\
    rewritten d ["txid"; "vout"] [("outpoint", POut (fst (fst (fst f)))); ("address", PAddr (snd (fst (fst f)))); ("scriptPubKey", PBytes (snd (fst f))); ("amount", PInt (snd f))] d'.
Proof.
  intros Hn. destruct f as [[[o a] sc] v]. cbn [unspent fst snd]. intros (N & Lh & Bn & (tt & Ht & Xt) & Hv & (ta & Ha & Xa) & (ts & Hs & Xs) & (j & Hj & Cj & Bj)).
  unfold unspent_of. cbn [as_dict bind]. rewrite (key_plain _ _ _ Ht). cbn [bind]. rewrite (proj2 (lx_of_text tt (o_hash o)) Xt). cbn [bind].
  rewrite (key_plain _ _ _ Hv). cbn [bind]. assert (outpoint_of (o_hash o) (JInt (o_n o)) = Ok o) as ->.
  { unfold outpoint_of, outpoint_new, blen. rewrite Lh. destruct o as [h n]. cbn [o_hash o_n] in *. change (negb (N.of_nat 32 =? 32)%N) with false. cbv iota.
    destruct (negb _) eqn:Q; [|reflexivity]. lia. }
  cbn [bind]. set (d1 := dset "outpoint" (POut o) (plain d)). destruct (ddels_get ["txid"; "vout"] d1) as (e & E & Ne & G).
  { apply dset_nodup, nodup_plain, N. }
  { repeat constructor; cbn; intuition discriminate. }
  { apply dget_holds in Ht, Hv. unfold d1. intros k [<-|[<-|[]]]; rewrite dget_dset, dget_plain; [rewrite Ht|rewrite Hv]; discriminate. }
  rewrite E. cbn [bind]. rewrite (key_plain _ _ _ Ha). cbn [bind]. rewrite (proj2 (address_of_text pr a ta Hn) Xa). cbn [bind].
  rewrite (key_plain _ _ _ Hs). cbn [bind]. rewrite (proj2 (unhexlify_text ts sc) Xs). cbn [bind]. rewrite (key_plain _ _ _ Hj). cbn [bind]. rewrite (amount_coins _ _ Cj Bj). cbn [bind].
  eexists. split; [reflexivity|]. apply rewritten_get.
  - repeat apply dset_nodup. exact Ne.
  - cbn. repeat constructor; cbn; intuition discriminate.
  - cbn. intros k [<-|[<-|[]]]; intuition discriminate.
  - intros k. rewrite !dget_dset, G. unfold d1. rewrite dget_dset, dget_plain. cbn [dget drop].
    destruct (String.eqb_spec k "amount") as [->|_]; [reflexivity|]. destruct (String.eqb_spec k "scriptPubKey") as [->|_]; [reflexivity|].
    destruct (String.eqb_spec k "address") as [->|_]; [reflexivity|]. destruct (String.eqb_spec k "outpoint") as [->|_]; [reflexivity|].
    reflexivity.
Qed.
Lemma listunspent_result a b addrs args ds fs s : network pr -> asks pr (ListUnspent a b addrs) args ->
  answers node s "listunspent" args (JArr (map JObj ds)) -> Forall2 (unspent pr) ds fs ->
  exists ds', perform node pr (ListUnspent a b addrs) s = (Val (PList (map PDict ds')), after s "listunspent" args) /\
    Forall2 (fun p d' => rewritten (fst p) ["txid"; "vout"] [("outpoint", POut (fst (fst (fst (snd p))))); ("address", PAddr (snd (fst (fst (snd p)))));
      ("scriptPubKey", PBytes (snd (fst (snd p)))); ("amount", PInt (snd (snd p)))] d') (combine ds fs) ds'.
Proof.
  intros Hn S A F.
  assert (exists ds', all (unspent_of pr) (map JObj ds) = Ok (map PDict ds') /\
    Forall2 (fun p d' => rewritten (fst p) ["txid"; "vout"] [("outpoint", POut (fst (fst (fst (snd p))))); ("address", PAddr (snd (fst (fst (snd p)))));
      ("scriptPubKey", PBytes (snd (fst (snd p)))); ("amount", PInt (snd (snd p)))] d') (combine ds fs) ds') as (ds' & E & F').
  { clear - Hn F. induction F as [|d f ds fs U F IH]; [exists []; split; [reflexivity|constructor]|]. destruct IH as (ds' & E & F'). destruct (unspent_result d f Hn U) as (d' & E1 & R).
    exists (d' :: ds'). cbn [map all]. rewrite E1. cbn [bind]. rewrite E. split; [reflexivity|]. cbn [combine]. constructor; [exact R|exact F']. }
  exists ds'. split; [|exact F']. cbn [perform]. unfold listunspent. inversion S; subst.
  - rewrite (bind_lift _ _ _ _ eq_refl), (call_then _ _ _ _ _ A). cbn [iterate bind]. rewrite E. reflexivity.
  - match goal with X : Forall2 (addr_text pr) ?l0 ?ts0 |- _ => rename X into FA; rename l0 into l; rename ts0 into ts end.
    assert (all addr_arg l = Ok (map JStr ts)) as EA.
    { clear - Hn FA. induction FA as [|x t l ts X FA IH]; [reflexivity|]. cbn [all map]. rewrite (addr_arg_text _ _ _ Hn X). cbn [bind]. rewrite IH. reflexivity. }
    erewrite bind_lift; [|rewrite EA; reflexivity]. rewrite (call_then _ _ _ _ _ A). cbn [iterate bind]. rewrite E. reflexivity.
Qed.
Lemma gettxout_result o m s d out best : answers node s "gettxout" [hash_text (o_hash o); JInt (o_n o); JBool m] (JObj d) -> unspent_output d (out, best) ->
  exists d', perform node pr (GetTxOut o m) s = (Val (PDict d'), after s "gettxout" [hash_text (o_hash o); JInt (o_n o); JBool m]) /\
    rewritten d ["value"; "scriptPubKey"] [("txout", PTxOut out); ("bestblock", PBytes best)] d'.
Proof.
  intros A. cbn [unspent_output]. intros (N & (j & Hj & Cj & Bj) & (js & t & Hs & Hh & Xs) & (tb & Hb & Xb)).
  cbn [perform]. unfold gettxout. change (hash_arg (o_hash o)) with (hash_text (o_hash o)). rewrite (call_then _ _ _ _ _ A). unfold txout_of. cbn [as_dict bind].
  rewrite (key_plain _ _ _ Hj). cbn [bind]. rewrite (amount_coins _ _ Cj Bj). cbn [bind]. rewrite (key_plain _ _ _ Hs). cbn [bind]. apply item_entry in Hh. rewrite Hh. cbn [bind].
  rewrite (proj2 (unhexlify_text t (o_scriptPubKey out)) Xs). cbn [bind]. replace (mkTxOut (o_nValue out) (o_scriptPubKey out)) with out by (destruct out; reflexivity).
  destruct (ddels_get ["value"; "scriptPubKey"] (dset "txout" (PTxOut out) (plain d))) as (e & E & Ne & G).
  { apply dset_nodup, nodup_plain, N. }
  { repeat constructor; cbn; intuition discriminate. }
  { apply dget_holds in Hj, Hs. intros k [<-|[<-|[]]]; rewrite dget_dset, dget_plain; [rewrite Hj|rewrite Hs]; discriminate. }
  rewrite E. cbn [bind]. rewrite (key_plain _ _ _ Hb). cbn [bind]. rewrite (proj2 (lx_of_text tb best) Xb). cbn [bind].
  eexists. split; [reflexivity|]. apply rewritten_get.
  - apply dset_nodup. exact Ne.
  - cbn. repeat constructor; cbn; intuition discriminate.
  - cbn. intros k [<-|[<-|[]]]; intuition discriminate.
  - intros k. rewrite dget_dset, G, dget_dset, dget_plain. cbn [dget drop].
    destruct (String.eqb_spec k "bestblock") as [->|_]; [reflexivity|]. destruct (String.eqb_spec k "txout") as [->|_]; [reflexivity|]. reflexivity.
Qed.
Lemma sign_result t b l s d x h k : tx_ser t = Ok b -> answers node s "signrawtransaction" (bytes_text b :: l) (JObj d) -> NoDup (map fst d) ->
  holds "hex" (JStr h) d -> hex_text h k -> tx_text x k ->
  exists d', perform node pr (SignRawTransaction t l) s = (Val (PDict d'), after s "signrawtransaction" (bytes_text b :: l)) /\ rewritten d ["hex"] [("tx", PTx x)] d'.
Proof.
  intros E A N H X T. cbn [perform]. unfold signrawtransaction. rewrite (bind_lift _ _ _ _ E). change (hexlify b) with (bytes_text b). rewrite (call_then _ _ _ _ _ A).
  cbn [as_dict bind]. rewrite (key_plain _ _ _ H). cbn [bind]. assert (tx_of (JStr h) = Ok x) as -> by (apply tx_of_text; eauto). cbn [bind].
  destruct (ddels_get ["hex"] (dset "tx" (PTx x) (plain d))) as (e & Ee & Ne & G).
  { apply dset_nodup, nodup_plain, N. }
  { repeat constructor; cbn; intuition discriminate. }
  { apply dget_holds in H. intros y [<-|[]]. rewrite dget_dset, dget_plain, H. discriminate. }
  cbn [ddels] in Ee. destruct (ddel "hex" _) as [e'|] eqn:D in Ee; [|discriminate]. cbn [bind] in Ee. inversion Ee; subst e'.
  assert (ddel "hex" (dset "tx" (PTx x) (plain d)) = Ok e) as -> by exact D. cbn [bind]. exists e. split; [reflexivity|]. apply rewritten_get.
  - exact Ne.
  - cbn. repeat constructor; cbn; intuition discriminate.
  - cbn. intros y [<-|[]]; intuition discriminate.
  - intros y. rewrite G, dget_dset, dget_plain. cbn [dget drop]. destruct (String.eqb_spec y "tx") as [->|_]; reflexivity.
Qed.

(** Answers passed on as they are. *)
Lemma plain_result c args j s : (match c with GetRawMempool true | GetTransaction _ | LockUnspent _ _ | SubmitBlock _ _ | AddNode _ | AddNodeOneTry _ | RemoveNode _ | Other _ _ => True | _ => False end) ->
  snd (perform node pr c s) = after s (method_name c) args -> answers node s (method_name c) args j -> fst (perform node pr c s) = Val (PJ j).
Proof.
  intros C S A. destruct c; try contradiction; cbn [perform method_name] in *; unfold gettransaction, lockunspent, submitblock, addnode, other in *.
  - destruct verbose; [|contradiction]. unfold getrawmempool in *. rewrite (bind_after _ _ s _ _ (call_after node s _ _)) in S by still. apply after_inj in S. subst args.
    rewrite (call_then _ _ _ _ _ A). reflexivity.
  - rewrite (bind_after _ _ s _ _ (or_index_after node s _ _)) in S by still. apply after_inj in S. subst args. rewrite (index_then _ _ _ _ _ A). reflexivity.
  - rewrite (bind_after _ _ s _ _ (call_after node s _ _)) in S by still. apply after_inj in S. subst args. rewrite (call_then _ _ _ _ _ A). reflexivity.
  - unfold mbind at 1 in S. unfold mbind at 1. unfold lift in S at 1. unfold lift at 1. destruct (block_ser b) as [x|e]; [|cbn in S; apply (f_equal id_count) in S; cbn in S; lia].
    rewrite (bind_after _ _ s _ _ (call_after node s _ _)) in S by still. apply after_inj in S. subst args. rewrite (call_then _ _ _ _ _ A). reflexivity.
  - rewrite (bind_after _ _ s _ _ (call_after node s _ _)) in S by still. apply after_inj in S. subst args. rewrite (call_then _ _ _ _ _ A). reflexivity.
  - rewrite (bind_after _ _ s _ _ (call_after node s _ _)) in S by still. apply after_inj in S. subst args. rewrite (call_then _ _ _ _ _ A). reflexivity.
  - rewrite (bind_after _ _ s _ _ (call_after node s _ _)) in S by still. apply after_inj in S. subst args. rewrite (call_then _ _ _ _ _ A). reflexivity.
  - destruct (dunder name); [cbn in S; apply (f_equal id_count) in S; cbn in S; lia|].
    rewrite (bind_after _ _ s _ _ (call_after node s _ _)) in S by still. apply after_inj in S. subst args. rewrite (call_then _ _ _ _ _ A). reflexivity.
Qed.

(** The verbose form of getrawtransaction. *)
Lemma verbose_result h s d t k x : answers node s "getrawtransaction" [hash_text h; JInt 1] (JObj d) -> NoDup (map fst d) ->
  (forall n, In n ["hex"; "txid"; "version"; "locktime"; "vin"; "vout"] -> In n (map fst d)) ->
  holds "hex" (JStr t) d -> hex_text t k -> tx_text x k ->
  forall b, (~ In "blockhash" (map fst d) /\ b = PNone) \/ (exists u y, holds "blockhash" (JStr u) d /\ hex_text u (rev y) /\ b = PBytes y) ->
  exists d', perform node pr (GetRawTransaction h true) s = (Val (PDict d'), after s "getrawtransaction" [hash_text h; JInt 1]) /\
    rewritten d ["hex"; "txid"; "version"; "locktime"; "vin"; "vout"] [("tx", PTx x); ("blockhash", b)] d'.
Proof.
  intros A N All H X T b B. cbn [perform]. unfold getrawtransaction. change (hash_arg h) with (hash_text h). rewrite (index_then _ _ _ _ _ A). unfold raw_verbose. cbn [as_dict bind].
  rewrite (key_plain _ _ _ H). cbn [bind]. assert (tx_of (JStr t) = Ok x) as -> by (apply tx_of_text; eauto). cbn [bind].
  destruct (ddels_get ["hex"; "txid"; "version"; "locktime"; "vin"; "vout"] (dset "tx" (PTx x) (plain d))) as (e & Ee & Ne & G).
  { apply dset_nodup, nodup_plain, N. }
  { repeat constructor; cbn; intuition discriminate. }
  { intros y I. specialize (All y I). rewrite dget_dset, dget_plain. destruct (String.eqb y "tx"); [discriminate|]. destruct (dget y d) eqn:D; [discriminate|]. apply dget_none in D. contradiction. }
  rewrite Ee. cbn [bind].
  assert (match dget "blockhash" d with Some b => do h <- lx_of b; Ok (PBytes h) | None => Ok PNone end = Ok b) as ->.
  { destruct B as [[I ->]|(u & y & Hu & Xu & ->)]; [rewrite (proj2 (dget_none _ _) I); reflexivity|]. apply dget_holds in Hu. rewrite Hu, (proj2 (lx_of_text u y) Xu). reflexivity. }
  cbn [bind]. eexists. split; [reflexivity|]. apply rewritten_get.
  - apply dset_nodup, Ne.
  - cbn. repeat constructor; cbn; intuition discriminate.
  - cbn. intros y I. intuition (subst; discriminate).
  - intros y. rewrite dget_dset, G, dget_dset, dget_plain. cbn [dget].
    destruct (String.eqb_spec y "blockhash") as [->|_]; [reflexivity|]. destruct (String.eqb_spec y "tx") as [->|_]; reflexivity.
Qed.

(** validateaddress. *)
Lemma validate_result a t s d : network pr -> addr_text pr a t -> answers node s "validateaddress" [JStr t] (JObj d) -> NoDup (map fst d) ->
  forall pk, (~ In "pubkey" (map fst d) /\ pk = []) \/ (exists u y, holds "pubkey" (JStr u) d /\ hex_text u y /\ pk = [("pubkey", PBytes y)]) ->
  (holds "isvalid" (JBool false) d -> exists d', perform node pr (ValidateAddress a) s = (Val (PDict d'), after s "validateaddress" [JStr t]) /\ rewritten d [] pk d') /\
  (forall u b, holds "isvalid" (JBool true) d -> holds "address" (JStr u) d -> addr_text pr b u ->
    exists d', perform node pr (ValidateAddress a) s = (Val (PDict d'), after s "validateaddress" [JStr t]) /\ rewritten d [] (("address", PAddr b) :: pk) d').
Proof.
  intros Hn Ta A N pk P. cbn [perform]. unfold validateaddress. rewrite (bind_lift _ _ _ _ (addr_arg_text _ _ _ Hn Ta)), (call_then _ _ _ _ _ A). cbn [as_dict bind].
  assert (forall e, NoDup (map fst e) -> exists d', match dget "pubkey" d with Some p => do p <- unhexlify p; Ok (PDict (dset "pubkey" (PBytes p) e)) | None => Ok (PDict e) end = Ok (PDict d') /\
    NoDup (map fst d') /\ forall k, dget k d' = match dget k pk with Some v => Some v | None => dget k e end) as G.
  { intros e Ne. destruct P as [[I ->]|(u & y & Hu & Xu & ->)].
    - rewrite (proj2 (dget_none _ _) I). exists e. split; [reflexivity|]. split; [exact Ne|]. intros k. reflexivity.
    - apply dget_holds in Hu. rewrite Hu, (proj2 (unhexlify_text u y) Xu). cbn [bind]. eexists. split; [reflexivity|]. split; [apply dset_nodup, Ne|].
      intros k. rewrite dget_dset. cbn [dget]. destruct (String.eqb k "pubkey"); reflexivity. }
  assert (NoDup (map fst pk)) as NP.
  { destruct P as [[_ ->]|(u & y & _ & _ & ->)]; cbn; repeat constructor; intros []. }
  split.
  - intros V. rewrite (key_plain _ _ _ V). cbn [bind truth]. destruct (G (plain d) (nodup_plain _ N)) as (d' & E & N' & D). rewrite E. exists d'. split; [reflexivity|].
    apply rewritten_get; auto. intros k. rewrite D, dget_plain. reflexivity.
  - intros u b V Hu Tu. rewrite (key_plain _ _ _ V). cbn [bind truth]. rewrite (key_plain _ _ _ Hu). cbn [bind]. rewrite (proj2 (address_of_text pr b u Hn) Tu). cbn [bind].
    destruct (G (dset "address" (PAddr b) (plain d)) (dset_nodup _ _ _ (nodup_plain _ N))) as (d' & E & N' & D). rewrite E. exists d'. split; [reflexivity|].
    assert (dget "address" pk = None) as DA by (destruct P as [[_ ->]|(u' & y & _ & _ & ->)]; reflexivity).
    apply rewritten_get; auto.
    + cbn [map fst]. constructor; [apply dget_none, DA|exact NP].
    + intros k. rewrite D, dget_dset, dget_plain. cbn [dget drop]. destruct (String.eqb_spec k "address") as [->|_]; [rewrite DA; reflexivity|]. reflexivity.
Qed.
End Errors.
