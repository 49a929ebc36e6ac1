(** Proofs about Prog_Model.v. *)
From Verif Require Import Base Sha256 Hex_Model Tx_Model Tx_Spec Tx_Proofs Block_Model Block_Spec Block_Proofs Script_Model Base58_Model Base58_Spec Money_Spec
  Grammar_Spec Grammar_Proofs Wire_Proofs Net_Model Net_Spec Net_Proofs NetFrame_Proofs Rpc_Model Rpc_Spec Rpc_Proofs RpcUse_Proofs RpcMethods_Proofs Conf_Model Conf_Proofs
  Prog_Model Prog_Spec.
From Coq Require Import ZifyBool ZifyNat ZifyN.
#[local] Open Scope string_scope.
#[local] Open Scope list_scope.

(** ** Blocks that came from a node are written as they can be read *)

Lemma block_of_bytes j b : block_of j = Ok b -> exists e, block_ser b = Ok e /\ block_bytes b e.
Proof.
  unfold block_of. destruct (unhexlify j) as [x|]; [|discriminate]. cbn [bind]. unfold bdeserialize.
  destruct (block_de x) as [[b' r]|] eqn:E; [|discriminate]. cbn [bind]. intros H. assert (b' = b) as -> by (destruct r; inversion H; reflexivity). clear H.
  apply block_de_wf in E. destruct (block_codec b E) as (e & S & D). exists e. split; [exact S|].
  specialize (D []). apply block_reads in D. destruct D as (e' & D & B). rewrite !app_nil_r in D. subst e'. exact B.
Qed.

Section Boot.
Context (ip_ok : text -> bool) (node : list json -> reply) (conf : option text).

Lemma blockhash_node i s h : answers node s "getblockhash" [JInt i] (hash_text h) -> getblockhash node i s = (Val (PBytes h), after s "getblockhash" [JInt i]).
Proof.
  intros A. apply (blockhash_result node mainnet i s (to_hex (rev h)) (PBytes h) A). exists h. split; [reflexivity|apply to_hex_text].
Qed.
Lemma block_node h s b e : answers node s "getblock" [hash_text h; JBool false] (bytes_text e) -> block_bytes b e ->
  getblock node h s = (Val (PBlock b), after s "getblock" [hash_text h; JBool false]).
Proof.
  intros A B. apply (block_result node mainnet h s (to_hex e) (PBlock b) A). exists b, e. split; [reflexivity|]. split; [apply to_hex_text|exact B].
Qed.

(** What one height gives, whatever the node does. *)
Lemma getblock_kind h s v s' : getblock node h s = (Val v, s') -> exists j b, v = PBlock b /\ block_of j = Ok b.
Proof.
  unfold getblock, mbind. destruct (or_index_error _ s) as [[r|e|e] s1]; try discriminate. unfold lift, ret. destruct (block_of r) as [b|] eqn:E; [|discriminate].
  intros H. inversion H. eauto.
Qed.
Lemma boot_block_any i s e s' : boot_block node i s = (Val e, s') -> exists b, block_bytes b e.
Proof.
  unfold boot_block. destruct (getblockhash node i s) as [[[]| |] s1]; try discriminate. destruct (getblock node b s1) as [[v| |] s2] eqn:G; try discriminate.
  apply getblock_kind in G as (j & k & -> & B). destruct (block_of_bytes j k B) as (e' & S & Y). unfold lift. rewrite S. intros H. inversion H; subst. eauto.
Qed.

Lemma boot_app stopped c l1 l2 : forall out s out' s', boot_loop node stopped c l1 out s = (Val tt, out', s') ->
  boot_loop node stopped c (l1 ++ l2) out s = boot_loop node stopped c l2 out' s'.
Proof.
  induction l1 as [|i l1 IH]; intros out s out' s'; cbn [boot_loop app]; [intros H; inversion H; reflexivity|].
  destruct (boot_block node i s) as [[b| |] s1]; try discriminate. destruct (stopped i); [discriminate|]. destruct (pack_s 4 _); [|discriminate]. apply IH.
Qed.

(** Any run. *)
Lemma boot_any stopped c : forall l out s r out' s', boot_loop node stopped c l out s = (r, out', s') ->
  exists bs f tail, out' = out ++ f ++ tail /\ boot_file c bs f /\ (tail = [] \/ (tail = magic c /\ r = Exc StructError)) /\
    List.length bs <= List.length l /\ (r = Val tt -> List.length bs = List.length l /\ tail = []).
Proof.
  induction l as [|i l IH]; intros out s r out' s'; cbn [boot_loop].
  { intros H. inversion H; subst. exists [], [], []. rewrite app_nil_r. repeat split; auto. constructor. }
  assert (N : forall r, r <> Val tt -> exists bs f tail, out = out ++ f ++ tail /\ boot_file c bs f /\ (tail = [] \/ (tail = magic c /\ r = Exc StructError)) /\
    List.length bs <= List.length (i :: l) /\ (r = Val tt -> List.length bs = List.length (i :: l) /\ tail = [])).
  { intros q Q. exists [], [], []. rewrite app_nil_r. split; [reflexivity|]. split; [constructor|]. split; [auto|]. split; [cbn; lia|]. intros; contradiction. }
  destruct (boot_block node i s) as [[b| |] s1] eqn:B; try (intros H; inversion H; subst; apply N; discriminate).
  destruct (stopped i); [intros H; inversion H; subst; apply N; discriminate|].
  apply boot_block_any in B as (k & B). destruct (pack_s 4 _) as [len|e] eqn:P.
  - intros H. apply IH in H as (bs & f & tail & -> & F & T & L & V). rewrite magic_start. exists (k :: bs), (magic c ++ len ++ b ++ f), tail.
    split; [rewrite <- !app_assoc; reflexivity|]. split; [constructor; [exact B| |exact F]; apply pack_le_signed; [lia|exact P]|]. split; [exact T|]. cbn [List.length].
    split; [lia|]. intros E. destruct (V E) as [V1 V2]. split; [lia|exact V2].
  - intros H. inversion H; subst. exists [], [], (magic c). rewrite magic_start. split; [reflexivity|]. split; [constructor|].
    split; [right; split; [reflexivity|]; unfold pack_s in P; destruct (_ && _)%Z; inversion P; reflexivity|]. split; [cbn; lia|discriminate].
Qed.

(** A node that keeps a chain. *)
Section Chain.
Context (hashes : list bytes) (blocks : list block) (K : keeps node hashes blocks).

Lemma boot_block_chain i s b : nth_error blocks i = Some b ->
  exists h e len, nth_error hashes i = Some h /\
    boot_block node (Z.of_nat i) s = (Val e, after (after s "getblockhash" [JInt (Z.of_nat i)]) "getblock" [hash_text h; JBool false]) /\
    block_bytes b e /\ pack_s 4 (Z.of_N (blen e)) = Ok len /\ le_signed 4 (Z.of_N (blen e)) len.
Proof.
  destruct K as (L & A & _). intros B. destruct (nth_error hashes i) as [h|] eqn:H.
  2: { apply nth_error_None in H. assert (i < List.length blocks) by (apply nth_error_Some; congruence). lia. }
  destruct (A s i h b H B) as [A1 _]. destruct (A (after s "getblockhash" [JInt (Z.of_nat i)]) i h b H B) as [_ (e & X & M & A2)].
  destruct block_writes as [W1 W2]. destruct (W2 b e Logic.I X) as (e' & S & Le).
  assert (blen e' <= MAX_SIZE)%N as M' by (unfold blen in *; lia). pose proof (W1 b e' Logic.I S M') as X'.
  destruct (pack_s_ok 4 (Z.of_N (blen e'))) as (len & P & _); [lia|unfold MAX_SIZE in M'; change (2 ^ (8 * Z.of_nat 4 - 1))%Z with 2147483648%Z; lia|].
  exists h, e', len. split; [reflexivity|]. split; [|split; [exact X'|split; [exact P|apply pack_le_signed; [lia|exact P]]]].
  unfold boot_block. rewrite (blockhash_node _ _ _ A1), (block_node _ _ _ _ A2 X). unfold lift. rewrite S. reflexivity.
Qed.

Lemma boot_chain stopped c : (forall i, stopped i = false) -> forall m j out s, j + m <= List.length blocks ->
  exists f, boot_loop node stopped c (map Z.of_nat (seq j m)) out s =
    (Val tt, out ++ f, Px (id_count s + 2 * Z.of_nat m) (sent s ++ boot_requests (id_count s + 1) (Z.of_nat j) (firstn m (skipn j hashes)))) /\
  boot_file c (firstn m (skipn j blocks)) f.
Proof.
  intros N. induction m as [|m IH]; intros j out s L.
  { exists []. rewrite !firstn_O. cbn [seq map boot_loop boot_requests]. rewrite !app_nil_r. split; [destruct s as [k l]; cbn [id_count sent]; repeat f_equal; lia|constructor]. }
  destruct (nth_error blocks j) as [b|] eqn:B; [|apply nth_error_None in B; lia].
  destruct (boot_block_chain j s b B) as (h & e & len & H & R & X & P & Le).
  cbn [seq map boot_loop]. rewrite R, N, P, magic_start.
  destruct (IH (S j) (out ++ magic c ++ len ++ e) (after (after s "getblockhash" [JInt (Z.of_nat j)]) "getblock" [hash_text h; JBool false])) as (f & E & F); [lia|].
  assert (D : forall (A : Type) (l : list A) x, nth_error l j = Some x -> skipn j l = x :: skipn (S j) l).
  { clear. induction j as [|j IH]; intros A [|y l] x; try discriminate; cbn [nth_error skipn]; [intros H; inversion H; reflexivity|apply IH]. }
  rewrite (D _ _ _ H), (D _ _ _ B). exists (magic c ++ len ++ e ++ f). split; [|rewrite firstn_cons; constructor; assumption].
  rewrite E. rewrite firstn_cons. cbn [boot_requests]. unfold after. cbn [id_count sent]. rewrite <- !app_assoc. cbn [app].
  replace (Z.of_nat (S j)) with (Z.of_nat j + 1)%Z by lia. replace (id_count s + 1 + 1 + 2 * Z.of_nat m)%Z with (id_count s + 2 * Z.of_nat (S m))%Z by lia.
  replace (id_count s + 1 + 1 + 1)%Z with (id_count s + 1 + 2)%Z by lia. reflexivity.
Qed.

Lemma beyond i s : List.length blocks <= i -> boot_block node (Z.of_nat i) s = (Exc IndexError, after s "getblockhash" [JInt (Z.of_nat i)]).
Proof.
  destruct K as (_ & _ & R). intros L. destruct (R s i L) as (e & E & P). unfold boot_block.
  assert (getblockhash node (Z.of_nat i) s = (Exc IndexError, after s "getblockhash" [JInt (Z.of_nat i)])) as ->; [|reflexivity].
  destruct (perform node mainnet (GetBlockHash (Z.of_nat i)) s) as [o s'] eqn:G.
  assert (s' = after s "getblockhash" [JInt (Z.of_nat i)]) as ->.
  { destruct (perform_asks node mainnet (GetBlockHash (Z.of_nat i)) s (or_introl eq_refl) Logic.I) as (args & Q & T). rewrite G in T. cbn in T. inversion Q; subst. reflexivity. }
  pose proof (perform_reports node mainnet (GetBlockHash (Z.of_nat i)) s o [JInt (Z.of_nat i)] e G E P) as ->. exact G.
Qed.
End Chain.

(** ** The program *)

Lemma select_ok c : SelectParams (list_ascii_of_string (network_name c)) = Ok c.
Proof. destruct c; reflexivity. Qed.
Lemma asks_args argv n c : asks_for argv n c -> boot_args argv = Ok (n, c).
Proof.
  intros (t & T & N & [[-> ->]| ->]); unfold boot_args; rewrite (int_of_ok t n N T); [reflexivity|]. cbn [bind]. rewrite select_ok. reflexivity.
Qed.

Lemma bootstrap_chain stopped argv n c conn hashes blocks : (forall i, stopped i = false) -> asks_for argv n c -> raw_proxy ip_ok (prefixes_of c) None None conf = Ok conn ->
  keeps node hashes blocks -> (0 <= n < Z.of_nat (List.length blocks))%Z ->
  let r := make_bootstrap ip_ok node conf stopped argv in let m := Z.to_nat (n + 1) in
  r_end r = Val tt /\ boot_file c (firstn m blocks) (r_out r) /\ r_sent r = boot_requests 1 0 (firstn m hashes).
Proof.
  intros N A P K L. cbv zeta. unfold make_bootstrap. rewrite (asks_args _ _ _ A), P.
  destruct (boot_chain hashes blocks K stopped c N (Z.to_nat (n + 1)) 0 [] new_proxy) as (f & E & F); [lia|]. rewrite E. cbn [r_end r_out r_sent sent].
  split; [reflexivity|]. split; [exact F|reflexivity].
Qed.
Lemma bootstrap_short stopped argv n c conn hashes blocks : (forall i, stopped i = false) -> asks_for argv n c -> raw_proxy ip_ok (prefixes_of c) None None conf = Ok conn ->
  keeps node hashes blocks -> (Z.of_nat (List.length blocks) <= n)%Z ->
  let r := make_bootstrap ip_ok node conf stopped argv in let k := Z.of_nat (List.length blocks) in
  r_end r = Exc IndexError /\ boot_file c blocks (r_out r) /\ r_sent r = boot_requests 1 0 hashes ++ [request (2 * k + 1) "getblockhash" [JInt k]].
Proof.
  intros N A P K L. cbv zeta. unfold make_bootstrap. rewrite (asks_args _ _ _ A), P.
  destruct (boot_chain hashes blocks K stopped c N (List.length blocks) 0 [] new_proxy) as (f & E & F); [lia|].
  replace (Z.to_nat (n + 1)) with (List.length blocks + S (Z.to_nat n - List.length blocks)) by lia. rewrite seq_app, map_app.
  rewrite (boot_app _ _ _ _ _ _ _ _ E). cbn [seq map boot_loop Nat.add]. rewrite (beyond hashes blocks K) by lia. cbn [r_end r_out r_sent].
  cbn [skipn app] in F |- *. rewrite firstn_all in F. split; [reflexivity|]. split; [exact F|]. cbn [after sent id_count].
  assert (firstn (List.length blocks) hashes = hashes) as -> by (destruct K as [<- _]; apply firstn_all). cbn [app sent new_proxy id_count].
  change (0 + 1)%Z with 1%Z. change (Z.of_nat 0) with 0%Z. rewrite Z.add_0_l. reflexivity.
Qed.
Lemma bootstrap_any stopped argv : let r := make_bootstrap ip_ok node conf stopped argv in
  (exists c bs f tail, r_out r = f ++ tail /\ boot_file c bs f /\ (tail = [] \/ (tail = magic c /\ r_end r = Exc StructError)) /\
     (r_end r = Val tt -> tail = [] /\ forall n c', asks_for argv n c' -> c' = c /\ (-1 <= n -> Z.of_nat (List.length bs) = n + 1)%Z)).
Proof.
  cbv zeta. unfold make_bootstrap.
  assert (Z0 : forall e, exists c bs f tail, r_out (Run (Exc e) [] []) = f ++ tail /\ boot_file c bs f /\ (tail = [] \/ (tail = magic c /\ r_end (Run (Exc e) [] []) = Exc StructError)) /\
     (r_end (Run (Exc e) [] []) = Val tt -> tail = [] /\ forall n c', asks_for argv n c' -> c' = c /\ (-1 <= n -> Z.of_nat (List.length bs) = n + 1)%Z)).
  { intros e. exists Mainnet, [], [], []. split; [reflexivity|]. split; [constructor|]. split; [auto|]. discriminate. }
  destruct (boot_args argv) as [[n c]|e] eqn:A; [|apply Z0]. destruct (raw_proxy _ _ _ _ _) as [conn|e]; [|apply Z0].
  destruct (boot_loop _ _ _ _ _ _) as [[r out] s] eqn:E. apply boot_any in E as (bs & f & tail & -> & F & T & L & V). cbn [r_out r_end app].
  exists c, bs, f, tail. split; [reflexivity|]. split; [exact F|]. split; [exact T|]. intros R. destruct (V R) as [V1 V2]. split; [exact V2|].
  intros n' c' Q. apply asks_args in Q. rewrite Q in A. inversion A; subst. split; [reflexivity|]. rewrite map_length, seq_length in V1. lia.
Qed.

End Boot.

(** ** The file *)

Lemma le_signed_nonneg n len : le_signed 4 n len -> List.length len = 4.
Proof. intros H. apply le_signed_iff in H; [tauto|lia]. Qed.
Lemma boot_file_inj c bs f : boot_file c bs f -> forall bs', boot_file c bs' f -> bs' = bs.
Proof.
  induction 1 as [|b bs e len r B L F IH]; intros bs' G.
  - inversion G as [|b1 bs1 e1 len1 r1 B1 L1 F1 E Q]; [reflexivity|]. destruct c; discriminate.
  - inversion G as [E Q|b' bs1 e' len' r' B' L' F' E Q]; subst; [destruct c; discriminate|]. apply app_inv_head in Q.
    apply app_inj_len in Q as [<- Q]; [|rewrite (le_signed_nonneg _ _ L), (le_signed_nonneg _ _ L'); reflexivity].
    assert (D : block_de (e ++ r) = Ok (b, r)) by (apply block_reads; eauto). assert (D' : block_de (e' ++ r') = Ok (b', r')) by (apply block_reads; eauto).
    rewrite Q, D in D'. inversion D'; subst. f_equal. apply IH. assumption.
Qed.

(** ** Timestamps *)

Section Stamp.
Context (ip_ok : text -> bool) (node : list json -> reply) (conf : option text).

(** One request with this name was sent, or none. *)
Definition one_more (name : string) (s s' : proxy) : Prop := s' = s \/ exists args, s' = after s name args.
Lemma unspent_sends a b s : one_more "listunspent" s (snd (listunspent node mainnet a b None s)).
Proof.
  right. exists [JInt a; JInt b]. unfold listunspent. rewrite (bind_lift _ _ _ _ eq_refl). apply bind_after; [apply call_after|]. intros r s'. apply quiet_snd. reflexivity.
Qed.
Lemma newaddress_sends s : one_more "getnewaddress" s (snd (getnewaddress node mainnet None s)).
Proof. right. exists []. unfold getnewaddress. apply bind_after; [apply call_after|]. intros r s'. apply quiet_snd. reflexivity. Qed.
Lemma validate_sends a s : one_more "validateaddress" s (snd (validateaddress node mainnet a s)).
Proof.
  unfold validateaddress. destruct (addr_arg a) as [x|e] eqn:E; [|left; reflexivity]. right. exists [x].
  rewrite (bind_lift _ _ _ _ eq_refl). apply bind_after; [apply call_after|]. intros r s'. apply lift_snd.
Qed.

(** The requests of one digest; it never succeeds. *)
Lemma stamp_one_fails d s : (forall v, fst (stamp_one node d s) <> Val v) /\
  exists s1 s2, one_more "listunspent" s s1 /\ one_more "getnewaddress" s1 s2 /\ one_more "validateaddress" s2 (snd (stamp_one node d s)).
Proof.
  unfold stamp_one. pose proof (unspent_sends 0 9999999 s) as U. destruct (listunspent node mainnet 0 9999999 None s) as [o s1]. cbn [snd] in U.
  assert (F : forall e, (forall v, fst (@Exc unit e, s1) <> Val v) /\ exists t1 t2, one_more "listunspent" s t1 /\ one_more "getnewaddress" t1 t2 /\ one_more "validateaddress" t2 (snd (@Exc unit e, s1))).
  { intros e. split; [discriminate|]. exists s1, s1. split; [exact U|]. split; left; reflexivity. }
  assert (F' : forall e, (forall v, fst (@Rpc unit e, s1) <> Val v) /\ exists t1 t2, one_more "listunspent" s t1 /\ one_more "getnewaddress" t1 t2 /\ one_more "validateaddress" t2 (snd (@Rpc unit e, s1))).
  { intros e. split; [discriminate|]. exists s1, s1. split; [exact U|]. split; left; reflexivity. }
  destruct o as [v| |]; try apply F; try apply F'. destruct v as [| | | | | | | | | |[|x l]]; try apply F.
  clear F F'. pose proof (newaddress_sends s1) as A. destruct (getnewaddress node mainnet None s1) as [o s2]. cbn [snd] in A.
  assert (F : forall e, (forall v, fst (@Exc unit e, s2) <> Val v) /\ exists t1 t2, one_more "listunspent" s t1 /\ one_more "getnewaddress" t1 t2 /\ one_more "validateaddress" t2 (snd (@Exc unit e, s2))).
  { intros e. split; [discriminate|]. exists s1, s2. split; [exact U|]. split; [exact A|]. left; reflexivity. }
  assert (F' : forall e, (forall v, fst (@Rpc unit e, s2) <> Val v) /\ exists t1 t2, one_more "listunspent" s t1 /\ one_more "getnewaddress" t1 t2 /\ one_more "validateaddress" t2 (snd (@Rpc unit e, s2))).
  { intros e. split; [discriminate|]. exists s1, s2. split; [exact U|]. split; [exact A|]. left; reflexivity. }
  destruct o as [v| |]; try apply F; try apply F'. destruct v as [| | | | |a| | | | |]; try apply F. clear F F'.
  pose proof (validate_sends a s2) as V. destruct (validateaddress node mainnet a s2) as [o s3]. cbn [snd] in V.
  assert (F : forall o, (forall v, o <> Val v) -> (forall v, fst (o, s3) <> @Val unit v) /\ exists t1 t2, one_more "listunspent" s t1 /\ one_more "getnewaddress" t1 t2 /\ one_more "validateaddress" t2 (snd (o, s3))).
  { intros o' O. split; [exact O|]. exists s1, s2. auto. }
  destruct o as [v| |]; try (apply F; discriminate). destruct v as [| | | | | | | | |d'|]; try (apply F; discriminate).
  destruct (dget "pubkey" d') as [[]|]; try (apply F; discriminate). destruct (cscript _); apply F; discriminate.
Qed.

Lemma one_more_sent name s s' : one_more name s s' -> exists l, sent s' = sent s ++ l /\ List.length l <= 1 /\ Forall (fun q => exists k args, q = request k name args) l.
Proof.
  intros [->|[args ->]]; [exists []; rewrite app_nil_r; repeat split; auto; constructor|]. eexists. split; [reflexivity|]. split; [cbn; lia|]. repeat constructor. eauto.
Qed.

(** Every run: what is sent, what is printed, when it ends normally. *)
Lemma timestamp_any files names : let r := timestamp ip_ok node conf files names in
  r_out r = [] /\ List.length (r_sent r) <= 3 /\
  Forall (fun q => exists k name args, q = request k name args /\ In name ["listunspent"; "getnewaddress"; "validateaddress"]) (r_sent r) /\
  (r_end r = Val tt -> names <> [] /\ r_sent r = [] /\ Forall (fun f => files f = Unreadable) names).
Proof.
  cbv zeta. unfold timestamp. assert (Z0 : forall e, r_out (Run (Exc e) [] []) = [] /\ List.length (r_sent (Run (Exc e) [] [])) <= 3 /\
    Forall (fun q => exists k name args, q = request k name args /\ In name ["listunspent"; "getnewaddress"; "validateaddress"]) (r_sent (Run (Exc e) [] [])) /\
    (r_end (Run (Exc e) [] []) = Val tt -> names <> [] /\ r_sent (Run (Exc e) [] []) = [] /\ Forall (fun f => files f = Unreadable) names)).
  { intros e. split; [reflexivity|]. split; [cbn; lia|]. split; [constructor|discriminate]. }
  destruct (raw_proxy _ _ _ _ _) as [conn|e]; [|apply Z0]. destruct names as [|f names]; [apply Z0|].
  destruct (stamp_digests files (f :: names)) as [ds|e] eqn:D; [|apply Z0]. clear Z0. destruct ds as [|d ds].
  - cbn. split; [reflexivity|]. split; [lia|]. split; [constructor|]. intros _. split; [discriminate|]. split; [reflexivity|].
    clear - D. revert D. generalize (f :: names) as l. induction l as [|g l IH]; [constructor|]. cbn [stamp_digests]. destruct (files g) as [b| |] eqn:G.
    + destruct (stamp_digests files l); discriminate.
    + destruct (_ || _)%nat; [|discriminate]. destruct (x_hex g); [|discriminate]. cbn [bind]. destruct (stamp_digests files l); discriminate.
    + intros H. constructor; [exact G|apply IH, H].
  - cbn [stamp_all]. destruct (stamp_one_fails d new_proxy) as (N & s1 & s2 & U & A & V). destruct (stamp_one node d new_proxy) as [o s3]. cbn [fst snd] in N, V.
    assert (exists r, (forall v, r <> Val v) /\ match o with Val _ => stamp_all node ds s3 | Rpc e => (Rpc e, s3) | Exc e => (Exc e, s3) end = (r, s3)) as (r & R & ->).
    { destruct o as [v|e|e]; [destruct (N v eq_refl)| |]; (eexists; split; [|reflexivity]); discriminate. }
    cbn [r_out r_sent r_end]. apply one_more_sent in U as (l1 & U & L1 & F1), A as (l2 & A & L2 & F2), V as (l3 & V & L3 & F3). cbn [new_proxy sent app] in U.
    rewrite V, A, U. split; [reflexivity|]. rewrite !app_length. split; [lia|]. split; [|intros E; destruct (R _ E)].
    apply Forall_app. split; [apply Forall_app; split|]; (eapply Forall_impl; [|eassumption]); cbn; intros q (k & args & ->); eauto 10.
Qed.

(** With a wallet the program gets as far as its line 58. *)
Lemma stamp_one_wallet d s : wallet node -> exists t ts, stamp_one node d s =
  (Exc NameError, after (after (after s "listunspent" [JInt 0; JInt 9999999]) "getnewaddress" []) "validateaddress" [JStr t]) /\ addr_text mainnet ts t.
Proof.
  intros W. destruct (W s) as ((ds & fs & N & U & A1) & _).
  destruct (listunspent_result node mainnet 0 9999999 None _ ds fs s (or_introl eq_refl) (ask_unspent _ _ _) A1 U) as (ds' & E1 & F). cbn [perform] in E1.
  set (s1 := after s "listunspent" _) in *. destruct (W s1) as (_ & (t & a & T & A2) & _).
  assert (getnewaddress node mainnet None s1 = (Val (PAddr a), after s1 "getnewaddress" [])) as E2.
  { apply (address_result node mainnet (GetNewAddress None) [] t s1 (PAddr a) (or_introl eq_refl) A2 (ask_new _) Logic.I). eauto. }
  set (s2 := after s1 "getnewaddress" []) in *. destruct (W s2) as (_ & _ & V & _). destruct (V t a T) as (d0 & u & k & A3 & D & I0 & I1 & I2 & X & L).
  destruct (validate_result node mainnet a t s2 d0 (or_introl eq_refl) T A3 D [("pubkey", PBytes k)]) as [_ R]; [right; exists u, k; auto|].
  destruct (R t a I0 I1 T) as (d' & E3 & (D' & H1 & _)). cbn [perform] in E3.
  exists t, a. split; [|exact T]. unfold stamp_one. rewrite E1. assert (exists x l, map PDict ds' = x :: l) as (x & l & ->).
  { destruct ds' as [|y ds']; [|do 2 eexists; reflexivity]. destruct ds as [|z ds]; [contradiction|]. inversion U; subst. cbn [combine] in F. inversion F. }
  rewrite E2, E3. assert (dget "pubkey" d' = Some (PBytes k)) as ->. { apply dget_holds. apply H1. cbn. auto. }
  assert (exists b, cscript [IData k; IOp 0xac] = Ok b) as [b ->]; [|reflexivity].
  unfold cscript. cbn [objs_ser coerce]. unfold encode_op_pushdata. assert (blen k = 33)%N as -> by (unfold blen; lia).
  cbn. eexists. reflexivity.
Qed.
Lemma timestamp_fails conn files names : raw_proxy ip_ok mainnet None None conf = Ok conn -> wallet node -> names <> [] ->
  (forall f, In f names -> exists b, files f = Contents b) ->
  let r := timestamp ip_ok node conf files names in
  r_end r = Exc NameError /\ exists t a, addr_text mainnet a t /\
    r_sent r = [request 1 "listunspent" [JInt 0; JInt 9999999]; request 2 "getnewaddress" []; request 3 "validateaddress" [JStr t]].
Proof.
  intros P W N F. cbv zeta. unfold timestamp. rewrite P. destruct names as [|f names]; [contradiction|].
  assert (forall l, (forall f, In f l -> exists b, files f = Contents b) -> exists ds, stamp_digests files l = Ok ds) as G.
  { clear. induction l as [|g l IH]; intros F; [eexists; reflexivity|]. cbn [stamp_digests]. destruct (F g (or_introl eq_refl)) as [b ->].
    destruct IH as [ds ->]; [intros; apply F; right; assumption|]. eexists. reflexivity. }
  cbn [stamp_digests]. destruct (F f (or_introl eq_refl)) as [b ->]. destruct (G names) as [ds ->]; [intros; apply F; right; assumption|]. cbn [bind stamp_all].
  destruct (stamp_one_wallet (Hash b) new_proxy W) as (t & a & -> & T). cbn [r_end r_sent]. split; [reflexivity|]. exists t, a. split; [exact T|]. reflexivity.
Qed.
End Stamp.
