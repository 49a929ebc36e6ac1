(** Proofs about closing transactions: when they are valid, and that owners of keys can sign them. *)
From Verif Require Import Base Sha256 Ripemd160 Tx_Model Tx_Spec Tx_Proofs Proof_Model Proof_Spec Block_Model Block_Spec Block_Proofs Script_Model SigHash_Model SigHash_Spec
  ScriptEval_Model ScriptEval_Spec ScriptVerify_Spec ScriptUse_Proofs Base58_Model Base58_Spec Base58_Proofs Key_Model Key_Spec Key_Proofs KeyUse_Proofs
  Hex_Model Chain_Model Chain_Spec Chain_Proofs ChainPipe_Proofs Fund_Spec Fund_Proofs CloseValid_Spec.
From Coq Require Import ZifyBool ZifyNat ZifyN.
Local Open Scope list_scope.

Section Close.
Context (ct : ctable) (P : chain) (C : is_chain ct P).

Lemma printed_exact digest files ons meth t : wf_table ct -> variant_table ct -> seal_files ct P files ons -> List.length digest = 32 -> method meth ->
  (Z.of_nat (List.length files) < 2 ^ 64)%Z -> printed ct P digest files meth t ->
  exists x, t = mkTx (map (fun on => mkTxIn (fst on) [] 0xffffffff) ons) [x] 0 1 /\ close_txout digest meth 600 = Ok (Some x) /\
    Forall (fun on => wf_outpoint (fst on)) ons /\ List.length files = List.length ons.
Proof.
  intros W V F L M N (raw & E & D). destruct (seal_files_objects ct P C files ons W V F) as (Oo & Sf).
  assert (Lf : List.length files = List.length ons) by (clear - F; induction F; cbn; congruence).
  destruct (collect_ok ct P C W files ons [] F Oo (Forall_nil _)) as ([A|A] & _); unfold cmd_mkclosetx in E; rewrite A in E; cbn [bind] in E; [|discriminate]. cbn [app] in E.
  assert (Wo : Forall (fun on => wf_outpoint (fst on)) ons).
  { rewrite Forall_forall in *. intros on Hon. apply (seal_wf ct P C (fst on) (snd on)), Oo, Hon. }
  destruct (template_ok ct P C digest ons meth 600 L M ltac:(lia) Wo ltac:(lia)) as (t0 & _ & Et & Wt & _).
  pose proof Et as Et'. unfold make_close_seal_tx_template in Et'. destruct (close_txout_ok digest meth 600 L M ltac:(lia)) as (x & Ex & _). rewrite Ex in Et'. cbn [bind] in Et'.
  rewrite (close_txins_ok ct P C) in Et'. cbn [bind] in Et'. unfold tx_new in Et'. cbn [negb andb Z.leb Z.compare] in Et'. injection Et' as <-.
  rewrite Et in E. cbn [bind] in E. destruct (tx_file _ Wt) as (raw0 & Er & Dr). rewrite Er in E. cbn [bind] in E.
  assert (raw0 = raw) as <-. { pose proof (x_b2x raw0) as X. pose proof (x_b2x raw) as Y. assert (Eb : b2x raw0 = b2x raw) by congruence. rewrite Eb, Y in X. congruence. }
  rewrite Dr in D. injection D as <-. exists x. auto.
Qed.
End Close.

Ltac bind_ok H := match type of H with bind ?r _ = Ok _ => let E := fresh "E" in destruct r as [?|?] eqn:E; cbn [bind] in H; [|discriminate H] end.

(** ** How long the transaction is *)

Lemma pack_u_len w v b : pack_u w v = Ok b -> List.length b = w.
Proof. unfold pack_u. destruct (_ && _)%bool; [|discriminate]. intros H. injection H as <-. apply le_enc_length. Qed.
Lemma pack_s_len w v b : pack_s w v = Ok b -> List.length b = w.
Proof. unfold pack_s. destruct (_ && _)%bool; [|discriminate]. intros H. injection H as <-. apply le_enc_length. Qed.

Lemma close_input_len o b : txin_ser (mkTxIn o [] 0xffffffff) = Ok b -> wf_outpoint o -> List.length b = 41.
Proof.
  intros H (Lh & _). unfold txin_ser in H. cbn [i_prevout i_scriptSig i_nSequence] in H.
  destruct (outpoint_ser o) as [p|] eqn:Ep; cbn [bind] in H; [|discriminate].
  change (bytes_ser []) with (@Ok bytes [x00]) in H. cbn [bind] in H.
  destruct (pack_u 4 4294967295) as [q|] eqn:Eq; cbn [bind] in H; [|discriminate]. injection H as <-.
  unfold outpoint_ser in Ep. destruct (assert _) in Ep; cbn [bind] in Ep; [|discriminate].
  destruct (pack_u 4 (o_n o)) as [n|] eqn:En; cbn [bind] in Ep; [|discriminate]. injection Ep as <-.
  apply pack_u_len in En. apply pack_u_len in Eq. rewrite !app_length. cbn [List.length]. lia.
Qed.

Lemma close_inputs_len l : forall b, Forall (fun on : outpoint * bytes => wf_outpoint (fst on)) l -> objs_ser txin_ser (map (fun on => mkTxIn (fst on) [] 0xffffffff) l) = Ok b -> List.length b = 41 * List.length l.
Proof.
  induction l as [|on l IH]; intros b F H; cbn [map objs_ser] in H; [injection H as <-; reflexivity|]. inversion F as [|? ? Wo Fl]; subst.
  bind_ok H. bind_ok H. injection H as <-. apply close_input_len in E; [|exact Wo]. specialize (IH _ Fl eq_refl). rewrite app_length. cbn [List.length]. lia.
Qed.

Lemma varint_len n b : varint_ser n = Ok b -> Z.of_nat (List.length b) = (if n <? 253 then 1 else if n <=? 65535 then 3 else if n <=? 4294967295 then 5 else 9)%Z.
Proof.
  unfold varint_ser. destruct (n <? 0)%Z eqn:E0; [discriminate|]. destruct (n <? 253)%Z; [intros H; injection H as <-; reflexivity|].
  destruct (n <=? 65535)%Z; [intros H; bind_ok H; injection H as <-; apply pack_u_len in E; cbn [List.length]; lia|].
  destruct (n <=? 4294967295)%Z; intros H; bind_ok H; injection H as <-; apply pack_u_len in E; cbn [List.length]; lia.
Qed.

Lemma txout_len x b : txout_ser x = Ok b -> (List.length (o_scriptPubKey x) < 253)%nat -> List.length b = 9 + List.length (o_scriptPubKey x).
Proof.
  intros H L. unfold txout_ser, bytes_ser in H. bind_ok H. bind_ok H. injection H as <-. bind_ok E0. injection E0 as <-. apply pack_s_len in E. apply varint_len in E1.
  rewrite !app_length. unfold blen in E1. destruct (_ <? 253)%Z eqn:B in E1; lia.
Qed.

Lemma close_script_len digest meth x : List.length digest = 32 -> method meth -> close_txout digest meth 600 = Ok (Some x) ->
  (List.length (o_scriptPubKey x) = if String.eqb meth "op_return" then 34 else if String.eqb meth "p2pkh" then 25 else 23) /\
  o_nValue x = (if String.eqb meth "op_return" then 0 else 600)%Z.
Proof.
  intros L M. pose proof (Hash160_length digest) as L20. unfold close_txout. destruct M as [-> | [-> | ->]]; cbn [String.eqb Ascii.eqb Bool.eqb andb].
  - rewrite (script_op_return_bytes digest L). cbn [bind]. intros H. injection H as <-. cbn [o_scriptPubKey o_nValue app List.length]. rewrite L. auto.
  - rewrite (script_p2sh_bytes digest). cbn [bind]. intros H. injection H as <-. cbn [o_scriptPubKey o_nValue app List.length]. rewrite app_length, L20. auto.
  - rewrite (script_p2pkh_bytes digest). cbn [bind]. intros H. injection H as <-. cbn [o_scriptPubKey o_nValue app List.length]. rewrite app_length, L20. auto.
Qed.

Lemma close_tx_len digest meth x (ons : list (outpoint * bytes)) b : List.length digest = 32 -> method meth -> close_txout digest meth 600 = Ok (Some x) ->
  Forall (fun on => wf_outpoint (fst on)) ons -> tx_ser (mkTx (map (fun on => mkTxIn (fst on) [] 0xffffffff) ons) [x] 0 1) = Ok b ->
  ((blen b <= 1000000)%N <-> (Z.of_nat (List.length ons) <= most_seals meth)%Z).
Proof.
  intros L M Ex Wo H. destruct (close_script_len digest meth x L M Ex) as (Ls & _). unfold tx_ser in H. cbn [t_vin t_vout t_nVersion t_nLockTime] in H.
  destruct (pack_s 4 1) as [v|] eqn:Ev; cbn [bind] in H; [|discriminate].
  unfold vector_ser in H. cbn [objs_ser List.length] in H. rewrite map_length in H.
  destruct (varint_ser (Z.of_nat (List.length ons))) as [k|] eqn:Ek; cbn [bind] in H; [|discriminate].
  destruct (objs_ser txin_ser _) as [r|] eqn:Er; cbn [bind] in H; [|discriminate].
  change (varint_ser (Z.of_nat 1)) with (@Ok bytes [x01]) in H. cbn [bind] in H.
  destruct (txout_ser x) as [y|] eqn:Ey; cbn [bind] in H; [|discriminate].
  destruct (pack_u 4 0) as [z|] eqn:Ez; cbn [bind] in H; [|discriminate]. injection H as <-.
  apply pack_s_len in Ev. apply pack_u_len in Ez. apply varint_len in Ek. apply close_inputs_len in Er; [|exact Wo].
  apply txout_len in Ey; [|rewrite Ls; destruct (String.eqb _ _); [lia|]; destruct (String.eqb _ _); lia]. rewrite Ls in Ey.
  unfold blen, most_seals in *. rewrite !app_length. cbn [List.length app]. rewrite !app_length. cbn [List.length].
  destruct M as [-> | [-> | ->]]; cbn [String.eqb Ascii.eqb Bool.eqb andb] in *; destruct (Z.of_nat (List.length ons) <? 253)%Z eqn:B1; try lia;
    destruct (Z.of_nat (List.length ons) <=? 65535)%Z eqn:B2; try lia; destruct (Z.of_nat (List.length ons) <=? 4294967295)%Z; lia.
Qed.

(** ** When it is valid *)

Lemma closing_exact ct P digest files ons meth t : is_chain ct P -> wf_table ct -> variant_table ct -> seal_files ct P files ons -> List.length digest = 32 -> method meth ->
  (Z.of_nat (List.length files) < 2 ^ 64)%Z -> printed ct P digest files meth t ->
  (CheckTransaction t = Ok tt <->
   files <> [] /\ NoDup (map fst ons) /\ Forall (fun on => ~ null_outpoint (fst on)) ons /\ (Z.of_nat (List.length files) <= most_seals meth)%Z).
Proof.
  intros C W V F L M N Pr. destruct (printed_shape ct P C digest files ons meth t W V F L M N Pr) as (Wt & _).
  destruct (printed_exact ct P C digest files ons meth t W V F L M N Pr) as (x & -> & Ex & Wo & Lf). destruct (close_script_len digest meth x L M Ex) as (_ & Vx).
  destruct (tx_file _ Wt) as (b & Eb & _). pose proof (close_tx_len digest meth x ons b L M Ex Wo Eb) as Sz. rewrite Lf.
  assert (Ip : map i_prevout (map (fun on : outpoint * bytes => mkTxIn (fst on) [] 0xffffffff) ons) = map fst ons) by (rewrite map_map; reflexivity).
  assert (Ne : files <> [] <-> ons <> []) by (destruct files, ons; cbn in Lf; try discriminate; split; congruence).
  rewrite CheckTransaction_iff, Ne. split.
  - intros [V1 V2 V3 V4 V5 V6 V7 V8]. cbn [t_vin t_vout] in *. rewrite Ip in V6. split; [destruct ons; cbn in V1; congruence|]. split; [exact V6|]. split.
    + apply Forall_forall. intros on Hon Nn. assert (D : coinbase (mkTx (map (fun on => mkTxIn (fst on) [] 0xffffffff) ons) [x] 0 1) \/ ~ coinbase (mkTx (map (fun on => mkTxIn (fst on) [] 0xffffffff) ons) [x] 0 1)).
      { destruct ons as [|o1 [|o2 l]]; [destruct Hon| |right; intros (i & Hi & _); discriminate Hi]. left. destruct Hon as [->|[]]. eexists. split; [reflexivity|exact Nn]. }
      destruct D as [D|D].
      * specialize (V7 D (mkTxIn (fst on) [] 0xffffffff) ltac:(apply in_map_iff; exists on; auto)). cbn in V7. lia.
      * specialize (V8 D). rewrite Forall_forall in V8. apply (V8 (mkTxIn (fst on) [] 0xffffffff)); [apply in_map_iff; exists on; auto|exact Nn].
    + apply Sz. destruct V3 as (e & Ee & Le). congruence.
  - intros (Hne & Hd & Hn & Hs). rewrite Forall_forall in Hn. constructor; cbn [t_vin t_vout].
    + destruct ons; [congruence|discriminate].
    + discriminate.
    + exists b. split; [exact Eb|]. apply Sz, Hs.
    + constructor; [rewrite Vx; destruct (String.eqb _ _); lia|constructor].
    + cbn [value_out fold_right]. rewrite Vx. destruct (String.eqb _ _); lia.
    + rewrite Ip. exact Hd.
    + intros (i & Hi & Ni). exfalso. destruct ons as [|on [|? ?]]; cbn in Hi; try discriminate. injection Hi as <-. exact (Hn on (or_introl eq_refl) Ni).
    + intros _. apply Forall_forall. intros i Hi. apply in_map_iff in Hi. destruct Hi as (on & <- & Hon). exact (Hn on Hon).
Qed.

(** ** Signing it *)

Section Wallet.
Context (G : curve) (L : openssl) (M : library G L) (pr : prefixes) (Hpr : network pr).

Lemma owner_script t i spk ss : owner_signs G L pr t i spk ss -> (blen ss <= 150)%N.
Proof.
  intros (mem & secret & p & c & k & a & r & h & sig & Ls & Hp & Ek & _ & _ & _ & S & _ & E).
  pose proof (good_unique G L M mem secret p c k Ls Hp Ek) as Hg. pose proof (key_short G L M secret p c k Hg) as Lk.
  pose proof (sign_ok G L M secret p c k h r sig Hg Hp S) as (_ & _ & Lsig).
  assert (La : (blen (sig ++ [x01]) <= 73)%N) by (unfold blen in *; rewrite app_length; cbn [List.length]; lia).
  rewrite two_pushes in E by lia. injection E as <-. unfold short_push, blen in *. rewrite !app_length in *. cbn [List.length] in *. rewrite ?app_length in *. cbn [List.length] in *. lia.
Qed.

Lemma same_length t t' : same_but_scripts t t' -> List.length (t_vin t') = List.length (t_vin t).
Proof. intros (_ & _ & _ & E & _). apply (f_equal (@List.length _)) in E. rewrite !map_length in E. exact E. Qed.

Lemma nth_map_some {A B} (f : A -> B) l i y : nth_error (map f l) i = Some y -> exists x, nth_error l i = Some x /\ f x = y.
Proof. rewrite nth_error_map. destruct (nth_error l i) as [x|]; cbn; [|discriminate]. intros H. injection H as <-. eauto. Qed.

Lemma same_input t t' i x' : same_but_scripts t t' -> nth_error (t_vin t') i = Some x' ->
  exists x, nth_error (t_vin t) i = Some x /\ i_prevout x = i_prevout x' /\ i_nSequence x = i_nSequence x'.
Proof.
  intros (_ & _ & _ & Ep & Eq) H. pose proof (map_nth_error i_prevout i _ H) as Hp. pose proof (map_nth_error i_nSequence i _ H) as Hq. rewrite Ep in Hp. rewrite Eq in Hq.
  destruct (nth_map_some _ _ _ _ Hp) as (x & Hx & Px). destruct (nth_map_some _ _ _ _ Hq) as (y & Hy & Qy). exists x. split; [exact Hx|]. split; [exact Px|congruence].
Qed.

Lemma signed_wf paid t t' : wf_tx t -> signed_by_owners G L pr paid t t' -> wf_tx t'.
Proof.
  intros (W1 & W2 & W3 & W4 & W5 & W6) (S & O). pose proof S as (Eo & El & Ev & _). pose proof (same_length _ _ S) as Ln.
  unfold wf_tx. rewrite Eo, El, Ev, Ln. refine (conj _ (conj W2 (conj W3 (conj W4 (conj W5 W6))))).
  apply Forall_forall. intros x Hx. apply In_nth_error in Hx. destruct Hx as (i & Hi). destruct (same_input t t' i x S Hi) as (y & Hy & Ep & Eq).
  rewrite Forall_forall in W1. destruct (W1 y (nth_error_In _ _ Hy)) as (A & _ & B). unfold wf_txin. rewrite <- Ep, <- Eq. split; [exact A|]. split; [|exact B].
  pose proof (owner_script _ _ _ _ (O i x Hi)) as Lx. unfold wf_script. assert (150 <= MAX_SIZE)%N by (vm_compute; discriminate). lia.
Qed.

Lemma signed_spends paid t t' i x flags : wf_tx t -> signed_by_owners G L pr paid t t' -> nth_error (t_vin t') i = Some x ->
  VerifyScript (script_ecdsa L) (i_scriptSig x) (paid (i_prevout x)) t' (Z.of_nat i) flags = Ok tt.
Proof.
  intros W S Hi. pose proof (signed_wf paid t t' W S) as W'. destruct S as (S & O). destruct (O i x Hi) as (mem & secret & p & c & k & a & r & h & sig & Ls & Hp & Ek & Ea & Es & SH & Sg & NE & CS).
  refine (address_spends G L M mem secret p c k pr a _ t t' i i x01 h r sig _ flags Ls Hp Ek Hpr Ea Es W W' _ SH Sg NE CS).
  destruct (same_input t t' i x S Hi) as (y & Hy & Ep & Eq). destruct S as (Eo & El & Ev & Mp & Mq).
  unfold same_covered. split; [congruence|]. split; [congruence|]. split; [exists y, x; auto|]. split; [intros _; split; [reflexivity|congruence]|]. split; [congruence|].
  split; [intros B; vm_compute in B; discriminate B|]. congruence.
Qed.

Lemma owners_close ct P paid digest files ons meth t t' t'' : is_chain ct P -> wf_table ct -> variant_table ct -> seal_files ct P files ons -> List.length digest = 32 -> method meth ->
  (Z.of_nat (List.length files) < 2 ^ 64)%Z -> printed ct P digest files meth t -> funded t t' -> hd_error (t_vout t') = hd_error (t_vout t) ->
  signed_by_owners G L pr paid t' t'' ->
  (forall i x flags, nth_error (t_vin t'') i = Some x -> VerifyScript (script_ecdsa L) (i_scriptSig x) (paid (i_prevout x)) t'' (Z.of_nat i) flags = Ok tt) /\
  exists raw, tx_ser t'' = Ok raw /\ witnessed ct P raw files digest.
Proof.
  intros C W V F Ld Me N Pr Fu H S. pose proof Fu as (Wt & L1 & L2 & I1 & I2). split; [intros i x flags; apply (signed_spends paid t' t''); assumption|].
  pose proof (signed_wf paid t' t'' Wt S) as W''. destruct (tx_file t'' W'') as (raw & Er & _). exists raw. split; [exact Er|].
  destruct S as (S & _). pose proof (same_length _ _ S) as Ln. destruct S as (Eo & _ & _ & Mp & _).
  apply (funded_first ct P C digest files ons meth t t'' raw W V F Ld Me N Pr); [|exact Er|congruence].
  unfold funded. rewrite Ln, Eo, Mp. auto.
Qed.
End Wallet.

(** ** Who can have closed a seal *)

Lemma only_owners ct P w : is_chain ct P -> object ct (p_bwit P) w -> outcome ct btc_verify w = Ok tt ->
  exists o n i t j t' x, w = Witness P (Seal P o n) (TxInProof P i (TxProof P t)) (TxOutProof P j (TxProof P t')) /\ input t i x /\ i_prevout x = o /\
  forall ecdsa h flags, List.length h = 20 -> VerifyScript ecdsa (i_scriptSig x) (p2pkh_script h) t i flags = Ok tt ->
  exists pk sig s, Hash160 pk = h /\ p2pkh_signed h sig s /\ signed_by ecdsa t (Z.to_nat i) s pk sig.
Proof.
  intros C O V. apply (proj1 (btc_verify_exact ct P C _ O)) in V. destruct V as (o & n & i & t & j & t' & x & -> & I & E & _).
  exists o, n, i, t, j, t', x. split; [reflexivity|]. split; [exact I|]. split; [exact E|]. intros ecdsa h flags Lh V.
  assert (W : wf_tx t).
  { destruct (witness_shape ct P C _ O) as [(s & a & b & E1 & _ & Oa & Ob)|(dh & E1 & _)]; [|discriminate]. inversion E1; subst.
    destruct (txin_shape ct P C _ Oa) as [(? & p & E2 & _ & Op)|(? & E2 & _)]; [|discriminate]. inversion E2; subst.
    destruct (tx_shape ct P C _ Op) as [(? & E4 & W1)|(? & E4 & _)]; [|discriminate]. inversion E4; subst. exact W1. }
  destruct I as (Hi & I). assert (Bi : Z.to_nat i < List.length (t_vin t)) by (apply nth_error_Some; congruence).
  rewrite <- (Z2Nat.id i Hi) in V. apply (Verify_p2pkh_any ecdsa t (Z.to_nat i) W Bi h _ flags Lh) in V.
  destruct V as (pk & sig & r & s & _ & _ & Eh & Ps & Sg). exists pk, sig, s. auto.
Qed.
