(** Proofs about SusTool_Model.v: what mkwitness writes, and the commands one after the other. *)
From Verif Require Import Base Sha256 Ripemd160 Serialize_Model Serialize_Spec Tx_Model Tx_Spec Tx_Proofs Base58_Model Proof_Model Proof_Spec Proof_Proofs ProofMain_Proofs ProofArrive_Proofs
  Hex_Model Chain_Model Chain_Spec Chain_Proofs ChainPipe_Proofs.
From Verif Require Import Grammar_Spec Grammar_Proofs Money_Model Rpc_Model Rpc_Spec Rpc_Proofs RpcUse_Proofs RpcMethods_Proofs Conf_Model Conf_Spec Conf_Proofs ConfUse_Proofs
  SusTool_Model SusTool_Spec SusTool_Proofs.
From Coq Require Import ZifyBool ZifyNat ZifyN.
#[local] Open Scope string_scope.
#[local] Open Scope list_scope.

(** ** Digests *)

Lemma digit_no_space c n : digit_text c n -> Chain_Model.is_space c = false.
Proof. intros H. apply digit_hex in H. destruct (Chain_Model.is_space c) eqn:E; [|reflexivity]. exfalso. destruct c as [[] [] [] [] [] [] [] []]; vm_compute in E; try discriminate E; vm_compute in H; discriminate H. Qed.
Lemma space_code c : Chain_Model.is_space c = true <-> In (N_of_ascii c) [9; 10; 11; 12; 13; 32]%N.
Proof. unfold Chain_Model.is_space. cbv zeta. cbn [In]. lia. Qed.
Lemma fromhex_text s b : fromhex s = Ok b <-> spaced_hex s b.
Proof.
  split.
  - assert (forall n, forall s b, (String.length s <= n)%nat -> fromhex s = Ok b -> spaced_hex s b) as G; [|apply (G _ s b (le_n _))].
    clear. induction n as [|n IH]; intros s b L H.
    + destruct s; [|cbn in L; lia]. inversion H. constructor.
    + destruct s as [|c1 s]; [inversion H; constructor|]. cbn [fromhex] in H. destruct (Chain_Model.is_space c1) eqn:Sp.
      * apply spaced_skip; [apply space_code, Sp|]. apply IH; [cbn in L; lia|exact H].
      * destruct s as [|c2 s]; [discriminate|]. destruct (hex_digit c1) as [u|] eqn:U; [|discriminate].
        destruct (hex_digit c2) as [v|] eqn:V; [|discriminate]. destruct (fromhex s) as [r|] eqn:R; [|discriminate]. cbn [bind] in H. inversion H; subst.
        pose proof (hex_digit_lt _ _ U). pose proof (hex_digit_lt _ _ V).
        apply (spaced_byte c1 c2 (N.to_nat u) (N.to_nat v)); [apply digit_hex; rewrite N2Nat.id; exact U|apply digit_hex; rewrite N2Nat.id; exact V| |apply IH; [cbn in L; lia|exact R]].
        rewrite bN_Nb by lia. lia.
  - intros H. induction H as [|c s b Sp H IH|c1 c2 n1 n2 x s b D1 D2 X H IH]; [reflexivity| |].
    + cbn [fromhex]. apply space_code in Sp. rewrite Sp. exact IH.
    + cbn [fromhex]. rewrite (digit_no_space _ _ D1). apply digit_hex in D1, D2. rewrite D1, D2, IH. cbn [bind].
      replace (N.of_nat n1 * 16 + N.of_nat n2)%N with (bN x) by lia. rewrite Nb_bN. reflexivity.
Qed.
Lemma parse_digest_text s h : parse_digest s = Ok h <-> digest_text s h.
Proof. rewrite parse_digest_exact, fromhex_text. reflexivity. Qed.
Lemma hex_text_spaced s b : hex_text s b -> spaced_hex s b.
Proof. induction 1; [constructor|eapply spaced_byte; eauto]. Qed.

Section Tool.
Context (ct : ctable) (P : chain) (C : is_chain ct P) (W : wf_table ct) (V : variant_table ct).

(** ** One witness *)

Lemma make_witness_ok t f w : wf_tx t -> make_witness ct P t (TxProof P t) f = Ok w -> exists b, ser_proof ct w = Ok b /\ valid_witness ct P t f b.
Proof.
  intros Wt H. unfold make_witness in H. destruct (deserialize ct (p_bseal P) f) as [s|] eqn:D; [|discriminate]. cbn [bind] in H.
  pose proof (deserialize_fits ct _ _ _ W V (proj1 (proj2 (d_bseal ct P C))) D) as Os.
  destruct (seal_shape ct P C s Os) as [(o & n & -> & Wo & Ln)|(dh & -> & _)].
  - destruct (Exists_dec (fun x => i_prevout x = o) (t_vin t)) as [Ex|Nx].
    { intros x. destruct (i_prevout x) as [h k], o as [h' k']. destruct (bytes_eq_dec h h') as [->|N]; [|right; congruence]. destruct (Z.eq_dec k k') as [->|N]; [left; reflexivity|right; congruence]. }
    + apply Exists_exists in Ex. destruct (find_input_ok ct P C o n Wo (t_vin t) 0 (proj1 Wt) Ex) as (i & x & E & R & X & Ep). change (VOut o) with (VOut o) in H. fold (Seal P o n) in *. rewrite E in H. cbn [bind] in H. rewrite Z.sub_0_r in X.
      rewrite (txin_construct ct P C i (TxProof P t) eq_refl) in H. destruct (_ && _)%Z eqn:Ri in H; [|discriminate]. cbn [bind] in H.
      rewrite (txout_construct ct P C 0 (TxProof P t) eq_refl) in H. cbn [andb Z.leb Z.compare] in H. destruct (0 <=? 2 ^ 32 - 1)%Z eqn:R0 in H; [|lia]. cbn [bind] in H.
      rewrite (construct_witness ct P C) in H by reflexivity. inversion H; subst w. clear H. set (w := Witness P _ _ _).
      assert (O : object ct (p_bwit P) w).
      { apply (witness_object ct P C); [exact Os|apply (txin_object ct P C); [lia|]|apply (txout_object ct P C); [lia|]]; apply (tx_object ct P C), Wt. }
      destruct (witness_file_roundtrip ct P C w W O) as (enc & Ee & De). exists enc. split; [exact Ee|]. exists o, n, i, x. split; [exact D|]. split; [exact De|].
      split; [split; [lia|exact X]|]. split; [exact Ep|]. apply (verifywitness_ok ct P w enc None O De); [|exact Logic.I].
      apply (proj1 (btc_verify_exact ct P C w O)). exists o, n, i, t, 0%Z, t, x. split; [reflexivity|]. split; [split; [lia|exact X]|]. split; [exact Ep|].
      destruct (tx_GetHash_wf t Wt) as (h & Eh). exists h. auto.
    + fold (Seal P o n) in H. rewrite (find_input_none ct P C o n Wo (t_vin t) 0 (proj1 Wt)) in H; [discriminate|]. intros x Hx Ex. apply Nx. apply Exists_exists. eauto.
  - destruct (t_vin t) as [|x vin]; cbn [find_input bind] in H; [discriminate|]. unfold seal_outpoint in H.
    assert (exists e, peek ct (PHash (p_bseal P) dh) "outpoint" = Err e) as (e & E).
    { rewrite (peek_hash ct _ _ _ _ (A_bseal ct P C)). destruct (attr_index _ _); eauto. }
    rewrite E in H. discriminate.
Qed.
Lemma witness_for_make t p f b : witness_for ct P t p f = Ok b <-> exists w, make_witness ct P t p f = Ok w /\ ser_proof ct w = Ok b.
Proof.
  unfold witness_for, make_witness. destruct (deserialize ct (p_bseal P) f) as [s|]; cbn [bind]; [|split; [discriminate|intros (? & ? & _); discriminate]].
  destruct (find_input ct s 0 (t_vin t)) as [[i|]|]; cbn [bind]; try (split; [discriminate|intros (? & ? & _); discriminate]).
  destruct (construct ct (p_txin P) _) as [x|]; cbn [bind]; [|split; [discriminate|intros (? & ? & _); discriminate]].
  destruct (construct ct (p_txout P) _) as [y|]; cbn [bind]; [|split; [discriminate|intros (? & ? & _); discriminate]].
  destruct (construct ct (p_bwit P) _) as [w|]; cbn [bind]; [|split; [discriminate|intros (? & ? & _); discriminate]].
  split; [eauto|]. intros (w' & E & S). congruence.
Qed.

(** ** All witnesses *)

Lemma write_shape t fds : wf_tx t -> forall d r d', write_witnesses ct P t (TxProof P t) fds d = (r, d') ->
  exists done rest, fds = done ++ rest /\
    (forall n f, In (n, f) done -> d (witness_name n) = None /\ exists b, d' (witness_name n) = Some b /\ valid_witness ct P t f b) /\
    (forall n, (forall m f, In (m, f) done -> n <> witness_name m) -> d' n = d n) /\ (r = Val tt <-> rest = []).
Proof.
  intros Wt. induction fds as [|[name f] fds IH]; intros d r d' H; cbn [write_witnesses] in H.
  - inversion H; subst. exists [], []. split; [reflexivity|]. split; [intros ? ? []|]. split; [reflexivity|]. tauto.
  - assert (forall e, (Exc e, d) = (r, d') -> exists done rest, (name, f) :: fds = done ++ rest /\
      (forall n f, In (n, f) done -> d (witness_name n) = None /\ exists b, d' (witness_name n) = Some b /\ valid_witness ct P t f b) /\
      (forall n, (forall m f, In (m, f) done -> n <> witness_name m) -> d' n = d n) /\ (r = Val tt <-> rest = [])) as Stop.
    { intros e E. inversion E; subst. exists [], ((name, f) :: fds). split; [reflexivity|]. split; [intros ? ? []|]. split; [reflexivity|]. split; discriminate. }
    destruct (make_witness ct P t (TxProof P t) f) as [w|e] eqn:M; [|exact (Stop _ H)]. cbv zeta in H. fold (witness_name name) in H.
    destruct (d (witness_name name)) eqn:X; [exact (Stop _ H)|]. clear Stop. destruct (make_witness_ok t f w Wt M) as (b & Eb & Vb). rewrite Eb in H.
    destruct (IH _ _ _ H) as (done & rest & -> & A & B & R). exists ((name, f) :: done), rest. split; [reflexivity|].
    assert (forall n g, In (n, g) done -> n <> name) as Nn. { intros n g I ->. destruct (A _ _ I) as [N _]. rewrite put_same in N. discriminate. }
    split; [|split].
    + intros n g [E|I].
      * inversion E; subst. split; [exact X|]. exists b. split; [|exact Vb]. rewrite B; [apply put_same|]. intros m g' I E'. apply witness_name_inj in E'. subst. exact (Nn _ _ I eq_refl).
      * destruct (A _ _ I) as [N K]. split; [|exact K]. rewrite put_other in N; [exact N|]. intros E. apply witness_name_inj in E. exact (Nn _ _ I E).
    + intros n Hn. rewrite B; [apply put_other; apply (Hn name f); left; reflexivity|]. intros m g I. apply (Hn m g). right. exact I.
    + exact R.
Qed.
(** When all goes well. *)
Lemma write_ok t fds : wf_tx t -> NoDup (map fst fds) -> (forall n f, In (n, f) fds -> exists w, make_witness ct P t (TxProof P t) f = Ok w) ->
  forall d, (forall n, In n (map fst fds) -> d (witness_name n) = None) -> fst (write_witnesses ct P t (TxProof P t) fds d) = Val tt.
Proof.
  intros Wt. induction fds as [|[name f] fds IH]; intros Nd Hw d Hd; [reflexivity|]. cbn [write_witnesses]. destruct (Hw name f (or_introl eq_refl)) as (w & Ew). rewrite Ew. cbv zeta. fold (witness_name name).
  rewrite (Hd name (or_introl eq_refl)). destruct (make_witness_ok t f w Wt Ew) as (b & -> & _). cbn [map fst] in Nd. inversion Nd as [|? ? Nn Nd']; subst.
  apply IH; [exact Nd'|intros n g I; apply (Hw n g); right; exact I|]. intros n I. rewrite put_other; [apply Hd; right; exact I|]. intros E. apply witness_name_inj in E. subst. contradiction.
Qed.

Context (ip_ok : text -> bool) (node : list json -> reply) (conf_name : string).
Notation sus_tool := (sus_tool ct P ip_ok node conf_name).

Lemma bdeserialize_wf raw t : bdeserialize tx_de false raw = Ok t -> wf_tx t.
Proof. unfold bdeserialize. destruct (tx_de raw) as [[u [|x r]]|] eqn:E; cbn [bind]; try discriminate. intros H. inversion H; subst. exact (tx_de_wf _ _ _ E). Qed.
Lemma tx_of_wf j t : tx_of j = Ok t -> wf_tx t.
Proof. unfold tx_of. destruct (unhexlify j) as [b|]; cbn [bind]; [|discriminate]. apply bdeserialize_wf. Qed.
Lemma closing_tx_wf how s t s' : closing_tx node how s = (Val t, s') -> wf_tx t /\ forall raw, how = inr raw -> bdeserialize tx_de false raw = Ok t.
Proof.
  destruct how as [txid|raw]; cbn [closing_tx].
  - unfold getrawtransaction, mbind at 1. destruct (or_index_error _ s) as [[j|e|e] s1]; try discriminate. unfold mbind, lift, ret. destruct (tx_of j) as [u|] eqn:T; [|discriminate].
    intros H. inversion H; subst. split; [exact (tx_of_wf _ _ T)|discriminate].
  - unfold lift. destruct (bdeserialize tx_de false raw) as [u|] eqn:E; [|discriminate]. intros H. inversion H; subst. split; [exact (bdeserialize_wf _ _ E)|].
    intros raw' X. inversion X; subst. exact E.
Qed.
Definition no_tx : tx := mkTx [] [] 0 1.
Lemma mkwitness_shape fds how d : fds <> [] -> let E := tool_mkwitness ct P node fds how d in
  exists done rest t, fds = done ++ rest /\
    (forall n f, In (n, f) done -> d (witness_name n) = None /\ exists b, e_files E (witness_name n) = Some b /\ valid_witness ct P t f b) /\
    (forall n, (forall m f, In (m, f) done -> n <> witness_name m) -> e_files E n = d n) /\ (e_result E = Val tt <-> rest = []) /\
    (done <> [] -> forall raw, how = inr raw -> bdeserialize tx_de false raw = Ok t).
Proof.
  intros Nf E. assert (forall r s, (match r with Val _ => False | _ => True end) -> E = Ending r d [] s -> exists done rest t, fds = done ++ rest /\
    (forall n f, In (n, f) done -> d (witness_name n) = None /\ exists b, e_files E (witness_name n) = Some b /\ valid_witness ct P t f b) /\
    (forall n, (forall m f, In (m, f) done -> n <> witness_name m) -> e_files E n = d n) /\ (e_result E = Val tt <-> rest = []) /\
    (done <> [] -> forall raw, how = inr raw -> bdeserialize tx_de false raw = Ok t)) as Stop.
  { intros r s R ->. exists [], fds, no_tx. cbn [e_files e_result]. split; [reflexivity|]. split; [intros ? ? []|]. split; [reflexivity|]. split; [|contradiction].
    split; [intros ->; contradiction|contradiction]. }
  unfold E in *. unfold tool_mkwitness in *. destruct (closing_tx node how new_proxy) as [r s] eqn:Cl. destruct r as [t|e|e]; [|exact (Stop (Rpc e) _ Logic.I eq_refl)|exact (Stop (Exc e) _ Logic.I eq_refl)].
  destruct (closing_tx_wf _ _ _ _ Cl) as [Wt Ht]. rewrite (construct_tx ct P C t) in *. clear Stop.
  destruct (write_witnesses ct P t (TxProof P t) fds d) as [r d'] eqn:Ew. destruct (write_shape t fds Wt _ _ _ Ew) as (done & rest & -> & A & B & R).
  cbn [e_files e_result]. exists done, rest, t. auto.
Qed.
Lemma mkwitness_tool o files how d : let E := sus_tool o (Mkwitness files how) d in
  exists done rest t, files = done ++ rest /\
    (forall n, In n done -> d (witness_name n) = None /\ exists f b, d n = Some f /\ e_files E (witness_name n) = Some b /\ valid_witness ct P t f b) /\
    (forall n, (forall m, In m done -> n <> witness_name m) -> e_files E n = d n) /\ (succeeds E <-> files <> [] /\ rest = []) /\
    (done <> [] -> forall s, how = ByTx s -> given how t).
Proof.
  intros E. assert (forall e, E = Ending (Exc e) d [] [] -> exists done rest t, files = done ++ rest /\
    (forall n, In n done -> d (witness_name n) = None /\ exists f b, d n = Some f /\ e_files E (witness_name n) = Some b /\ valid_witness ct P t f b) /\
    (forall n, (forall m, In m done -> n <> witness_name m) -> e_files E n = d n) /\ (succeeds E <-> files <> [] /\ rest = []) /\
    (done <> [] -> forall s, how = ByTx s -> given how t)) as Stop.
  { intros e ->. exists [], files, no_tx. unfold succeeds. cbn [e_files e_result]. split; [reflexivity|]. split; [intros ? []|]. split; [reflexivity|]. split; [|contradiction].
    split; [discriminate|tauto]. }
  unfold E in *. unfold SusTool_Model.sus_tool in *. cbn [parse_args] in *. destruct (open_some d files) as [fds|e] eqn:O; cbn [bind] in *; [|exact (Stop _ eq_refl)].
  destruct (closing_arg how) as [b|e] eqn:Cl; cbn [bind] in *; [|exact (Stop _ eq_refl)]. destruct (raw_proxy _ _ _ _ _) as [cn|e]; [|exact (Stop _ eq_refl)]. clear Stop.
  cbn [command_of]. pose proof (open_some_names _ _ _ O) as [Nm F]. assert (fds <> []) as Nf. { intros ->. cbn in Nm. subst files. discriminate. }
  destruct (mkwitness_shape fds b d Nf) as (done & rest & t & -> & A & B & R & G). exists (map fst done), (map fst rest), t. rewrite <- Nm. split; [apply map_app|].
  split; [|split; [|split]].
  - intros n I. apply in_map_iff in I as ([n' f] & <- & I). cbn [fst]. destruct (A _ _ I) as (N & b' & K). split; [exact N|]. exists f, b'. split; [|exact K].
    rewrite Forall_forall in F. exact (F (n', f) (in_or_app _ _ _ (or_introl I))).
  - intros n Hn. apply B. intros m f I. apply Hn. apply in_map_iff. exists (m, f). auto.
  - unfold succeeds. rewrite R. split.
    + intros ->. split; [|reflexivity]. destruct done; [contradiction|discriminate].
    + intros [_ H]. destruct rest; [reflexivity|discriminate].
  - intros Nd s ->. assert (done <> []) as Nd' by (intros ->; contradiction). exists s.
    unfold closing_arg in Cl. destruct (x_hex s) as [raw|[]] eqn:X; cbn in Cl; inversion Cl; subst. specialize (G Nd' raw eq_refl).
    exists raw. split; [reflexivity|]. split; [apply x_hex_text, X|]. apply (reads_all _ _ _ _ tx_reads). unfold bdeserialize in G. destruct (tx_de raw) as [[t' [|y p]]|]; cbn [bind] in G; inversion G. reflexivity.
Qed.

(** ** Successful runs *)

Lemma mkwitness_ok_tool o names fs s raw t d : configured o conf_name d -> names <> [] -> Forall2 (fun n f => d n = Some f) names fs ->
  x_hex s = Ok raw -> bdeserialize tx_de false raw = Ok t -> NoDup names -> (forall f, In f fs -> exists w, make_witness ct P t (TxProof P t) f = Ok w) ->
  (forall n, In n names -> d (witness_name n) = None) -> succeeds (sus_tool o (Mkwitness names (ByTx s)) d).
Proof.
  intros Cf N F X B Nd Hw Hd. unfold succeeds, SusTool_Model.sus_tool. cbn [parse_args]. rewrite (open_some_ok _ _ _ N F). cbn [bind]. unfold closing_arg. rewrite X. cbn [bind or_exit].
  destruct (configured_ok ip_ok conf_name o d Cf) as (cn & ->). cbn [command_of]. unfold tool_mkwitness. cbn [closing_tx]. unfold lift. rewrite B, (construct_tx ct P C t).
  destruct (write_witnesses _ _ _ _ _ _) as [r d'] eqn:Ew. cbn [e_result]. change r with (fst (r, d')). rewrite <- Ew.
  assert (map fst (combine names fs) = names) as M by (clear - F; induction F as [|? ? ? ? ? ? IH]; cbn; [reflexivity|rewrite IH; reflexivity]).
  apply write_ok; [exact (bdeserialize_wf _ _ B)|rewrite M; exact Nd| |rewrite M; exact Hd]. intros n f I. apply Hw. exact (in_combine_r _ _ _ _ I).
Qed.
Lemma configured_later o c d : configured o conf_name d -> configured o conf_name (e_files (sus_tool o c d)).
Proof. intros (b & t & D & R). exists b, t. split; [apply tool_keeps_files, D|exact R]. Qed.

(** verifywitness. *)
Lemma verify_tool o f dg sf si l d : configured o conf_name d ->
  succeeds (sus_tool o (Verifywitness f dg sf si l) d) <->
  exists b w, d f = Some b /\ deserialize ct (p_bwit P) b = Ok w /\ Chain_Spec.outcome ct btc_verify w = Ok tt /\
    match dg with None => True | Some s => exists h, digest_text s h /\ Chain_Spec.outcome ct (btc_verify_hash h) w = Ok tt end /\
    match sf with None => True | Some n => d n <> None end /\ match si with None => True | Some s => exists h, digest_text s h end.
Proof.
  intros Cf. unfold succeeds, SusTool_Model.sus_tool. cbn [parse_args]. destruct (configured_ok ip_ok conf_name o d Cf) as (cn & Ecn).
  unfold open_rb at 1. destruct (d f) as [b|]; cbn [bind]; [|split; [discriminate|intros (? & ? & ? & _); discriminate]].
  assert (forall k, match (do h <- opt_arg parse_digest dg; do _ <- opt_arg (open_rb d) sf; do _ <- opt_arg parse_digest si; Ok (PVerifywitness b h)) with
    | Ok p => match raw_proxy ip_ok (network o) None None (conf_text conf_name d) with Ok _ => e_result (k p) | Err e => Exc e end | Err e => Exc e end = Val tt <->
    exists h, opt_arg parse_digest dg = Ok h /\ e_result (k (PVerifywitness b h)) = Val tt /\ match sf with None => True | Some n => d n <> None end /\ match si with None => True | Some s => exists h, digest_text s h end) as K.
  { intros k. rewrite Ecn. destruct (opt_arg parse_digest dg) as [h|]; cbn [bind]; [|split; [discriminate|intros (? & ? & _); discriminate]].
    assert ((exists x, opt_arg (open_rb d) sf = Ok x) <-> match sf with None => True | Some n => d n <> None end) as S.
    { destruct sf as [n|]; cbn [opt_arg]; [|split; eauto]. unfold open_rb. destruct (d n); cbn [bind]; split; eauto; [discriminate|intros (? & ?); discriminate|congruence]. }
    assert ((exists x, opt_arg parse_digest si = Ok x) <-> match si with None => True | Some s => exists h, digest_text s h end) as Q.
    { destruct si as [s|]; cbn [opt_arg]; [|split; eauto]. destruct (parse_digest s) as [y|] eqn:E; cbn [bind]; split; eauto.
      - intros _. exists y. apply parse_digest_text, E.
      - intros (? & ?); discriminate.
      - intros (y & Y). apply parse_digest_text in Y. congruence. }
    destruct (opt_arg (open_rb d) sf) as [x|]; cbn [bind]; [|split; [discriminate|intros (? & _ & _ & Y & _); apply S in Y as (? & ?); discriminate]].
    destruct (opt_arg parse_digest si) as [y|]; cbn [bind]; [|split; [discriminate|intros (? & _ & _ & _ & Y); apply Q in Y as (? & ?); discriminate]].
    split; [intros H; exists h; split; [reflexivity|]; split; [exact H|]; split; [apply S; eauto|apply Q; eauto]|]. intros (h' & E & H & _). congruence. }
  specialize (K (fun p => command_of ct P node p d)).
  match goal with |- e_result ?m = _ <-> _ => assert (e_result m = Val tt <-> exists h, opt_arg parse_digest dg = Ok h /\ e_result (command_of ct P node (PVerifywitness b h) d) = Val tt /\
     match sf with None => True | Some n => d n <> None end /\ match si with None => True | Some s => exists h, digest_text s h end) as K' end.
  { rewrite <- K. destruct (do h <- opt_arg parse_digest dg; _) as [p|]; [|reflexivity]. destruct (raw_proxy _ _ _ _ _); reflexivity. }
  rewrite K'. clear K K'. cbn [command_of].
  assert (forall h, e_result (printing d (do _ <- cmd_verifywitness ct P b h; Ok [])) = Val tt <-> cmd_verifywitness ct P b h = Ok tt) as Pr.
  { intros h. destruct (cmd_verifywitness ct P b h) as [[]|]; cbn [bind printing e_result]; split; intros X; inversion X; reflexivity. }
  split.
  - intros (h & E & H & S & Q). apply Pr, (verifywitness_exact ct P C b h W V) in H as (w & D & A & B). exists b, w. split; [reflexivity|]. split; [exact D|]. split; [exact A|]. split; [|auto].
    destruct dg as [s|]; [|exact Logic.I]. cbn [opt_arg] in E. destruct (parse_digest s) as [y|] eqn:Y; cbn [bind] in E; inversion E; subst. exists y. split; [apply parse_digest_text, Y|exact B].
  - intros (b' & w & E & D & A & B & S & Q). inversion E; subst b'. destruct dg as [s|].
    + destruct B as (h & Y & B). exists (Some h). apply parse_digest_text in Y. cbn [opt_arg]. rewrite Y. split; [reflexivity|]. split; [|auto]. apply Pr, (verifywitness_exact ct P C b (Some h) W V). eauto.
    + exists None. split; [reflexivity|]. split; [|auto]. apply Pr, (verifywitness_exact ct P C b None W V). eauto.
Qed.

(** The pipeline. *)
Lemma pipeline o digest names ons hx m d : wf_tags ct -> configured o conf_name d -> digest_text hx digest -> names <> [] -> NoDup names -> (Z.of_nat (List.length names) <= 2 ^ 32)%Z ->
  Forall2 (holds_seal ct P d) names ons -> NoDup ons -> (forall n, In n names -> d (witness_name n) = None) ->
  (exists line, let E1 := sus_tool o (Mkclosetx hx names m) d in succeeds E1 /\ e_out E1 = [line] /\ e_files E1 = d /\
     let E2 := sus_tool o (Mkwitness names (ByTx line)) d in succeeds E2 /\
     forall n, In n names -> forall hx' l,
       (spaced_hex hx' digest -> succeeds (sus_tool o (Verifywitness (witness_name n) (Some hx') None None l) (e_files E2))) /\
       (succeeds (sus_tool o (Verifywitness (witness_name n) (Some hx') None None l) (e_files E2)) -> spaced_hex hx' digest \/ exists h, spaced_hex hx' h /\ collision Hash160 digest h)) \/
  (exists a b, In a ons /\ In b ons /\ a <> b /\ hash_collision ct (Seal P (fst a) (snd a)) (Seal P (fst b) (snd b))).
Proof.
  intros T Cf Hx N Nd L F No Hd.
  assert (exists fs, Forall2 (fun n f => d n = Some f) names fs /\ Forall2 (fun f on => deserialize ct (p_bseal P) f = Ok (Seal P (fst on) (snd on))) fs ons) as (fs & F1 & F2).
  { clear - F. induction F as [|n on names ons (f & D & S) F (fs & A & B)]; [exists []; split; constructor|]. exists (f :: fs). split; constructor; assumption. }
  assert (List.length fs = List.length names) as Lf by (clear - F1; induction F1; cbn; congruence). pose proof Hx as [_ Ld]. apply parse_digest_text in Hx.
  assert (method (meth_name m)) as Mm by (destruct m; unfold method, meth_name; tauto).
  destruct (closetx_ok ct P C digest fs ons (meth_name m) W V T F2 Ld Mm ltac:(lia) No) as [(t & raw & ws & K1 & K2 & K3 & K4 & K5 & K6)|K]; [left|right; exact K].
  exists (b2x raw). cbv zeta.
  assert (sus_tool o (Mkclosetx hx names m) d = Ending (Val tt) d [b2x raw] []) as E1.
  { unfold SusTool_Model.sus_tool. cbn [parse_args]. rewrite Hx. cbn [bind]. rewrite (open_some_ok _ _ _ N F1). cbn [bind].
    destruct (configured_ok ip_ok conf_name o d Cf) as (cn & ->). cbn [command_of].
    assert (map snd (combine names fs) = fs) as -> by (clear - F1; induction F1 as [|? ? ? ? ? ? IH]; cbn; [reflexivity|rewrite IH; reflexivity]). rewrite K1. reflexivity. }
  rewrite E1. split; [reflexivity|]. split; [reflexivity|]. split; [reflexivity|].
  unfold cmd_mkwitness in K5. destruct (bdeserialize tx_de false raw) as [t'|] eqn:Dt; cbn [bind] in K5; [|discriminate]. pose proof (bdeserialize_wf _ _ Dt) as Wt'.
  rewrite (construct_tx ct P C t') in K5. cbn [bind] in K5.
  assert (forall f, In f fs -> exists w b, make_witness ct P t' (TxProof P t') f = Ok w /\ ser_proof ct w = Ok b /\ In (f, b) (combine fs ws)) as Mw.
  { clear - K5. revert ws K5. induction fs as [|f fs IH]; intros ws K5; [intros ? []|]. cbn [witnesses_for] in K5. destruct (witness_for ct P t' (TxProof P t') f) as [b|] eqn:Wf; cbn [bind] in K5; [|discriminate].
    destruct (witnesses_for ct P t' (TxProof P t') fs) as [r|]; cbn [bind] in K5; [|discriminate]. inversion K5; subst. apply witness_for_make in Wf as (w & A & B).
    intros g [<-|I]; [exists w, b; cbn; auto|]. destruct (IH r eq_refl g I) as (w' & b' & X & Y & Z). exists w', b'. cbn. auto. }
  assert (succeeds (sus_tool o (Mkwitness names (ByTx (b2x raw))) d)) as S2.
  { apply (mkwitness_ok_tool o names fs (b2x raw) raw t' d Cf N F1 K2 Dt Nd); [|exact Hd]. intros f I. destruct (Mw f I) as (w & b & A & _). eauto. }
  split; [exact S2|]. intros n In_n hx' l. pose proof (configured_later o (Mkwitness names (ByTx (b2x raw))) d Cf) as Cf2.
  destruct (mkwitness_tool o names (ByTx (b2x raw)) d) as (done & rest & t0 & En & A & B & R & G). apply R in S2 as [_ ->]. rewrite app_nil_r in En. subst done.
  destruct (A n In_n) as (_ & f & b & Df & Eb & o0 & n0 & i0 & x0 & V1 & V2 & V3 & V4 & V5).
  (* the witness written is the one of the command *)
  specialize (G N (b2x raw) eq_refl). destruct G as (s & raw' & Es & Hr & Tt). inversion Es; subst s. apply x_hex_text in Hr. rewrite K2 in Hr. inversion Hr; subst raw'.
  apply (reads_all _ _ _ _ tx_reads) in Tt. assert (t0 = t') as ->. { unfold bdeserialize in Dt. rewrite Tt in Dt. cbn [bind] in Dt. congruence. }
  assert (In f fs) as If. { clear - F1 In_n Df. induction F1 as [|x y names fs D F IH]; [destruct In_n|]. destruct In_n as [->|I]; [left; congruence|right; apply IH, I]. }
  destruct (Mw f If) as (w & bw & M1 & M2 & M3).
  assert (exists b2, ser_proof ct w = Ok b2 /\ valid_witness ct P t' f b2) as (b2 & M4 & o2 & n2 & i2 & x2 & U1 & U2 & U3 & U4 & U5) by exact (make_witness_ok t' f w Wt' M1).
  assert (witnesses ct P t digest f bw) as (o1 & n1 & i1 & x1 & W1 & W2 & W3 & W4 & W5).
  { clear - K6 M3. induction K6 as [|x y fs ws H F IH]; [destruct M3|]. destruct M3 as [E|I]; [inversion E; subst; exact H|apply IH, I]. }
  assert (b2 = bw) by congruence. subst b2. rewrite W1 in V1, U1. assert (o0 = o1 /\ n0 = n1) as [-> ->] by (inversion V1; auto). assert (o2 = o1 /\ n2 = n1) as [-> ->] by (inversion U1; auto). clear V1 U1. rewrite W2 in U2. inversion U2; subst i2 t'.
  apply (verifywitness_exact ct P C bw (Some digest) W V) in W5 as (w5 & D5 & A5 & B5). rewrite W2 in D5. inversion D5; subst w5. clear D5.
  assert (forall h', Chain_Spec.outcome ct (btc_verify_hash h') (Witness P (Seal P o1 n1) (TxInProof P i0 (TxProof P t)) (TxOutProof P 0 (TxProof P t))) = Ok tt <->
    Chain_Spec.outcome ct (btc_verify_hash h') (Witness P (Seal P o1 n1) (TxInProof P i1 (TxProof P t)) (TxOutProof P 0 (TxProof P t))) = Ok tt) as Same.
  { assert (object ct (p_bwit P) (Witness P (Seal P o1 n1) (TxInProof P i0 (TxProof P t)) (TxOutProof P 0 (TxProof P t)))) as O0 by exact (deserialize_fits ct _ _ _ W V (proj1 (proj2 (d_bwit ct P C))) V2).
    assert (object ct (p_bwit P) (Witness P (Seal P o1 n1) (TxInProof P i1 (TxProof P t)) (TxOutProof P 0 (TxProof P t)))) as O1 by exact (deserialize_fits ct _ _ _ W V (proj1 (proj2 (d_bwit ct P C))) W2).
    intros h'. rewrite (btc_verify_hash_exact ct P C _ _ O0), (btc_verify_hash_exact ct P C _ _ O1). split; intros (L1 & s & a & j & u & y & Ej & K); (split; [exact L1|]); inversion Ej; subst; do 5 eexists; (split; [reflexivity|exact K]). }
  assert (Chain_Spec.outcome ct btc_verify (Witness P (Seal P o1 n1) (TxInProof P i0 (TxProof P t)) (TxOutProof P 0 (TxProof P t))) = Ok tt) as A0.
  { apply (verifywitness_exact ct P C b None W V) in V5 as (w5 & D5 & A0 & _). rewrite V2 in D5. inversion D5; subst w5. exact A0. }
  split.
  - intros Sx. apply verify_tool; [exact Cf2|]. eexists b, _. split; [exact Eb|]. split; [exact V2|]. split; [exact A0|]. split; [|auto]. exists digest. split; [split; assumption|]. apply Same, B5.
  - intros Sv. apply verify_tool in Sv as (b' & w' & Eb' & D' & A' & (h' & Hh' & B') & _); [|exact Cf2]. rewrite Eb in Eb'. inversion Eb'; subst b'. rewrite V2 in D'. inversion D'; subst w'.
    apply Same in B'. assert (object ct (p_bwit P) (Witness P (Seal P o1 n1) (TxInProof P i1 (TxProof P t)) (TxOutProof P 0 (TxProof P t)))) as O1 by exact (deserialize_fits ct _ _ _ W V (proj1 (proj2 (d_bwit ct P C))) W2).
    apply (btc_verify_hash_exact ct P C _ _ O1) in B5 as (L5 & s5 & a5 & j5 & u5 & y5 & E5 & (_ & Y5) & C5). apply (btc_verify_hash_exact ct P C _ _ O1) in B' as (L6 & s6 & a6 & j6 & u6 & y6 & E6 & (_ & Y6) & C6).
    inversion E5; subst s5 a5 j5 u5. inversion E6; subst s6 a6 j6 u6. rewrite Y5 in Y6. inversion Y6; subst y6.
    destruct (commitment_binds digest h' _ L5 L6 C5 C6) as [E|K]; [left; rewrite E; apply Hh'|right; exists h'; split; [apply Hh'|exact K]].
Qed.

(** ** By txid *)

Lemma by_txid (pr : prefixes) o files id h s t d : lx id = Ok h -> answers node new_proxy "getrawtransaction" [hash_text h; JInt 0] (JStr s) -> given (ByTx s) t ->
  let E := sus_tool o (Mkwitness files (ByTxid id)) d in let E' := sus_tool o (Mkwitness files (ByTx s)) d in
  e_result E = e_result E' /\ e_files E = e_files E' /\ e_out E = e_out E'.
Proof.
  intros L A (s' & b & Es & Hs & Tt). inversion Es; subst s'. assert (exists x b0, PTx t = PTx x /\ hex_text s b0 /\ tx_text x b0) as X by eauto.
  apply (rawtransaction_result node pr h new_proxy s (PTx t) A) in X. cbn [perform] in X. apply x_hex_text in Hs. apply (reads_all _ _ _ _ tx_reads) in Tt.
  cbv zeta. unfold SusTool_Model.sus_tool. cbn [parse_args]. destruct (open_some d files) as [fds|]; cbn [bind]; [|auto]. unfold closing_arg. rewrite L, Hs. cbn [bind or_exit].
  destruct (raw_proxy _ _ _ _ _); [|auto]. cbn [command_of]. unfold tool_mkwitness. cbn [closing_tx]. rewrite X. unfold lift, bdeserialize. rewrite Tt. cbn [bind].
  destruct (construct ct (p_tx P) _); [|auto]. destruct (write_witnesses _ _ _ _ _ _). auto.
Qed.

(** ** mkseal *)

Lemma mkseal_tool o os op f d : configured o conf_name d -> parse_outpoint os = Ok op -> d f = None -> sus_tool o (Mkseal os f) d = Ending (Exc KeyError) (put d f []) [] [].
Proof.
  intros Cf PO D. unfold SusTool_Model.sus_tool. cbn [parse_args]. rewrite PO, D.
  assert (configured o conf_name (put d f [])) as Cf'. { destruct Cf as (b & t & E & R). exists b, t. split; [|exact R]. rewrite put_other; [exact E|congruence]. }
  destruct (configured_ok ip_ok conf_name o _ Cf') as (cn & ->). cbn [command_of]. rewrite (mkseal_fails ct P C). reflexivity.
Qed.
Lemma mkseal_never o os f d : ~ succeeds (sus_tool o (Mkseal os f) d).
Proof.
  unfold succeeds, SusTool_Model.sus_tool. cbn [parse_args]. destruct (parse_outpoint os) as [op|]; [|discriminate]. destruct (d f); [discriminate|].
  destruct (raw_proxy _ _ _ _ _); [|discriminate]. cbn [command_of]. rewrite (mkseal_fails ct P C). discriminate.
Qed.
Lemma mkseal_bad o os f d : (forall op, parse_outpoint os <> Ok op) \/ d f <> None -> e_files (sus_tool o (Mkseal os f) d) = d.
Proof.
  intros H. unfold SusTool_Model.sus_tool. cbn [parse_args]. destruct (parse_outpoint os) as [op|]; [|reflexivity]. destruct (d f); [reflexivity|]. destruct H as [H|H]; [destruct (H op eq_refl)|congruence].
Qed.
End Tool.

(** ** What a command that only looks depends on *)

Lemma open_all_same d d' names : (forall n, In n names -> d n = d' n) -> open_all d names = open_all d' names.
Proof.
  induction names as [|n names IH]; intros H; [reflexivity|]. cbn [open_all]. unfold open_rb. rewrite (H n (or_introl eq_refl)). rewrite IH; [reflexivity|]. intros m I. apply H. right. exact I.
Qed.
Lemma open_some_same d d' names : (forall n, In n names -> d n = d' n) -> open_some d names = open_some d' names.
Proof. intros H. unfold open_some. destruct names; [reflexivity|]. apply open_all_same, H. Qed.
Lemma looks_parse c d d' : looks c -> (forall n, In n (reads_files c) -> d n = d' n) -> fst (parse_args d c) = fst (parse_args d' c) /\ snd (parse_args d c) = d /\ snd (parse_args d' c) = d'.
Proof.
  intros L H. destruct c as [o f|h fs m|fs how|f h sf si l|f|f|]; cbn in L; try contradiction; cbn [parse_args fst snd reads_files] in *; (split; [|split; reflexivity]).
  - rewrite (open_some_same d d' fs H). reflexivity.
  - unfold open_rb at 1 3. rewrite (H f (or_introl eq_refl)). assert (opt_arg (open_rb d) sf = opt_arg (open_rb d') sf) as ->; [|reflexivity].
    destruct sf as [s|]; [|reflexivity]. cbn [opt_arg]. unfold open_rb. rewrite (H s); [reflexivity|]. right. left. reflexivity.
  - unfold open_rb. rewrite (H f (or_introl eq_refl)). reflexivity.
  - unfold open_rb. rewrite (H f (or_introl eq_refl)). reflexivity.
Qed.
Lemma looks_result ct P c d ip node cn o : looks c -> configured o cn d ->
  sus_tool ct P ip node cn o c d = match fst (parse_args d c) with Err e => Ending (Exc e) d [] [] | Ok p => command_of ct P (fun _ => NoReply) p d end.
Proof.
  intros L Cf. unfold SusTool_Model.sus_tool. destruct (looks_parse c d d L (fun _ _ => eq_refl)) as (_ & S & _). destruct (parse_args d c) as [[p|e] d'] eqn:E; cbn [fst snd] in *; subst d'; [|reflexivity].
  destruct (configured_ok ip cn o d Cf) as (x & ->). destruct p; try reflexivity. apply parse_mkwitness in E as (files & h & -> & _). destruct L.
Qed.
Lemma command_looks ct P c d d' node p : looks c -> fst (parse_args d c) = Ok p -> e_result (command_of ct P node p d) = e_result (command_of ct P node p d') /\
  e_out (command_of ct P node p d) = e_out (command_of ct P node p d').
Proof.
  intros L E. destruct (parse_args d c) as [q dd] eqn:Q. cbn [fst] in E. subst q.
  assert (forall r, e_result (printing d r) = e_result (printing d' r) /\ e_out (printing d r) = e_out (printing d' r)) as Pr by (intros []; auto).
  destruct p; cbn [command_of]; auto; [apply parse_mkseal in Q as (os & -> & _)|apply parse_mkwitness in Q as (files & h & -> & _)]; destruct L.
Qed.
Lemma looks_depends ct P c d d' ip ip' node node' cn cn' o o' : looks c -> configured o cn d -> configured o' cn' d' -> (forall n, In n (reads_files c) -> d n = d' n) ->
  let E := sus_tool ct P ip node cn o c d in let E' := sus_tool ct P ip' node' cn' o' c d' in e_result E = e_result E' /\ e_out E = e_out E'.
Proof.
  intros L C1 C2 H. cbv zeta. rewrite (looks_result ct P c d ip node cn o L C1), (looks_result ct P c d' ip' node' cn' o' L C2).
  destruct (looks_parse c d d' L H) as (E & _ & _). rewrite <- E. destruct (fst (parse_args d c)) as [p|e] eqn:X; [|auto]. exact (command_looks ct P c d d' _ p L X).
Qed.
Lemma verify_local ct P ip node cn o f dg sf si l l' d : sus_tool ct P ip node cn o (Verifywitness f dg sf si l) d = sus_tool ct P ip node cn o (Verifywitness f dg sf si l') d.
Proof. reflexivity. Qed.

Lemma other_files ct P ip node cn o c d n : match c with Mkseal _ _ | Mkwitness _ _ => False | _ => True end -> e_files (sus_tool ct P ip node cn o c d) n = d n.
Proof.
  intros H. pose proof (tool_keeps_files ct P ip node cn o c d n) as K. pose proof (tool_new_files ct P ip node cn o c d n) as N. destruct (d n) as [y|]; [apply K; reflexivity|].
  destruct (e_files _ n) as [x|]; [|reflexivity]. destruct N as (_ & [(os & ->)|(files & how & f & -> & _)]); [discriminate|contradiction..].
Qed.
