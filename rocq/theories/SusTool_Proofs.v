(** Proofs about SusTool_Model.v. *)
From Verif Require Import Base Sha256 Serialize_Model Serialize_Spec Tx_Model Tx_Spec Tx_Proofs Base58_Model Proof_Model Proof_Spec Proof_Proofs Hex_Model Chain_Model Chain_Spec Chain_Proofs ChainPipe_Proofs.
From Verif Require Import Money_Model Rpc_Model Rpc_Spec Rpc_Proofs RpcUse_Proofs RpcMethods_Proofs Conf_Model Conf_Spec Conf_Proofs ConfUse_Proofs SusTool_Model SusTool_Spec.
From Coq Require Import ZifyBool ZifyNat ZifyN.
#[local] Open Scope string_scope.
#[local] Open Scope list_scope.

(** ** Files *)

Lemma put_same d n b : put d n b n = Some b. Proof. unfold put. rewrite String.eqb_refl. reflexivity. Qed.
Lemma put_other d n b m : m <> n -> put d n b m = d m.
Proof. intros N. unfold put. destruct (String.eqb_spec m n); [contradiction|reflexivity]. Qed.
Lemma append_inj a b s : (a ++ s)%string = (b ++ s)%string -> a = b.
Proof.
  intros E. apply (f_equal list_ascii_of_string) in E.
  assert (forall x y, list_ascii_of_string (x ++ y)%string = list_ascii_of_string x ++ list_ascii_of_string y) as L.
  { induction x as [|c x IH]; intros y; cbn; [reflexivity|]. rewrite IH. reflexivity. }
  rewrite !L in E. apply app_inv_tail in E. apply (f_equal string_of_list_ascii) in E. rewrite !string_of_list_ascii_of_string in E. exact E.
Qed.
Lemma witness_name_inj a b : witness_name a = witness_name b -> a = b. Proof. apply append_inj. Qed.

Section Tool.
Context (ct : ctable) (P : chain) (ip_ok : text -> bool) (node : list json -> reply) (conf_name : string).
Notation sus_tool := (sus_tool ct P ip_ok node conf_name).

(** ** C131 *)

Lemma write_keeps t p fds : forall d r d' n b, write_witnesses ct P t p fds d = (r, d') -> d n = Some b -> d' n = Some b.
Proof.
  induction fds as [|[name f] fds IH]; intros d r d' n b H D; cbn [write_witnesses] in H; [inversion H; subst; exact D|].
  destruct (make_witness ct P t p f) as [w|e]; [|inversion H; subst; exact D]. cbv zeta in H.
  destruct (d (name ++ ".witness")%string) eqn:X; [inversion H; subst; exact D|].
  assert (n <> (name ++ ".witness")%string) as N by congruence.
  destruct (ser_proof ct w) as [bw|e]; [|inversion H; subst; rewrite put_other; assumption].
  apply (IH _ _ _ _ _ H). rewrite put_other; assumption.
Qed.
Lemma write_new t p fds : forall d r d' n, write_witnesses ct P t p fds d = (r, d') -> d' n <> d n -> exists f, In f (map fst fds) /\ n = witness_name f.
Proof.
  induction fds as [|[name f] fds IH]; intros d r d' n H D; cbn [write_witnesses] in H; [inversion H; subst; congruence|].
  destruct (make_witness ct P t p f) as [w|e]; [|inversion H; subst; congruence]. cbv zeta in H.
  destruct (d (name ++ ".witness")%string) eqn:X; [inversion H; subst; congruence|].
  destruct (string_dec n (name ++ ".witness")%string) as [E|N]; [exists name; split; [left; reflexivity|exact E]|].
  destruct (ser_proof ct w) as [bw|e]; [|inversion H; subst; rewrite put_other in D by assumption; congruence].
  destruct (IH _ _ _ n H) as (g & I & E); [rewrite put_other; assumption|]. exists g. split; [right; exact I|exact E].
Qed.
Lemma open_all_names d names fds : open_all d names = Ok fds -> map fst fds = names /\ Forall (fun p => d (fst p) = Some (snd p)) fds.
Proof.
  revert fds. induction names as [|n names IH]; intros fds H; cbn [open_all] in H; [inversion H; auto|]. unfold open_rb in H. destruct (d n) as [b|] eqn:D; [|discriminate]. cbn [bind] in H.
  destruct (open_all d names) as [r|]; [|discriminate]. inversion H; subst. destruct (IH r eq_refl) as [<- F]. split; [reflexivity|constructor; assumption].
Qed.
Lemma open_some_names d names fds : open_some d names = Ok fds -> map fst fds = names /\ Forall (fun p => d (fst p) = Some (snd p)) fds.
Proof. unfold open_some. destruct names; [discriminate|]. apply open_all_names. Qed.
Lemma open_some_ok d names fs : names <> [] -> Forall2 (fun n f => d n = Some f) names fs -> open_some d names = Ok (combine names fs).
Proof.
  intros N F. unfold open_some. destruct names as [|n names]; [contradiction|]. clear N. revert F. generalize (n :: names). clear. intros names F.
  induction F as [|n f names fs D F IH]; [reflexivity|]. cbn [open_all combine]. unfold open_rb. rewrite D. cbn [bind]. rewrite IH. reflexivity.
Qed.

(** What a command does to the files. *)
Lemma printing_files d r : e_files (printing d r) = d. Proof. destruct r; reflexivity. Qed.
Lemma printing_sent d r : e_sent (printing d r) = []. Proof. destruct r; reflexivity. Qed.
Lemma parse_files d c p d' : parse_args d c = (p, d') -> (forall n b, d n = Some b -> d' n = Some b) /\
  (d' = d \/ exists o os f, c = Mkseal os f /\ parse_outpoint os = Ok o /\ d f = None /\ p = Ok (PMkseal o f) /\ d' = put d f []).
Proof.
  intros H. destruct c as [o f|h fs m|fs how|f h sf si l|f|f|]; cbn [parse_args] in H; try (inversion H; subst; split; auto; fail).
  destruct (parse_outpoint o) as [o'|e] eqn:E; [|inversion H; subst; auto]. destruct (d f) eqn:D; inversion H; subst; [auto|]. split.
  - intros n b X. rewrite put_other; [exact X|congruence].
  - right. exists o', o, f. auto.
Qed.
Lemma mkwitness_files fds how d : (forall n b, d n = Some b -> e_files (tool_mkwitness ct P node fds how d) n = Some b) /\
  (forall n, e_files (tool_mkwitness ct P node fds how d) n <> d n -> exists f, In f (map fst fds) /\ n = witness_name f).
Proof.
  unfold tool_mkwitness. destruct (closing_tx node how new_proxy) as [[t|e|e] s]; try (split; intros; cbn in *; auto; congruence).
  destruct (construct ct (p_tx P) [("tx", VTx t)]) as [p|e]; [|split; intros; cbn in *; auto; congruence].
  destruct (write_witnesses ct P t p fds d) as [r d'] eqn:E. cbn [e_files]. split; [intros n b; apply (write_keeps _ _ _ _ _ _ _ _ E)|intros n; apply (write_new _ _ _ _ _ _ _ E)].
Qed.
Lemma parse_mkwitness d c fds how d' : parse_args d c = (Ok (PMkwitness fds how), d') -> exists files h, c = Mkwitness files h /\ open_some d files = Ok fds /\ closing_arg h = Ok how /\ d' = d.
Proof.
  intros H. destruct c as [o f|h fs m|fs h|f h sf si l|f|f|]; cbn [parse_args] in H.
  - destruct (parse_outpoint o); [|discriminate]. destruct (d f); discriminate.
  - destruct (parse_digest h); cbn [bind] in H; [|discriminate]. destruct (open_some d fs); discriminate.
  - destruct (open_some d fs) as [r|] eqn:O; cbn [bind] in H; [|discriminate]. destruct (closing_arg h) as [b|] eqn:Cl; [|discriminate]. inversion H; subst. eauto 6.
  - destruct (open_rb d f); cbn [bind] in H; [|discriminate]. destruct (opt_arg parse_digest h); cbn [bind] in H; [|discriminate].
    destruct (opt_arg (open_rb d) sf); cbn [bind] in H; [|discriminate]. destruct (opt_arg parse_digest si); discriminate.
  - destruct (open_rb d f); discriminate.
  - destruct (open_rb d f); discriminate.
  - discriminate.
Qed.
Lemma parse_mkseal d c o f d' : parse_args d c = (Ok (PMkseal o f), d') -> exists os, c = Mkseal os f /\ parse_outpoint os = Ok o /\ d f = None /\ d' = put d f [].
Proof.
  intros H. destruct c as [o' f'|h fs m|fs h|f' h sf si l|f'|f'|]; cbn [parse_args] in H.
  - destruct (parse_outpoint o') as [x|] eqn:PO; [|discriminate]. destruct (d f') eqn:D; [discriminate|]. inversion H; subst. exists o'. auto.
  - destruct (parse_digest h); cbn [bind] in H; [|discriminate]. destruct (open_some d fs); discriminate.
  - destruct (open_some d fs); cbn [bind] in H; [|discriminate]. destruct (closing_arg h); discriminate.
  - destruct (open_rb d f'); cbn [bind] in H; [|discriminate]. destruct (opt_arg parse_digest h); cbn [bind] in H; [|discriminate].
    destruct (opt_arg (open_rb d) sf); cbn [bind] in H; [|discriminate]. destruct (opt_arg parse_digest si); discriminate.
  - destruct (open_rb d f'); discriminate.
  - destruct (open_rb d f'); discriminate.
  - discriminate.
Qed.
Lemma tool_keeps_files o c d n b : d n = Some b -> e_files (sus_tool o c d) n = Some b.
Proof.
  intros D. unfold SusTool_Model.sus_tool. destruct (parse_args d c) as [p d'] eqn:E. destruct (parse_files _ _ _ _ E) as [K _]. specialize (K n b D).
  destruct p as [p|e]; [|exact K]. destruct (raw_proxy _ _ _ _ _) as [cn|e]; [|exact K].
  destruct p; cbn [command_of]; rewrite ?printing_files; try exact K; [|apply mkwitness_files, K].
  apply parse_mkseal in E as (os & -> & _ & Df & ->). destruct (cmd_mkseal ct P o0) as [x|e]; [|exact K]. cbn [e_files]. rewrite put_other; [exact K|congruence].
Qed.
Lemma tool_new_files o c d n : e_files (sus_tool o c d) n <> d n -> d n = None /\
  ((exists os, c = Mkseal os n) \/ (exists files how f, c = Mkwitness files how /\ In f files /\ n = witness_name f)).
Proof.
  intros H. split; [destruct (d n) as [b|] eqn:D; [|reflexivity]; exfalso; apply H, tool_keeps_files, D|].
  unfold SusTool_Model.sus_tool in H. destruct (parse_args d c) as [p d'] eqn:E. destruct (parse_files _ _ _ _ E) as [K F].
  destruct F as [->|(o' & os & f & -> & PO & Df & Ep & ->)].
  - destruct p as [p|e]; [|exfalso; apply H; reflexivity]. destruct (raw_proxy _ _ _ _ _) as [cn|e]; [|exfalso; apply H; reflexivity].
    destruct p; cbn [command_of] in H; rewrite ?printing_files in H; try (exfalso; apply H; reflexivity).
    + apply parse_mkseal in E as (os & -> & _ & Df & Ed). exfalso. apply (f_equal (fun g => g file)) in Ed. rewrite put_same in Ed. congruence.
    + right. apply parse_mkwitness in E as (files & h & -> & O & _ & _). apply open_some_names in O as [<- _]. apply mkwitness_files in H as (f & I & ->). eauto 6.
  - left. subst p. exists os. f_equal. destruct (string_dec n f) as [->|N]; [reflexivity|]. exfalso. apply H. destruct (raw_proxy _ _ _ _ _) as [cn|e]; [|cbn [e_files]; apply put_other, N].
    cbn [command_of]. destruct (cmd_mkseal ct P o'); cbn [e_files]; rewrite !put_other by exact N; reflexivity.
Qed.

(** ** C136: requests *)

Lemma mkwitness_sent fds how d : e_sent (tool_mkwitness ct P node fds how d) = match how with inl txid => [request 1 "getrawtransaction" [hash_text txid; JInt 0]] | inr _ => [] end.
Proof.
  unfold tool_mkwitness. destruct how as [txid|raw]; cbn [closing_tx].
  - destruct (getrawtransaction node txid false new_proxy) as [r s] eqn:G.
    assert (sent s = [request 1 "getrawtransaction" [hash_text txid; JInt 0]]) as Es.
    { unfold getrawtransaction, mbind, or_index_error, call in G. cbn [new_proxy id_count sent app] in G.
      destruct (response _) as [j|e|e]; cbn in G; [|set (q := match item "message" e with Ok _ => _ | Err _ => _ end) in G; destruct q as [a|a|a]; cbn in G; try destruct (tx_of a); inversion G; reflexivity|inversion G; reflexivity].
      destruct (tx_of j); cbn in G; inversion G; reflexivity. }
    destruct r as [[]| |]; try exact Es. destruct (construct ct (p_tx P) _); [|exact Es]. destruct (write_witnesses ct P _ _ _ _). exact Es.
  - unfold lift. destruct (bdeserialize tx_de false raw); [|reflexivity]. destruct (construct ct (p_tx P) _); [|reflexivity]. destruct (write_witnesses ct P _ _ _ _). reflexivity.
Qed.
Lemma tool_sent o c d : e_sent (sus_tool o c d) = [] \/
  exists files s txid, c = Mkwitness files (ByTxid s) /\ lx s = Ok txid /\ e_sent (sus_tool o c d) = [request 1 "getrawtransaction" [hash_text txid; JInt 0]].
Proof.
  unfold SusTool_Model.sus_tool. destruct (parse_args d c) as [p d'] eqn:E. destruct p as [p|e]; [|left; reflexivity].
  destruct (raw_proxy _ _ _ _ _) as [cn|e]; [|left; reflexivity]. destruct p; cbn [command_of]; rewrite ?printing_sent; try (left; reflexivity).
  - destruct (cmd_mkseal ct P o0); left; reflexivity.
  - rewrite mkwitness_sent. destruct how as [txid|raw]; [|left; reflexivity]. right. apply parse_mkwitness in E as (files & h & -> & O & Cl & _).
    destruct h as [s|s]; unfold closing_arg in Cl.
    + destruct (lx s) as [b|[]] eqn:L; cbn in Cl; inversion Cl; subst. exists files, s, txid. auto.
    + destruct (x_hex s) as [b|[]]; cbn in Cl; inversion Cl.
Qed.
Lemma tool_dryrun t a b c d : sus_tool (Options t a) c d = sus_tool (Options t b) c d. Proof. reflexivity. Qed.

(** ** Configuration *)

Lemma spells_map b t : spells b t -> map ascii_of_byte b = t.
Proof.
  induction 1 as [|x c b t E F IH]; [reflexivity|]. cbn [map]. rewrite IH. f_equal. apply code_inj. rewrite <- E. unfold bN. symmetry.
  destruct x; reflexivity.
Qed.
Lemma configured_ok o d : configured o conf_name d -> exists cn, raw_proxy ip_ok (network o) None None (conf_text conf_name d) = Ok cn.
Proof.
  intros (b & t & D & S & ls & dp & n & s & user & pw & H1 & H2 & H3 & H4 & H5 & H6 & H7 & H8 & H9 & H10). unfold conf_text. rewrite D. cbn [option_map]. rewrite (spells_map b t S).
  destruct (conf_connects ip_ok (network o) None t ls dp n s user pw) as (auth & E & _); eauto.
Qed.
Lemma no_conf o c d : d conf_name = None -> (forall os, c <> Mkseal os conf_name) -> exists e, sus_tool o c d = Ending (Exc e) (snd (parse_args d c)) [] [] /\ (e = OSError \/ fst (parse_args d c) = Err e).
Proof.
  intros D N. unfold SusTool_Model.sus_tool. destruct (parse_args d c) as [[p|e] d'] eqn:E; [|eauto]. cbn [snd fst].
  assert (d' conf_name = None) as D'. { destruct (parse_files _ _ _ _ E) as [_ [->|(o' & os & f & -> & _ & _ & _ & ->)]]; [exact D|]. rewrite put_other; [exact D|]. intros <-. apply (N os). reflexivity. }
  unfold conf_text. rewrite D'. cbn [option_map]. exists OSError. split; [reflexivity|left; reflexivity].
Qed.
End Tool.
