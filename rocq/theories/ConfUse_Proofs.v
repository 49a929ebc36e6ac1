(** Proofs about the connection of a proxy. *)
From Verif Require Import Base Base58_Model Money_Model Money_Spec Money_Proofs Rpc_Model Rpc_Spec Rpc_Proofs Conf_Model Conf_Spec Conf_Proofs.
From Coq Require Import ZifyBool ZifyNat ZifyN.
#[local] Open Scope list_scope.

Lemma lower_small s : small_letters s (lower s).
Proof.
  induction s as [|c s IH]; [constructor|]. constructor; [|exact IH]. unfold lower1, code. destruct ((65 <=? N_of_ascii c) && (N_of_ascii c <=? 90))%N eqn:Q; [left|right; split; [lia|reflexivity]].
  rewrite N_ascii_embedding by lia. lia.
Qed.
Lemma small_fun s t t' : small_letters s t -> small_letters s t' -> t = t'.
Proof.
  intros H. revert t'. induction H as [|c d s t C H IH]; intros t' H'; inversion H' as [|? d' ? t2 C' H2]; subst; [reflexivity|]. f_equal; [|apply IH, H2].
  destruct C as [[A B]|[A ->]], C' as [[A' B']|[A' ->]]; try contradiction; try reflexivity. apply code_inj. lia.
Qed.

Lemma asked_default pr sp d : asked_port pr sp d -> match sp with Some p => p | None => rpc_port pr end = d.
Proof. intros [->|[-> [[-> ->]|[[->| ->] ->]]]]; reflexivity. Qed.
Lemma port_setting pr sp ls d n : asked_port pr sp d -> port_of ls d n ->
  match dget "rpcport" (fold_left conf_line ls []) with Some t => int_of t | None => Ok (match sp with Some p => p | None => rpc_port pr end) end = Ok n.
Proof.
  intros A [(t & S & T & N)|[U ->]].
  - rewrite (fold_setting _ _ _ S). apply int_of_ok; assumption.
  - rewrite (fold_unset _ _ U). cbn [dget]. f_equal. apply asked_default, A.
Qed.
Definition ssl_value (conf : list (string * text)) : result bool :=
  let ssl := match dget "rpcssl" conf with Some t => t | None => txt "0" end in
  if existsb (is_text (lower ssl)) ["0"%string; "false"%string] then Ok false
  else if existsb (is_text (lower ssl)) ["1"%string; "true"%string] then Ok true else Err ValueError.
Lemma ssl_setting ls b : ssl_of ls b -> ssl_value (fold_left conf_line ls []) = Ok b.
Proof.
  unfold ssl_value. intros [[U ->]|(t & S & V)].
  - rewrite (fold_unset _ _ U). reflexivity.
  - rewrite (fold_setting _ _ _ S). destruct V as [[-> [W|W]]|[-> [W|W]]]; apply same_word_lower in W; try reflexivity; rewrite W; reflexivity.
Qed.
Lemma ssl_other ls t : setting "rpcssl" ls t -> (forall b, ~ ssl_of ls b) -> ssl_value (fold_left conf_line ls []) = Err ValueError.
Proof.
  intros S N. unfold ssl_value. rewrite (fold_setting _ _ _ S). cbn [existsb].
  destruct (is_text (lower t) "0") eqn:E1; [exfalso; apply (N false); right; exists t; split; [exact S|left; split; [reflexivity|left; apply lower_same_word, is_text_iff, E1]]|].
  destruct (is_text (lower t) "false") eqn:E2; [exfalso; apply (N false); right; exists t; split; [exact S|left; split; [reflexivity|right; apply lower_same_word, is_text_iff, E2]]|].
  destruct (is_text (lower t) "1") eqn:E3; [exfalso; apply (N true); right; exists t; split; [exact S|right; split; [reflexivity|left; apply lower_same_word, is_text_iff, E3]]|].
  destruct (is_text (lower t) "true") eqn:E4; [exfalso; apply (N true); right; exists t; split; [exact S|right; split; [reflexivity|right; apply lower_same_word, is_text_iff, E4]]|].
  reflexivity.
Qed.
Lemma conf_url_eq conf pr sp : conf_url conf pr sp =
  do port <- match dget "rpcport" conf with Some t => int_of t | None => Ok (match sp with Some p => p | None => rpc_port pr end) end;
  do ssl <- ssl_value conf;
  do user <- key "rpcuser" conf; do password <- key "rpcpassword" conf;
  Ok (txt (if ssl : bool then "https" else "http") ++ txt "://" ++ user ++ txt ":" ++ password ++ txt "@localhost:" ++ fmt_i port).
Proof. reflexivity. Qed.
Lemma int_of_err t e : int_of t = Err e -> e = ValueError.
Proof. unfold int_of. destruct (match strip t with [] => _ | c :: s' => _ end) as [neg d]. destruct (int10 true true 0 d); intros H; inversion H; reflexivity. Qed.
Lemma conf_url_ok ls pr sp d n b user pw : asked_port pr sp d -> port_of ls d n -> ssl_of ls b -> setting "rpcuser" ls user -> setting "rpcpassword" ls pw ->
  conf_url (fold_left conf_line ls []) pr sp = Ok (txt (if b then "https" else "http") ++ txt "://" ++ (user ++ txt ":" ++ pw ++ ["@"%char]) ++ txt "localhost" ++ (":"%char :: fmt_i n) ++ []).
Proof.
  intros A P B U W. rewrite conf_url_eq, (port_setting pr sp ls d n A P). cbn [bind]. rewrite (ssl_setting ls b B). cbn [bind]. unfold key.
  rewrite (fold_setting _ _ _ U), (fold_setting _ _ _ W). cbn [bind]. f_equal. f_equal. f_equal. rewrite app_nil_r. rewrite <- !app_assoc. reflexivity.
Qed.

Lemma partition_join c s : match partition c s with Some (a, b) => a ++ c :: b | None => s end = s.
Proof. destruct (partition c s) as [[a b]|] eqn:E; [|reflexivity]. apply partition_some in E as [-> _]. reflexivity. Qed.
Lemma colon_split user pw : exists a b, partition ":" (user ++ txt ":" ++ pw) = Some (a, b) /\ a ++ ":"%char :: b = user ++ ":"%char :: pw.
Proof.
  destruct (partition ":" (user ++ txt ":" ++ pw)) as [[a b]|] eqn:E.
  - exists a, b. split; [reflexivity|]. apply partition_some in E as [<- _]. reflexivity.
  - apply partition_none in E. exfalso. apply E. apply in_elt.
Qed.
Lemma clean_app a b : clean a -> clean b -> clean (a ++ b). Proof. unfold clean. intros. apply Forall_app. auto. Qed.
Lemma clean_colon : clean (txt ":"). Proof. apply clean_plain. repeat constructor. Qed.

Section Url.
Context (ip_ok : text -> bool).

(** ** A URL with credentials *)
Lemma connect_credentials scheme tls user pw h pt n rest : scheme_of scheme tls -> clean user -> clean pw -> host_name h -> port_part pt n -> rest_of_url rest ->
  exists auth, connect ip_ok (scheme ++ txt "://" ++ (user ++ txt ":" ++ pw ++ ["@"%char]) ++ h ++ pt ++ rest) = Ok (Conn (Some (lower h)) n tls auth) /\ basic auth user pw.
Proof.
  intros S U W H P R. destruct (colon_split user pw) as (a & b & E & J).
  replace (user ++ txt ":" ++ pw ++ ["@"%char]) with ((user ++ txt ":" ++ pw) ++ ["@"%char]) by (rewrite <- !app_assoc; reflexivity).
  eexists. split.
  - rewrite (connect_ok ip_ok scheme (txt (if tls then "https" else "http")) _ h pt n rest S) with (u := Some a) (p := Some b); auto.
    + f_equal. f_equal. destruct tls; reflexivity.
    + destruct tls; auto.
    + right. eexists. split; [reflexivity|]. split; [|right; eauto]. apply clean_app; [exact U|]. apply clean_app; [apply clean_colon|exact W].
  - cbn [shown]. eexists. split; [reflexivity|]. change (txt ":" ++ b) with (":"%char :: b). rewrite <- J. apply b64encode_ok.
Qed.
Lemma connect_bare scheme tls h pt n rest : scheme_of scheme tls -> host_name h -> port_part pt n -> rest_of_url rest ->
  exists auth, connect ip_ok (scheme ++ txt "://" ++ h ++ pt ++ rest) = Ok (Conn (Some (lower h)) n tls auth) /\ basic auth (txt "None") (txt "None").
Proof.
  intros S H P R. eexists. split.
  - pose proof (connect_ok ip_ok scheme (txt (if tls then "https" else "http")) [] h pt n rest S) as C. cbn [app] in C. rewrite C with (u := None) (p := None); auto; [|destruct tls; auto].
    f_equal. f_equal. destruct tls; reflexivity.
  - eexists. split; [reflexivity|]. apply (b64encode_ok (txt "None" ++ ":"%char :: txt "None")).
Qed.

(** ** The configuration file *)
Lemma localhost_name : host_name (txt "localhost").
Proof. split; [discriminate|]. apply Forall_forall. intros c I. exists c. split; [|reflexivity]. apply has_in. revert c I. apply Forall_forall. repeat constructor. Qed.
Lemma conf_connects pr sp file ls d n b user pw :
  lines_of file ls -> ascii_text file -> asked_port pr sp d -> port_of ls d n -> (0 <= n <= 65535)%Z -> ssl_of ls b ->
  setting "rpcuser" ls user -> setting "rpcpassword" ls pw -> clean user -> clean pw ->
  exists auth, raw_proxy ip_ok pr None sp (Some file) = Ok (Conn (Some (txt "localhost")) n b auth) /\ basic auth user pw.
Proof.
  intros L A D P N B U W CU CW. unfold raw_proxy. rewrite (read_conf_ok file ls L A). cbn [bind]. rewrite (conf_url_ok ls pr sp d n b user pw D P B U W). cbn [bind].
  apply (connect_credentials (txt (if b then "https" else "http")) b user pw (txt "localhost") (":"%char :: fmt_i n) n []); auto.
  - apply same_word_refl.
  - apply localhost_name.
  - right. exists (fmt_i n). destruct (fmt_i_spec n) as (F1 & F2 & _); [lia|]. repeat split; auto. lia.
  - left. reflexivity.
Qed.
Lemma conf_no_file pr sp : raw_proxy ip_ok pr None sp None = Err OSError. Proof. reflexivity. Qed.
Lemma conf_no_credentials pr sp file ls : lines_of file ls -> unset "rpcuser" ls \/ unset "rpcpassword" ls ->
  exists e, raw_proxy ip_ok pr None sp (Some file) = Err e.
Proof.
  intros L U. unfold raw_proxy, read_conf. rewrite (lines_read _ _ L). destruct (existsb _ file); [eexists; reflexivity|]. cbn [bind]. rewrite conf_url_eq.
  destruct (match dget "rpcport" _ with Some t => int_of t | None => _ end) as [port|]; [|eexists; reflexivity]. cbn [bind].
  destruct (ssl_value _) as [ssl|]; [|eexists; reflexivity]. cbn [bind]. unfold key. destruct U as [U|U].
  - rewrite (fold_unset _ _ U). eexists; reflexivity.
  - rewrite (fold_unset _ _ U). destruct (dget "rpcuser" _); eexists; reflexivity.
Qed.
Lemma conf_key_error pr sp file ls d n b : lines_of file ls -> ascii_text file -> asked_port pr sp d -> port_of ls d n -> ssl_of ls b ->
  unset "rpcuser" ls \/ unset "rpcpassword" ls -> raw_proxy ip_ok pr None sp (Some file) = Err KeyError.
Proof.
  intros L A D P B U. unfold raw_proxy. rewrite (read_conf_ok file ls L A). cbn [bind]. rewrite conf_url_eq, (port_setting pr sp ls d n D P). cbn [bind]. rewrite (ssl_setting ls b B). cbn [bind].
  unfold key. destruct U as [U|U]; rewrite (fold_unset _ _ U); [reflexivity|]. destruct (dget "rpcuser" _); reflexivity.
Qed.
Lemma conf_bad_ssl pr sp file ls t : lines_of file ls -> ascii_text file -> setting "rpcssl" ls t -> (forall b, ~ ssl_of ls b) ->
  raw_proxy ip_ok pr None sp (Some file) = Err ValueError.
Proof.
  intros L A S N. unfold raw_proxy. rewrite (read_conf_ok file ls L A). cbn [bind]. rewrite conf_url_eq.
  destruct (match dget "rpcport" _ with Some t => int_of t | None => _ end) as [port|e] eqn:E; cbn [bind].
  - rewrite (ssl_other ls t S N). reflexivity.
  - destruct (dget "rpcport" _) as [t'|]; [|discriminate]. apply int_of_err in E. subst e. reflexivity.
Qed.
(** A port out of range. *)
Lemma bad_port_part n : ~ (0 <= n <= 65535)%Z -> int10 false true 0 (fmt_i n) = None \/ exists m, int10 false true 0 (fmt_i n) = Some m /\ (m <=? 65535)%Z = false.
Proof.
  intros N. destruct (Z_lt_ge_dec n 0) as [L|G].
  - destruct (fmt_neg n L) as [r ->]. left. reflexivity.
  - destruct (fmt_i_spec n) as (F1 & F2 & _); [lia|]. right. exists n. split; [apply int10_ok; assumption|lia].
Qed.
Lemma fmt_chars n : Forall (fun c => host_char c = true) (fmt_i n).
Proof.
  assert (forall z, (0 <= z)%Z -> Forall (fun c => host_char c = true) (fmt_i z)) as P.
  { intros z Z. destruct (fmt_i_spec z Z) as (F1 & _). eapply Forall_impl; [|exact (number_digits _ _ F1)]. intros c D. unfold is_digit, code in D.
    rewrite <- (ascii_N_embedding c). generalize dependent (N_of_ascii c). intros m D. assert (In m [48;49;50;51;52;53;54;55;56;57]%N) as I by (cbn [In]; lia). cbn [In] in I. repeat (destruct I as [<-|I]; [reflexivity|]). contradiction. }
  destruct (Z_lt_ge_dec n 0) as [L|G]; [|apply P; lia]. specialize (P (- n)%Z ltac:(lia)). unfold fmt_i in *. destruct (- n <? 0)%Z eqn:E1; [lia|]. destruct (n <? 0)%Z eqn:E2; [|lia].
  rewrite Zabs2N.inj_opp in P. constructor; [reflexivity|exact P].
Qed.
Lemma conf_bad_port pr sp file ls d n b user pw :
  lines_of file ls -> ascii_text file -> asked_port pr sp d -> port_of ls d n -> ~ (0 <= n <= 65535)%Z -> ssl_of ls b ->
  setting "rpcuser" ls user -> setting "rpcpassword" ls pw -> clean user -> clean pw ->
  raw_proxy ip_ok pr None sp (Some file) = Err ValueError.
Proof.
  intros L A D P N B U W CU CW. unfold raw_proxy. rewrite (read_conf_ok file ls L A). cbn [bind]. rewrite (conf_url_ok ls pr sp d n b user pw D P B U W). cbn [bind].
  pose proof (fmt_chars n) as F. set (h := txt "localhost" ++ (":"%char :: fmt_i n)). set (c := user ++ txt ":" ++ pw).
  replace ((user ++ txt ":" ++ pw ++ ["@"%char]) ++ txt "localhost" ++ (":"%char :: fmt_i n) ++ []) with ((c ++ ["@"%char] ++ h) ++ []).
  2: { subst c h. rewrite !app_nil_r. rewrite <- !app_assoc. reflexivity. }
  assert (Forall (fun c => plain_char c = true) h) as FH.
  { subst h. apply Forall_app. split; [repeat constructor|]. constructor; [reflexivity|]. eapply Forall_impl; [|exact F]. intros x X. apply (host_char_facts x X). }
  unfold connect. rewrite (urlsplit_ok ip_ok _ (txt (if b then "https" else "http"))).
  2: apply same_word_refl. 2: destruct b; auto. 3: left; reflexivity.
  2: { apply clean_plain, Forall_app. split; [apply clean_plain; subst c; apply clean_app; [exact CU|apply clean_app; [apply clean_colon|exact CW]]|]. constructor; [reflexivity|exact FH]. }
  cbn [bind]. unfold url_port, hostinfo. cbv zeta. rewrite (rpartition_some "@" _ c h); [|reflexivity|].
  2: { intros I. subst h. apply in_app_iff in I as [I|[I|I]]; [apply has_in in I; discriminate|discriminate|]. rewrite Forall_forall in F. destruct (host_char_facts _ (F _ I)) as (_ & X & _). apply X. reflexivity. }
  rewrite (proj2 (partition_none "[" h)).
  2: { intros I. rewrite Forall_forall in FH. apply (plain_not _ "[" (FH _ I)); [cbn; tauto|reflexivity]. }
  rewrite (proj2 (partition_some ":" h (txt "localhost") (fmt_i n))).
  2: { split; [reflexivity|]. intros I. apply has_in in I. discriminate. }
  cbn [snd]. assert (fmt_i n <> []) as NE. { destruct (Z_lt_ge_dec n 0) as [Lt|G]; [destruct (fmt_neg n Lt) as [r ->]; discriminate|apply fmt_i_spec; lia]. }
  destruct (fmt_i n) as [|x r] eqn:E; [contradiction|]. destruct (bad_port_part n N) as [Q|(m & Q & M)]; rewrite E in Q; rewrite Q; [reflexivity|]. rewrite M. reflexivity.
Qed.

(** The header tells the credentials. *)
Lemma basic_fun auth u p u' p' : basic auth u p -> basic auth u' p' -> u ++ ":"%char :: p = u' ++ ":"%char :: p'.
Proof.
  intros (t & E & B) (t' & E' & B'). assert (t = t') by (rewrite E in E'; apply (app_inv_head (txt "Basic ")); exact E'). subst t'. exact (base64_fun t _ B _ B').
Qed.
Lemma basic_same auth u p u' p' : ~ In ":"%char u -> ~ In ":"%char u' -> basic auth u p -> basic auth u' p' -> u = u' /\ p = p'.
Proof.
  intros N N' B B'. pose proof (basic_fun _ _ _ _ _ B B') as E.
  assert (partition ":" (u ++ ":"%char :: p) = Some (u, p)) as P by (apply partition_some; auto).
  assert (partition ":" (u' ++ ":"%char :: p') = Some (u', p')) as P' by (apply partition_some; auto). rewrite E, P' in P. inversion P; auto.
Qed.
End Url.

(** ** Reading settings off *)
Lemma lines_of_read s : lines_of s (read_lines false [] s).
Proof. destruct (lines_exist s) as [ls L]. rewrite (lines_read _ _ L). exact L. Qed.
Lemma setting_read k ls v : dget k (fold_left conf_line ls []) = Some v -> setting k ls v.
Proof.
  intros E. destruct (set_or_unset k ls) as [[v' S]|U].
  - rewrite (fold_setting _ _ _ S) in E. inversion E; subst. exact S.
  - rewrite (fold_unset _ _ U) in E. discriminate.
Qed.
Lemma unset_read k ls : dget k (fold_left conf_line ls []) = None -> unset k ls.
Proof. intros E. destruct (set_or_unset k ls) as [[v' S]|U]; [|exact U]. rewrite (fold_setting _ _ _ S) in E. discriminate. Qed.
Lemma ascii_read s : existsb (fun c => 128 <=? N_of_ascii c)%N s = false -> ascii_text s.
Proof. induction s as [|c s IH]; intros H; [constructor|]. cbn [existsb] in H. apply Bool.orb_false_iff in H as [H1 H2]. constructor; [lia|apply IH, H2]. Qed.
Lemma clean_read s : forallb plain_char s = true -> clean s.
Proof. intros H. apply clean_plain, Forall_forall. apply forallb_forall. exact H. Qed.
Lemma host_read s : s <> [] -> forallb host_char s = true -> host_name s.
Proof. intros N H. split; [exact N|]. apply Forall_forall. intros c I. exists c. split; [|reflexivity]. apply has_in. rewrite forallb_forall in H. apply (H c I). Qed.
Lemma number_read z s : (0 <= z)%Z -> fmt_i z = s -> number s z /\ s <> [].
Proof. intros H <-. destruct (fmt_i_spec z H) as (A & B & _). auto. Qed.
