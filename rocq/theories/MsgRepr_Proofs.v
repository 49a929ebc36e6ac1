(** Printing of received messages. *)
From Verif Require Import Base PySlice Tx_Model Block_Model Money_Model Hex_Model Base58_Model Net_Model Repr_Model Repr_Proofs ReprBad_Proofs ReprMore_Proofs
  NetFrame_Proofs MsgRepr_Model MsgRepr_Spec.
From Coq Require Import Lia ZifyBool.
Local Open Scope Z_scope.
Local Open Scope list_scope.

(** The fields that are None after reading. *)
Definition shaped (m : msg) : Prop :=
  match m with
  | MVersion v => if 209 <=? n_nVersion v then n_nNonce v <> None /\ n_nStartingHeight v <> None else n_nStartingHeight v = None
  | _ => True
  end.

Lemma version_shaped s v r : version_de s = Ok (v, r) -> shaped (MVersion v).
Proof.
  unfold version_de. intros H.
  repeat match type of H with (bind ?x _) = _ => destruct x as [[? ?]|] eqn:?; cbn [bind] in H; [|discriminate H] end. cbv zeta in H.
  match type of H with context [106 <=? ?n] => set (k := n) in * end.
  repeat match type of H with (bind ?x _) = _ => destruct x as [[? ?]|] eqn:?; cbn [bind] in H; [|discriminate H] end.
  destruct (106 <=? k) eqn:A.
  - repeat match type of H with (bind ?x _) = _ => destruct x as [[? ?]|] eqn:?; cbn [bind] in H; [|discriminate H] end.
    destruct (209 <=? k) eqn:B.
    + repeat match type of H with (bind ?x _) = _ => destruct x as [[? ?]|] eqn:?; cbn [bind] in H; [|discriminate H] end.
      injection H as <- <-. cbn [shaped n_nVersion n_nNonce n_nStartingHeight]. rewrite B. split; discriminate.
    + injection H as <- <-. cbn [shaped n_nVersion n_nNonce n_nStartingHeight]. rewrite B. reflexivity.
  - injection H as <- <-. cbn [shaped n_nVersion n_nNonce n_nStartingHeight]. destruct (209 <=? k) eqn:B; [lia|reflexivity].
Qed.

Lemma wrap_ok {A} (mk : A -> msg) f s m r : wrap mk f s = Ok (m, r) -> exists a, f s = Ok (a, r) /\ m = mk a.
Proof. unfold wrap. destruct (f s) as [[a r']|]; cbn [bind]; [|discriminate]. intros H. injection H as <- <-. eauto. Qed.

Lemma map_shaped : Forall (fun e => forall s m r, snd e s = Ok (m, r) -> shaped m) messagemap.
Proof.
  unfold messagemap. repeat constructor; cbn [snd]; intros s m r H; try (apply wrap_ok in H; destruct H as (a & H & ->); try exact Logic.I; eapply version_shaped; exact H);
    injection H as <- <-; exact Logic.I.
Qed.

Lemma received_shaped c s m r : stream_deserialize c s = Ok (Some m, r) -> shaped m.
Proof.
  unfold stream_deserialize. destruct (ser_read 24 s) as [[buf s1]|]; cbn [bind]; [|discriminate]. destruct (negb _); [discriminate|].
  destruct (ser_read_int _ s1) as [[more s2]|]; cbn [bind]; [|discriminate]. destruct (py_slice _ _) as [body|]; cbn [bind]; [|discriminate].
  destruct (negb _); [discriminate|]. destruct (lookup _) as [f|] eqn:L; [|destruct (forallb _ _); discriminate].
  destruct (f body) as [[m' r']|] eqn:F; cbn [bind]; [|discriminate]. intros H. assert (m' = m) as -> by congruence.
  unfold lookup in L. destruct (find _ messagemap) as [e|] eqn:E; [|discriminate]. apply find_some in E. destruct E as [E _].
  pose proof map_shaped as S. rewrite Forall_forall in S. injection L as <-. eapply S; eassumption.
Qed.

(** ** Inventories *)

Lemma typemap_iff t : (exists n, typemap t = Ok n) <-> 0 <= t <= 3.
Proof.
  unfold typemap. destruct (t =? 0) eqn:A; [split; [lia|eauto]|]. destruct (t =? 1) eqn:B; [split; [lia|eauto]|]. destruct (t =? 2) eqn:C; [split; [lia|eauto]|].
  destruct (t =? 3) eqn:D; [split; [lia|eauto]|]. split; [intros [n H]; discriminate|lia].
Qed.

Lemma invs_ok l : Forall (fun v => 0 <= v_type v <= 3) l -> exists s, mapM inv_repr l = Ok s.
Proof.
  induction 1 as [|v l V _ [s IH]]; [exists []; reflexivity|]. cbn [mapM]. apply typemap_iff in V. destruct V as [n V].
  unfold inv_repr at 1. rewrite V. cbn [bind]. rewrite IH. cbn [bind]. eauto.
Qed.

Lemma invs_err l : ~ Forall (fun v => 0 <= v_type v <= 3) l -> mapM inv_repr l = Err KeyError.
Proof.
  induction l as [|v l IH]; intros H; [exfalso; apply H; constructor|]. cbn [mapM]. destruct (typemap (v_type v)) as [n|e] eqn:E.
  - unfold inv_repr at 1. rewrite E. cbn [bind]. rewrite IH; [reflexivity|]. intros F. apply H. constructor; [apply typemap_iff; eauto|exact F].
  - unfold inv_repr at 1. rewrite E. cbn [bind]. f_equal. unfold typemap in E. repeat destruct (_ =? _) in E; congruence.
Qed.

Lemma inv_dec l : Forall (fun v => 0 <= v_type v <= 3) l \/ ~ Forall (fun v => 0 <= v_type v <= 3) l.
Proof. destruct (Forall_dec (fun v => 0 <= v_type v <= 3) (fun v => ltac:(destruct (0 <=? v_type v) eqn:?; destruct (v_type v <=? 3) eqn:?; (left; lia) || (right; lia))) l); auto. Qed.

Lemma tx_prints c t : exists s, tx_repr c t = Ok s.
Proof. unfold tx_repr. destruct (outputs_text (t_vout t)) as (ss & -> & _). cbn [bind]. eauto. Qed.

(** ** Which messages can be printed *)

Lemma printed_iff ctime c s m r : stream_deserialize c s = Ok (Some m, r) -> ((exists t, msg_repr ctime m = Ok t) <-> can_print ctime m).
Proof.
  intros H. apply received_shaped in H. destruct m as [v| |l|a|l|l|l h|l h|l|t|b| |n|n|]; cbn [msg_repr can_print]; try (split; eauto; fail).
  - cbn [shaped] in H. unfold version_repr. destruct (ctime (n_nTime v)) as [t|]; cbn [bind]; [|split; [intros [t E]; discriminate|intros [_ [t E]]; discriminate]].
    destruct (209 <=? n_nVersion v) eqn:V.
    + destruct H as [A B]. destruct (n_nNonce v); [|contradiction]. destruct (n_nStartingHeight v); [|contradiction]. cbn [bind]. split; [intros _; split; [lia|eauto]|intros _; eauto].
    + rewrite H. split; [|lia]. intros [u E]. destruct (n_nNonce v); cbn [bind] in E; discriminate.
  - destruct (inv_dec l) as [Q|Q].
    + destruct (invs_ok l Q) as [t ->]. cbn [bind]. split; eauto.
    + rewrite (invs_err l Q). cbn [bind]. split; [intros [t E]; discriminate|contradiction].
  - destruct (inv_dec l) as [Q|Q].
    + destruct (invs_ok l Q) as [t ->]. cbn [bind]. split; eauto.
    + rewrite (invs_err l Q). cbn [bind]. split; [intros [t E]; discriminate|contradiction].
  - destruct (tx_prints Imm t) as [s' ->]. cbn [bind]. split; eauto.
Qed.

(** What is raised otherwise. *)
Lemma printed_error ctime c s m r e : stream_deserialize c s = Ok (Some m, r) -> msg_repr ctime m = Err e ->
  match m with
  | MVersion v => match ctime (n_nTime v) with Ok _ => e = TypeError | Err e' => e = e' end
  | MInv _ | MGetData _ => e = KeyError
  | _ => False
  end.
Proof.
  intros _. destruct m as [v| |l|a|l|l|l h|l h|l|t|b| |n|n|]; cbn [msg_repr]; try discriminate.
  - unfold version_repr. destruct (ctime (n_nTime v)) as [t|]; cbn [bind]; [|congruence]. destruct (n_nNonce v); cbn [bind]; [|congruence]. destruct (n_nStartingHeight v); cbn [bind]; congruence.
  - destruct (inv_dec l) as [Q|Q]; [destruct (invs_ok l Q) as [t ->]; discriminate|]. rewrite (invs_err l Q). cbn [bind]. congruence.
  - destruct (inv_dec l) as [Q|Q]; [destruct (invs_ok l Q) as [t ->]; discriminate|]. rewrite (invs_err l Q). cbn [bind]. congruence.
  - destruct (tx_prints Imm t) as [s' ->]. discriminate.
Qed.

(** ** The text tells the inventory *)

Lemma type_text t t' n n' (r r' : text) : typemap t = Ok n -> typemap t' = Ok n' -> n ++ " "%char :: r = n' ++ " "%char :: r' -> t = t' /\ r = r'.
Proof.
  unfold typemap. intros A B E.
  destruct (t =? 0) eqn:T0; [|destruct (t =? 1) eqn:T1; [|destruct (t =? 2) eqn:T2; [|destruct (t =? 3) eqn:T3; [|discriminate]]]];
  (destruct (t' =? 0) eqn:U0; [|destruct (t' =? 1) eqn:U1; [|destruct (t' =? 2) eqn:U2; [|destruct (t' =? 3) eqn:U3; [|discriminate]]]]);
  injection A as <-; injection B as <-; cbn [T list_ascii_of_string app] in E; try discriminate E; (split; [lia|congruence]).
Qed.

Lemma inv_text v v' s s' (r r' : text) : List.length (v_hash v) = 32%nat -> List.length (v_hash v') = 32%nat -> inv_repr v = Ok s -> inv_repr v' = Ok s' ->
  s ++ r = s' ++ r' -> v = v' /\ r = r'.
Proof.
  intros L L' A B E. unfold inv_repr in *. destruct (typemap (v_type v)) as [n|] eqn:N; cbn [bind] in A; [|discriminate]. destruct (typemap (v_type v')) as [n'|] eqn:N'; cbn [bind] in B; [|discriminate].
  match type of A with Ok ?x = _ => assert (s = x) as -> by congruence end. match type of B with Ok ?x = _ => assert (s' = x) as -> by congruence end.
  rewrite <- !app_assoc in E. apply app_inv_head in E.
  change (T " hash=b'") with (" "%char :: T "hash=b'") in E. cbn [app] in E. destruct (type_text _ _ _ _ _ _ N N' E) as [Q F].
  apply app_inv_head in F. apply split_length in F; [|rewrite !to_hex_length; lia]. destruct F as [F G]. apply app_inv_head in G.
  split; [|exact G]. assert (H : v_hash v = v_hash v').
  { rewrite <- (hex_to_hex (v_hash v)), <- (hex_to_hex (v_hash v')). f_equal. rewrite <- (T_back (to_hex (v_hash v))), <- (T_back (to_hex (v_hash v'))), F. reflexivity. }
  destruct v as [ty ha], v' as [ty' ha']. cbn in *. congruence.
Qed.

Lemma inv_repr_head v s : inv_repr v = Ok s -> exists r, s = "C"%char :: r.
Proof. unfold inv_repr. destruct (typemap _); cbn [bind]; [|discriminate]. intros H. match type of H with Ok ?x = _ => assert (s = x) as -> by congruence end. eexists. reflexivity. Qed.

Lemma join_cons sep a l : join sep (a :: l) = a ++ match l with [] => [] | _ => sep ++ join sep l end.
Proof. destruct l; cbn [join]; [rewrite app_nil_r; reflexivity|reflexivity]. Qed.

Lemma invs_text l : forall l' s s' r, Forall (fun v => List.length (v_hash v) = 32%nat) l -> Forall (fun v => List.length (v_hash v) = 32%nat) l' ->
  mapM inv_repr l = Ok s -> mapM inv_repr l' = Ok s' -> join (T ", ") s ++ "]"%char :: r = join (T ", ") s' ++ "]"%char :: r -> l = l'.
Proof.
  induction l as [|v l IH]; intros l' s s' r F F' A B E.
  - injection A as <-. destruct l' as [|v' l']; [reflexivity|]. exfalso. cbn [mapM] in B. destruct (inv_repr v') as [t|] eqn:V; cbn [bind] in B; [|discriminate].
    destruct (mapM inv_repr l') as [ts|]; cbn [bind] in B; [|discriminate]. injection B as <-. destruct (inv_repr_head _ _ V) as [q ->]. rewrite join_cons in E. discriminate E.
  - cbn [mapM] in A. destruct (inv_repr v) as [t|] eqn:V; cbn [bind] in A; [|discriminate]. destruct (mapM inv_repr l) as [ts|] eqn:M; cbn [bind] in A; [|discriminate]. injection A as <-.
    destruct l' as [|v' l'].
    + exfalso. injection B as <-. destruct (inv_repr_head _ _ V) as [q ->]. rewrite join_cons in E. discriminate E.
    + cbn [mapM] in B. destruct (inv_repr v') as [t'|] eqn:V'; cbn [bind] in B; [|discriminate]. destruct (mapM inv_repr l') as [ts'|] eqn:M'; cbn [bind] in B; [|discriminate]. injection B as <-.
      rewrite !join_cons in E. rewrite <- !app_assoc in E. inversion F; subst. inversion F'; subst.
      destruct (inv_text v v' t t' _ _ ltac:(assumption) ltac:(assumption) V V' E) as [-> G]. f_equal.
      destruct ts as [|u ts], ts' as [|u' ts']; try discriminate G.
      * destruct l; [|cbn [mapM] in M; destruct (inv_repr i); cbn [bind] in M; [destruct (mapM inv_repr l); discriminate|discriminate]].
        destruct l'; [reflexivity|cbn [mapM] in M'; destruct (inv_repr i); cbn [bind] in M'; [destruct (mapM inv_repr l'); discriminate|discriminate]].
      * rewrite <- !app_assoc in G. apply app_inv_head in G. eapply (IH l' (u :: ts) (u' :: ts') r); try eassumption. reflexivity.
Qed.

Lemma inventory_text ctime l l' t : Forall (fun v => List.length (v_hash v) = 32%nat) l -> Forall (fun v => List.length (v_hash v) = 32%nat) l' ->
  msg_repr ctime (MInv l) = Ok t -> msg_repr ctime (MInv l') = Ok t -> l = l'.
Proof.
  intros F F' A B. cbn [msg_repr] in *. destruct (mapM inv_repr l) as [s|] eqn:M; cbn [bind] in A; [|discriminate]. destruct (mapM inv_repr l') as [s'|] eqn:M'; cbn [bind] in B; [|discriminate].
  match type of A with Ok ?x = _ => assert (Q : x = t) by congruence end. match type of B with Ok ?x = _ => assert (Q' : x = t) by congruence end. rewrite <- Q' in Q. clear A B Q'.
  unfold list_repr in Q. rewrite <- !app_assoc in Q. apply app_inv_head in Q. apply app_inv_head in Q. exact (invs_text l l' s s' (T ")") F F' M M' Q).
Qed.

Lemma nonce_text ctime n n' t : 0 <= n -> 0 <= n' -> msg_repr ctime (MPing n) = Ok t -> msg_repr ctime (MPing n') = Ok t -> n = n'.
Proof.
  intros N N' A B. cbn [msg_repr] in *. match type of A with Ok ?x = _ => assert (Q : x = t) by congruence end. match type of B with Ok ?x = _ => assert (Q' : x = t) by congruence end.
  rewrite <- Q' in Q. apply app_inv_head in Q. apply app_inv_tail in Q. pose proof (fmt_x_spec n N) as [V _]. pose proof (fmt_x_spec n' N') as [V' _]. congruence.
Qed.
