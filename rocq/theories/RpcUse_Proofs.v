(** Proofs about Rpc_Model.v: the methods one by one. *)
From Verif Require Import Base Hex_Model Tx_Model Tx_Spec Tx_Proofs Block_Model Block_Spec Block_Proofs Script_Model Base58_Model Base58_Spec Base58_Proofs
  Rpc_Model Rpc_Spec Rpc_Proofs RpcAmount_Proofs ChainPipe_Proofs NetErr_Proofs Grammar_Spec Grammar_Proofs Net_Spec Net_Proofs.
From Coq Require Import ZifyBool ZifyNat ZifyN.
#[local] Open Scope string_scope.
#[local] Open Scope list_scope.

(** ** Texts of bytes *)

Lemma digit_hex c n : digit_text c n <-> hex_digit c = Some (N.of_nat n).
Proof.
  unfold digit_text. split.
  - intros [H|H]; do 17 (destruct n as [|n]; [cbn in H; first [discriminate H | inversion H; reflexivity]|]); cbn in H; destruct n; discriminate H.
  - intros H. assert (n < 16)%nat as L.
    { unfold hex_digit in H. pose proof (N_ascii_bounded c). destruct (_ && _) eqn:E in H; [inversion H; lia|]. destruct (_ && _) eqn:E1 in H; [inversion H; lia|].
      destruct (_ && _) eqn:E2 in H; [inversion H; lia|discriminate]. }
    destruct c as [[] [] [] [] [] [] [] []]; vm_compute in H; try discriminate H; injection H as H;
      do 16 (destruct n as [|n]; [first [discriminate H | left; reflexivity | right; reflexivity]|]); lia.
Qed.
Lemma hex_digit_lt c n : hex_digit c = Some n -> (n < 16)%N.
Proof.
  unfold hex_digit. intros H. destruct (_ && _) eqn:E in H; [inversion H; lia|]. destruct (_ && _) eqn:E1 in H; [inversion H; lia|].
  destruct (_ && _) eqn:E2 in H; [inversion H; lia|discriminate].
Qed.
Lemma x_hex_text s b : x_hex s = Ok b <-> hex_text s b.
Proof.
  split.
  - assert (forall n, forall s b, (String.length s <= n)%nat -> x_hex s = Ok b -> hex_text s b) as G; [|apply (G _ s b (le_n _))].
    clear. induction n as [|n IH]; intros s b L H.
    + destruct s; [|cbn in L; lia]. inversion H. constructor.
    + destruct s as [|c1 [|c2 s]]; [inversion H; constructor|discriminate|]. cbn [x_hex] in H. destruct (hex_digit c1) as [u|] eqn:U; [|discriminate].
      destruct (hex_digit c2) as [v|] eqn:V; [|discriminate]. destruct (x_hex s) as [r|] eqn:R; [|discriminate]. cbn [bind] in H. inversion H; subst.
      pose proof (hex_digit_lt _ _ U). pose proof (hex_digit_lt _ _ V).
      apply (hex_cons c1 c2 (N.to_nat u) (N.to_nat v)); [apply digit_hex; rewrite N2Nat.id; exact U|apply digit_hex; rewrite N2Nat.id; exact V| |apply IH; [cbn in L; lia|exact R]].
      rewrite bN_Nb by lia. lia.
  - intros H. induction H as [|c1 c2 n1 n2 x s b D1 D2 X H IH]; [reflexivity|]. apply digit_hex in D1, D2. cbn [x_hex]. rewrite D1, D2, IH. cbn [bind].
    replace (N.of_nat n1 * 16 + N.of_nat n2)%N with (bN x) by lia. rewrite Nb_bN. reflexivity.
Qed.
Lemma lx_text s b : lx s = Ok b <-> hex_text s (rev b).
Proof.
  rewrite <- x_hex_text. unfold lx. destruct (x_hex s) as [r|e]; cbn [bind]; split; intros H; inversion H; subst.
  - rewrite rev_involutive. reflexivity.
  - rewrite rev_involutive. reflexivity.
Qed.
Lemma lx_of_text s b : lx_of (JStr s) = Ok b <-> hex_text s (rev b).
Proof. exact (lx_text s b). Qed.
Lemma unhexlify_text s b : unhexlify (JStr s) = Ok b <-> hex_text s b.
Proof. exact (x_hex_text s b). Qed.
Lemma to_hex_text b : hex_text (to_hex b) b.
Proof. apply x_hex_text. exact (x_b2x b). Qed.

Lemma tx_of_text s t : tx_of (JStr s) = Ok t <-> exists b, hex_text s b /\ tx_text t b.
Proof.
  unfold tx_of. split.
  - destruct (unhexlify (JStr s)) as [b|] eqn:E; [|discriminate]. cbn [bind]. intros H. exists b. split; [apply unhexlify_text, E|].
    apply (reads_all _ _ _ _ tx_reads). unfold bdeserialize in H. destruct (tx_de b) as [[t' [|y p]]|]; cbn [bind] in H; inversion H. reflexivity.
  - intros (b & H & T). apply unhexlify_text in H. rewrite H. cbn [bind]. apply (reads_all _ _ _ _ tx_reads) in T. unfold bdeserialize. rewrite T. reflexivity.
Qed.
Lemma block_of_text s k : block_of (JStr s) = Ok k <-> exists b, hex_text s b /\ block_bytes k b.
Proof.
  unfold block_of. split.
  - destruct (unhexlify (JStr s)) as [b|] eqn:E; [|discriminate]. cbn [bind]. intros H. exists b. split; [apply unhexlify_text, E|].
    apply (reads_all _ _ _ _ block_reads). unfold bdeserialize in H. destruct (block_de b) as [[t' [|y p]]|]; cbn [bind] in H; inversion H. reflexivity.
  - intros (b & H & T). apply unhexlify_text in H. rewrite H. cbn [bind]. apply (reads_all _ _ _ _ block_reads) in T. unfold bdeserialize. rewrite T. reflexivity.
Qed.

(** ** Addresses *)

Lemma address_text_str pr a s : network pr -> addr_text pr a s -> address_str a = Ok (list_ascii_of_string s).
Proof. intros Hn (v & V & E & ->). unfold address_str. rewrite E. apply base58_str_eq. Qed.
Lemma address_text_iff pr a s : network pr -> CBitcoinAddress pr (list_ascii_of_string s) = Ok a <-> addr_text pr a s.
Proof.
  intros Hn. split.
  - intros H. destruct (address_accepted _ _ _ Hn H) as [V S]. destruct (network_versions pr (a_class a) Hn) as (v & Ev & _).
    exists v. split; [congruence|]. split; [congruence|]. unfold address_str in S. rewrite V, Ev, base58_str_eq in S. inversion S. reflexivity.
  - intros (v & V & E & S). destruct a as [c n d]. cbn [a_class a_nVersion a_data] in *. subst n.
    destruct (address_text_roundtrip pr c d Hn) as (t & T & R). unfold address_str in T. cbn [a_nVersion a_data] in T. rewrite <- V, base58_str_eq in T.
    inversion T; subst t. rewrite S, V. exact R.
Qed.
Lemma addr_arg_text pr a s : network pr -> addr_text pr a s -> addr_arg a = Ok (JStr s).
Proof.
  intros Hn H. unfold addr_arg. rewrite (address_text_str _ _ _ Hn H). cbn [bind]. rewrite string_of_list_ascii_of_string. reflexivity.
Qed.
Lemma address_of_text pr a s : network pr -> address_of pr (JStr s) = Ok a <-> addr_text pr a s.
Proof. exact (address_text_iff pr a s). Qed.

(** ** Dicts with changed entries *)

Lemma key_holds {A} k (v : A) d : key k d = Ok v <-> holds k v d.
Proof. rewrite <- dget_holds. unfold key. destruct (dget k d); split; intros H; inversion H; reflexivity. Qed.

Lemma ddel_ok {A} k (d : list (string * A)) : dget k d <> None -> exists d', ddel k d = Ok d'.
Proof.
  induction d as [|[k' v] d IH]; cbn [dget ddel]; [congruence|]. destruct (String.eqb k k'); [eauto|]. intros H. destruct (IH H) as [d' ->]. cbn [bind]. eauto.
Qed.
Lemma ddel_names {A} k (d d' : list (string * A)) x : ddel k d = Ok d' -> In x (map fst d') -> In x (map fst d).
Proof.
  revert d'. induction d as [|[k' v] d IH]; intros d'; cbn [ddel]; [discriminate|]. destruct (String.eqb k k').
  - intros H; inversion H; subst. cbn. tauto.
  - destruct (ddel k d) as [r|] eqn:E; [|discriminate]. cbn [bind]. intros H; inversion H; subst. cbn. intros [->|I]; [tauto|right; apply (IH r); auto].
Qed.
Lemma ddel_nodup {A} k (d d' : list (string * A)) : ddel k d = Ok d' -> NoDup (map fst d) -> NoDup (map fst d').
Proof.
  revert d'. induction d as [|[k' v] d IH]; intros d'; cbn [ddel]; [discriminate|]. cbn [map fst]. intros H N. inversion N as [|? ? N1 N2]; subst.
  destruct (String.eqb k k'); [inversion H; subst; exact N2|]. destruct (ddel k d) as [r|] eqn:E; [|discriminate]. cbn [bind] in H; inversion H; subst. cbn [map fst].
  constructor; [|apply (IH r); auto]. intros I. apply N1. eapply ddel_names; eauto.
Qed.
Lemma ddel_get {A} k k' (d d' : list (string * A)) : NoDup (map fst d) -> ddel k d = Ok d' -> dget k' d' = if String.eqb k' k then None else dget k' d.
Proof.
  revert d'. induction d as [|[k2 v] d IH]; intros d'; cbn [ddel]; [discriminate|]. cbn [map fst]. intros N H. inversion N as [|? ? N1 N2]; subst.
  destruct (String.eqb_spec k k2) as [->|F].
  - inversion H; subst. cbn [dget]. destruct (String.eqb_spec k' k2) as [->|F']; [|reflexivity]. apply dget_none, N1.
  - destruct (ddel k d) as [r|] eqn:E; [|discriminate]. cbn [bind] in H; inversion H; subst. cbn [dget]. rewrite (IH r N2 eq_refl).
    destruct (String.eqb_spec k' k2) as [->|F']; [|reflexivity]. destruct (String.eqb_spec k2 k); [congruence|reflexivity].
Qed.
Lemma dset_names {A} k (v : A) d x : In x (map fst (dset k v d)) -> x = k \/ In x (map fst d).
Proof.
  induction d as [|[k' v'] d IH]; cbn [dset]; [cbn; intuition congruence|]. destruct (String.eqb_spec k k') as [->|F]; cbn; intuition congruence.
Qed.
Lemma dset_nodup {A} k (v : A) d : NoDup (map fst d) -> NoDup (map fst (dset k v d)).
Proof.
  induction d as [|[k' v'] d IH]; cbn [dset]; [cbn; intros; constructor; [intros []|constructor]|]. cbn [map fst]. intros N. inversion N as [|? ? N1 N2]; subst.
  destruct (String.eqb_spec k k') as [->|F]; cbn [map fst]; [constructor; assumption|]. constructor; [|apply IH, N2].
  intros I. apply dset_names in I as [->|I]; [congruence|exact (N1 I)].
Qed.
Lemma plain_names d : map fst (plain d) = map fst d.
Proof. unfold plain. rewrite map_map. apply map_ext. intros []. reflexivity. Qed.

Fixpoint drop (ks : list string) (k : string) : bool := match ks with [] => false | k' :: ks' => String.eqb k k' || drop ks' k end.
Lemma ddels_get {A} ks : forall (d : list (string * A)), NoDup (map fst d) -> NoDup ks -> (forall k, In k ks -> dget k d <> None) ->
  exists d', ddels ks d = Ok d' /\ NoDup (map fst d') /\ forall k, dget k d' = if drop ks k then None else dget k d.
Proof.
  induction ks as [|k ks IH]; intros d N D H; cbn [ddels drop]; [exists d; auto|].
  destruct (ddel_ok k d) as [d1 E]; [apply H; left; reflexivity|]. rewrite E. cbn [bind]. inversion D as [|? ? D1 D2]; subst.
  destruct (IH d1) as (d' & E' & N' & G).
  - eapply ddel_nodup; eauto.
  - exact D2.
  - intros k' I. rewrite (ddel_get k k' d d1 N E). destruct (String.eqb_spec k' k) as [->|_]; [contradiction|]. apply H. right. exact I.
  - exists d'. split; [exact E'|]. split; [exact N'|]. intros k'. rewrite G, (ddel_get k k' d d1 N E). destruct (String.eqb k' k); cbn [orb]; [destruct (drop ks k'); reflexivity|reflexivity].
Qed.

Lemma rewritten_get d removed added d' : NoDup (map fst d') ->
  NoDup (map fst added) -> (forall k, In k removed -> ~ In k (map fst added)) ->
  (forall k, dget k d' = match dget k added with Some v => Some v | None => if drop removed k then None else option_map PJ (dget k d) end) ->
  rewritten d removed added d'.
Proof.
  intros N NA DI G. assert (forall k, In k removed <-> drop removed k = true) as DR.
  { intros k. clear. induction removed as [|x l IH]; cbn [In drop]; [split; [intros []|discriminate]|]. rewrite IH. destruct (String.eqb_spec k x) as [->|F]; cbn [orb]; [tauto|].
    split; [intros [E|E]; [congruence|exact E]|tauto]. }
  split; [exact N|]. split; [|split].
  - intros k v I. apply dget_holds. rewrite G. assert (dget k added = Some v) as ->; [|reflexivity]. clear - I NA.
    induction added as [|[k' v'] l IH]; [destruct I|]. cbn [map fst] in NA. inversion NA; subst. cbn [dget]. destruct I as [E|I].
    + inversion E; subst. rewrite String.eqb_refl. reflexivity.
    + destruct (String.eqb_spec k k') as [->|F]; [|apply IH; assumption]. exfalso. apply H1. apply (in_map fst) in I. exact I.
  - intros k I. apply dget_none. rewrite G. rewrite (proj2 (dget_none k added) (DI k I)). apply DR in I. rewrite I. reflexivity.
  - intros k I1 I2 v. rewrite <- dget_holds, G, (proj2 (dget_none k added) I2). destruct (drop removed k) eqn:E; [apply DR in E; contradiction|].
    split.
    + destruct (dget k d) as [j|] eqn:J; [|discriminate]. cbn. intros H; inversion H. exists j. split; [reflexivity|]. apply dget_holds, J.
    + intros (j & -> & J). apply dget_holds in J. rewrite J. reflexivity.
Qed.

(** ** Errors of conversions *)

Lemma x_hex_err s e : x_hex s = Err e -> e = ValueError.
Proof.
  assert (forall n, forall s, (String.length s <= n)%nat -> x_hex s = Err e -> e = ValueError) as G; [|apply (G _ s (le_n _))].
  clear. induction n as [|n IH]; intros s L H.
  - destruct s; [discriminate|cbn in L; lia].
  - destruct s as [|c1 [|c2 s]]; [discriminate|cbn in H; congruence|]. cbn [x_hex] in H. destruct (hex_digit c1); [|congruence]. destruct (hex_digit c2); [|congruence].
    destruct (x_hex s) eqn:R; cbn [bind] in H; [discriminate|]. inversion H; subst. apply (IH s); [cbn in L; lia|exact R].
Qed.
Lemma unhexlify_err j e : unhexlify j = Err e -> e = ValueError \/ e = AttributeError.
Proof. unfold unhexlify, text_of. destruct j; cbn [bind]; intros H; try (inversion H; auto; fail). left. exact (x_hex_err _ _ H). Qed.
Lemma lx_of_err j e : lx_of j = Err e -> e = ValueError \/ e = AttributeError.
Proof.
  unfold lx_of, text_of, lx. destruct j; cbn [bind]; intros H; try (inversion H; auto; fail). destruct (x_hex s) eqn:E; [discriminate|]. cbn [bind] in H. inversion H; subst.
  left. exact (x_hex_err _ _ E).
Qed.
Lemma tx_of_err j e : tx_of j = Err e -> e <> IndexError.
Proof.
  unfold tx_of. destruct (unhexlify j) as [b|] eqn:E; cbn [bind]; intros H.
  - unfold bdeserialize in H. destruct (tx_de b) as [[t p]|e'] eqn:D; cbn [bind] in H.
    + destruct p; inversion H. discriminate.
    + inversion H; subst. apply tx_strict in D. destruct D as [->| ->]; discriminate.
  - inversion H; subst. apply unhexlify_err in E as [->| ->]; discriminate.
Qed.
Lemma block_of_err j e : block_of j = Err e -> e <> IndexError.
Proof.
  unfold block_of. destruct (unhexlify j) as [b|] eqn:E; cbn [bind]; intros H.
  - unfold bdeserialize in H. destruct (block_de b) as [[t p]|e'] eqn:D; cbn [bind] in H.
    + destruct p; inversion H. discriminate.
    + inversion H; subst. apply block_strict in D. destruct D as [->| ->]; discriminate.
  - inversion H; subst. apply unhexlify_err in E as [->| ->]; discriminate.
Qed.
Lemma key_err {A} k (d : list (string * A)) e : key k d = Err e -> e = KeyError.
Proof. unfold key. destruct (dget k d); intros H; inversion H. reflexivity. Qed.
Lemma as_dict_err j e : as_dict j = Err e -> e = TypeError.
Proof. destruct j; intros H; inversion H; reflexivity. Qed.
Lemma item_err k j e : item k j = Err e -> e = KeyError \/ e = TypeError.
Proof. unfold item. destruct (as_dict j) eqn:D; cbn [bind]; intros H; [left; exact (key_err _ _ _ H)|inversion H; subst; right; exact (as_dict_err _ _ D)]. Qed.
Lemma ddels_err {A} ks : forall (d : list (string * A)) e, ddels ks d = Err e -> e = KeyError.
Proof.
  assert (forall k (d : list (string * A)) e, ddel k d = Err e -> e = KeyError) as G.
  { intros k d. induction d as [|[k' v] d IH]; intros e; cbn [ddel]; [congruence|]. destruct (String.eqb k k'); [discriminate|]. destruct (ddel k d); cbn [bind]; [discriminate|].
    intros H. apply IH. congruence. }
  induction ks as [|k ks IH]; intros d e; cbn [ddels]; [discriminate|]. destruct (ddel k d) eqn:E; cbn [bind]; [apply IH|]. intros H; inversion H; subst. exact (G _ _ _ E).
Qed.
Lemma amount_err j e : amount j = Err e -> e <> IndexError.
Proof.
  destruct j; cbn [amount]; intros H; try (inversion H; discriminate). unfold dec_times in H. destruct (_ && _) in H; cbn [bind] in H; inversion H. discriminate.
Qed.
Ltac step H := match type of H with bind ?m _ = _ => let E := fresh "E" in destruct m eqn:E; cbn [bind] in H; [|inversion H; subst] end.
Lemma raw_verbose_err j e : raw_verbose j = Err e -> e <> IndexError.
Proof.
  unfold raw_verbose. intros H. step H. 2: { apply as_dict_err in E as ->. discriminate. }
  step H. 2: { apply key_err in E0 as ->. discriminate. } step H. 2: { exact (tx_of_err _ _ E1). } step H. 2: { apply ddels_err in E2 as ->. discriminate. }
  destruct (dget "blockhash" _); [|discriminate]. destruct (lx_of j0) eqn:L; cbn [bind] in H; inversion H; subst. apply lx_of_err in L as [->| ->]; discriminate.
Qed.
Lemma txout_of_err j e : txout_of j = Err e -> e <> IndexError.
Proof.
  unfold txout_of. intros H. step H. 2: { apply as_dict_err in E as ->. discriminate. }
  step H. 2: { apply key_err in E0 as ->. discriminate. } step H. 2: { exact (amount_err _ _ E1). }
  step H. 2: { apply key_err in E2 as ->. discriminate. } step H. 2: { apply item_err in E3 as [->| ->]; discriminate. }
  step H. 2: { apply unhexlify_err in E4 as [->| ->]; discriminate. }
  step H. 2: { apply ddels_err in E5 as ->. discriminate. } step H. 2: { apply key_err in E6 as ->. discriminate. }
  step H. 2: { apply lx_of_err in E7 as [->| ->]; discriminate. } discriminate.
Qed.
