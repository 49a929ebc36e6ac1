From Verif Require Import Base PySlice PySlice_Proofs Sha256 Tx_Model Tx_Spec Tx_Proofs Block_Model Block_Proofs Net_Model
  Grammar_Spec Grammar_Proofs Wire_Proofs Net_Spec Net_Proofs NetFrame_Proofs NetMain_Proofs.
From Coq Require Import ZifyBool ZifyNat ZifyN.
Local Open Scope string_scope.
Local Open Scope list_scope.

(** ** What reading can raise *)

Definition ser_error (e : exn) : Prop := e = SerializationError \/ e = SerializationTruncationError.
Definition strict {A} (f : bytes -> result (A * bytes)) : Prop := forall s e, f s = Err e -> ser_error e.

Lemma ser_read_strict n : strict (ser_read n).
Proof. intros s e. unfold ser_read, ser_error. destruct (_ <? n)%N; [intros H; inversion H; auto|]. destruct (_ <? n)%N; [intros H; inversion H; auto|discriminate]. Qed.
(** Look at the next reader in hypothesis [H], an equation with [Err]. *)
Ltac risk H lem := match type of H with bind ?t _ = Err _ => let E := fresh "E" in destruct t as [[? ?]|?] eqn:E; cbn [bind] in H; [|inversion H; subst; exact (lem _ _ E)] end.

Lemma varint_strict : strict varint_de.
Proof.
  intros s e H. unfold varint_de in H. risk H (ser_read_strict 1). destruct (_ <? _)%N; [discriminate|]. destruct (_ =? _)%N; [risk H (ser_read_strict 2); discriminate|].
  destruct (_ =? _)%N; [risk H (ser_read_strict 4); discriminate|risk H (ser_read_strict 8); discriminate].
Qed.
Lemma varstring_strict : strict varstring_de.
Proof. intros s e H. unfold varstring_de in H. risk H varint_strict. exact (ser_read_strict _ _ _ H). Qed.

Lemma vector_strict {A} (f : bytes -> result (A * bytes)) g : reads f g -> (forall a, ~ g a []) -> strict f -> strict (vector_de f).
Proof.
  intros R NE S s e H. unfold vector_de in H. risk H varint_strict. clear E s.
  assert (G : forall fuel n s, List.length s < fuel -> objs_de f fuel n s = Err e -> ser_error e).
  { clear -R NE S. induction fuel as [|fuel IH]; intros n s L H; [lia|]. cbn [objs_de] in H. destruct (n =? 0)%N; [discriminate|]. risk H S. apply R in E. destruct E as (b' & -> & G).
    match type of H with bind ?t _ = Err _ => destruct t as [[? ?]|?] eqn:E; cbn [bind] in H; [discriminate|] end. inversion H; subst.
    apply (IH _ _ ) in E; [exact E|]. rewrite app_length in L. destruct b' as [|x b']; [exfalso; exact (NE _ G)|]. cbn in L. lia. }
  apply (G _ _ _ (Nat.lt_succ_diag_r _) H).
Qed.

Lemma inv_strict : strict inv_de.
Proof. intros s e H. unfold inv_de in H. risk H (ser_read_strict 4). risk H (ser_read_strict 32). discriminate. Qed.
Lemma locator_strict : strict locator_de.
Proof. intros s e H. unfold locator_de in H. risk H (ser_read_strict 4). risk H (vector_strict _ _ hash_reads hash_nonempty (ser_read_strict 32)). discriminate. Qed.
Lemma locate_strict : strict locate_de.
Proof. intros s e H. unfold locate_de in H. risk H locator_strict. risk H (ser_read_strict 32). discriminate. Qed.
Lemma alert_strict : strict alert_de.
Proof. intros s e H. unfold alert_de in H. risk H varstring_strict. risk H varstring_strict. discriminate. Qed.
Lemma nonce_strict : strict nonce_de.
Proof. intros s e H. unfold nonce_de in H. risk H (ser_read_strict 8). discriminate. Qed.
Lemma address_strict wt : strict (address_de wt).
Proof.
  intros s e H. unfold address_de in H. match type of H with bind ?t _ = Err _ => destruct t as [[? ?]|?] eqn:E0; cbn [bind] in H end.
  2: { inversion H; subst. destruct (_ && _) in E0; [|discriminate]. risk E0 (ser_read_strict 4). discriminate. }
  risk H (ser_read_strict 8). risk H (ser_read_strict 12). risk H (ser_read_strict 4). apply read_fixed in E2; [|lia]. destruct E2 as [_ L].
  destruct (ntoa_ok _ L) as [ip I]. rewrite I in H. cbn [bind] in H. risk H (ser_read_strict 2). discriminate.
Qed.
Lemma version_strict : strict version_de.
Proof.
  intros s e H. unfold version_de in H. risk H (ser_read_strict 4). risk H (ser_read_strict 8). risk H (ser_read_strict 8). risk H (address_strict true).
  destruct (106 <=? _)%Z; [|discriminate]. risk H (address_strict true). risk H (ser_read_strict 8). risk H varstring_strict. destruct (209 <=? _)%Z; [|discriminate]. risk H (ser_read_strict 4). discriminate.
Qed.
Lemma le_dec_4 b : List.length b = 4 -> (0 <= Z.of_N (le_dec b) <= 0xffffffff)%Z.
Proof. intros L. pose proof (le_bound 4 _ b (le_of _ _ L)) as B. change (2 ^ (8 * Z.of_nat 4))%Z with 4294967296%Z in B. lia. Qed.
Lemma outpoint_strict : strict outpoint_de.
Proof.
  intros s e H. unfold outpoint_de in H. risk H (ser_read_strict 32). risk H (ser_read_strict 4). apply read_fixed in E, E0; [|lia|lia]. destruct E as [_ L], E0 as [_ L0].
  unfold outpoint_new, blen in H. rewrite L in H. cbn in H. pose proof (le_dec_4 _ L0). destruct (_ && _) eqn:Q in H; [discriminate|lia].
Qed.
Lemma txin_strict : strict txin_de.
Proof.
  intros s e H. unfold txin_de in H. risk H outpoint_strict. risk H varstring_strict. risk H (ser_read_strict 4). apply read_fixed in E1; [|lia]. destruct E1 as [_ L].
  unfold txin_new in H. pose proof (le_dec_4 _ L). destruct (_ && _) eqn:Q in H; [discriminate|lia].
Qed.
Lemma txout_strict : strict txout_de.
Proof. intros s e H. unfold txout_de in H. risk H (ser_read_strict 8). risk H varstring_strict. discriminate. Qed.
Lemma tx_strict : strict tx_de.
Proof.
  intros s e H. unfold tx_de in H. risk H (ser_read_strict 4). risk H (vector_strict _ _ txin_reads txin_text_nonempty txin_strict). risk H (vector_strict _ _ txout_reads txout_text_nonempty txout_strict).
  risk H (ser_read_strict 4). apply read_fixed in E2; [|lia]. destruct E2 as [_ L]. unfold tx_new in H. pose proof (le_dec_4 _ L). destruct (_ && _) eqn:Q in H; [discriminate|lia].
Qed.
Lemma header_strict : strict header_de.
Proof.
  intros s e H. unfold header_de in H. risk H (ser_read_strict 4). risk H (ser_read_strict 32). risk H (ser_read_strict 32). risk H (ser_read_strict 4). risk H (ser_read_strict 4). risk H (ser_read_strict 4).
  apply read_fixed in E0, E1; [|lia|lia]. destruct E0 as [_ L], E1 as [_ L0]. unfold header_new, assert, blen in H. rewrite L, L0 in H. discriminate H.
Qed.
Lemma block_strict : strict block_de.
Proof.
  intros s e H. unfold block_de in H. risk H header_strict. risk H (vector_strict _ _ tx_reads tx_nonempty tx_strict). destruct (txs_hash _ _ _ E0) as [t T]. rewrite T in H. discriminate H.
Qed.
Lemma wrap_strict {A} (mk : A -> msg) f : strict f -> strict (wrap mk f).
Proof. intros S s e H. unfold wrap in H. risk H S. discriminate. Qed.

Lemma map_strict : Forall (fun e => strict (snd e)) messagemap.
Proof.
  unfold messagemap. repeat apply Forall_cons; [..|apply Forall_nil]; cbn [snd]; try (intros s e H; discriminate H); apply wrap_strict.
  - exact version_strict.
  - exact (vector_strict _ _ (address_reads true) (address_nonempty true) (address_strict false)).
  - exact alert_strict.
  - exact (vector_strict _ _ inv_reads inv_nonempty inv_strict).
  - exact (vector_strict _ _ inv_reads inv_nonempty inv_strict).
  - exact locate_strict.
  - exact locate_strict.
  - exact (vector_strict _ _ block_reads block_nonempty block_strict).
  - exact tx_strict.
  - exact block_strict.
  - exact nonce_strict.
  - exact nonce_strict.
Qed.

Lemma stream_errors c s e : stream_deserialize c s = Err e ->
  e = ValueError \/ e = UnicodeDecodeError \/ e = SerializationError \/ e = SerializationTruncationError.
Proof.
  rewrite stream_eq. unfold open_frame. intros H.
  destruct (ser_read 24 s) as [[hdr s1]|] eqn:E; cbn [bind] in H.
  2: { inversion H; subst. apply ser_read_strict in E. destruct E; auto. }
  destruct (negb _); [inversion H; auto|]. cbv zeta in H. destruct (ser_read_int _ s1) as [[more rest]|] eqn:R; cbn [bind] in H.
  2: { inversion H; subst. unfold ser_read_int in R. destruct (_ <? 0)%Z; [discriminate|]. apply ser_read_strict in R. destruct R; auto. }
  destruct (negb _) in H; cbn [bind fst snd] in H; [inversion H; auto|]. destruct (decode _ _) as [x|] eqn:D; cbn [bind] in H; [discriminate|]. inversion H; subst.
  unfold decode in D. destruct (lookup _) as [f|] eqn:L.
  - destruct (f _) as [[m r]|] eqn:F; cbn [bind] in D; [discriminate|]. inversion D; subst. unfold lookup in L. destruct (find _ messagemap) as [en|] eqn:N; [|discriminate]. inversion L; subst.
    apply find_some in N. destruct N as [I _]. pose proof map_strict as M. rewrite Forall_forall in M. apply (M _ I) in F. destruct F; auto.
  - destruct (forallb _ _); [discriminate|]. inversion D. auto.
Qed.

(** ** Equality of messages *)

Lemma eq_kinds other m1 m2 : kind m1 <> kind m2 -> msg_eq other m1 m2 = Ok false.
Proof.
  intros N. unfold msg_eq. rewrite !kind_command. destruct (bytes_eqb _ _) eqn:E; [|reflexivity]. apply bytes_eqb_eq, str_inj in E. contradiction.
Qed.
Lemma eq_faithful other m1 m2 s1 s2 : to_bytes other Mainnet m1 = Ok s1 -> to_bytes other Mainnet m2 = Ok s2 ->
  faithful m1 -> faithful m2 -> (blen s1 <= 24 + 0x02000000)%N -> (blen s2 <= 24 + 0x02000000)%N ->
  exists b, msg_eq other m1 m2 = Ok b /\ (b = true <-> m1 = m2).
Proof.
  intros H1 H2 F1 F2 L1 L2. unfold msg_eq, msg_serialize. rewrite H1, H2. cbn [bind]. destruct (bytes_eqb (command m1) (command m2)) eqn:E.
  - exists (bytes_eqb s1 s2). split; [reflexivity|]. rewrite bytes_eqb_eq. split; [|intros ->; congruence]. intros <-.
    pose proof (proj2 (round_trip _ _ _ _ H1 L1) F1 []) as R1. pose proof (proj2 (round_trip _ _ _ _ H2 L2) F2 []) as R2. rewrite R1 in R2. inversion R2. reflexivity.
  - exists false. split; [reflexivity|]. split; [discriminate|]. intros ->. rewrite bytes_eqb_refl in E. discriminate.
Qed.

(** ** Lists of hashes, lists of numbers *)

Lemma hashes_round_trip l b rest : uint256s_ser l = Ok b -> uint256s_de (b ++ rest) = Ok (l, rest).
Proof.
  intros H. apply hashes_reads. exists b. split; [reflexivity|]. unfold uint256s_ser, vector_ser in H. wrote H h Hh. wrote H r Hr. inversion H; subst. constructor; [apply varint_count, Hh|].
  clear -Hr. revert r Hr. induction l as [|a l IH]; intros r H; cbn [objs_ser] in H; [inversion H; constructor|]. wrote H x X. wrote H y Y. inversion H; subst. constructor; [|apply IH; reflexivity].
  unfold uint256_ser, assert, blen in X. destruct (_ =? 32)%N eqn:Q in X; [|discriminate]. inversion X; subst. split; [reflexivity|lia].
Qed.
Lemma hashes_written l : (exists b, uint256s_ser l = Ok b) <-> Forall (fun h => List.length h = 32) l /\ (Z.of_nat (List.length l) < 2 ^ 64)%Z.
Proof.
  unfold uint256s_ser, vector_ser. split.
  - intros [b H]. wrote H h Hh. wrote H r Hr. split; [|assert (exists b, varint_ser (Z.of_nat (List.length l)) = Ok b) as V by eauto; apply varint_ok in V; lia].
    clear -Hr. revert r Hr. induction l as [|a l IH]; intros r H; cbn [objs_ser] in H; [constructor|]. wrote H x X. wrote H y Y. constructor; [|eapply IH; reflexivity].
    unfold uint256_ser, assert, blen in X. destruct (_ =? 32)%N eqn:Q in X; [|discriminate]. lia.
  - intros [F L]. assert (0 <= Z.of_nat (List.length l) < 2 ^ 64)%Z as V by lia. apply varint_ok in V. destruct V as [h ->]. cbn [bind].
    assert (exists r, objs_ser uint256_ser l = Ok r) as [r ->]; [|eexists; reflexivity].
    clear -F. induction F as [|a l A F [r IH]]; [exists []; reflexivity|]. exists (a ++ r). cbn [objs_ser]. unfold uint256_ser at 1, assert, blen. rewrite A. cbn [bind N.of_nat Pos.of_succ_nat Pos.succ N.eqb Pos.eqb]. rewrite IH. reflexivity.
Qed.

Lemma raw_reads n : (0 < n <= 64)%N -> reads (ser_read n) (fun a b => b = a /\ List.length a = N.to_nat n).
Proof.
  intros N s a r. rewrite read_fixed by lia. split.
  - intros [-> L]. exists a. auto.
  - intros (b & -> & -> & L). auto.
Qed.
Lemma ints_lost l b rest : ints_ser l = Ok b -> ints_de (b ++ rest) = Ok (None, rest).
Proof.
  intros H. unfold ints_de. unfold ints_ser, vector_ser in H. wrote H h Hh. wrote H r Hr. inversion H; subst.
  assert (exists l', vector_de (ser_read 4) ((h ++ r) ++ rest) = Ok (l', rest)) as [l' ->]; [|reflexivity].
  assert (exists l', List.length l' = List.length l /\ each (fun a b => b = a /\ List.length a = N.to_nat 4) l' r) as (l' & L & E).
  { clear -Hr. revert r Hr. induction l as [|a l IH]; intros r H; cbn [objs_ser] in H; [inversion H; exists []; split; [reflexivity|constructor]|]. wrote H x X. wrote H y Y. inversion H; subst.
    destruct (IH _ eq_refl) as (l' & L & E). exists (x :: l'). split; [cbn; lia|]. constructor; [|exact E]. split; [reflexivity|]. apply pack_le_signed in X; [|lia]. exact (proj1 (proj1 X)). }
  exists l'. apply (counted_reads _ _ (raw_reads 4 ltac:(lia))).
  - intros a [<- L0]. discriminate L0.
  - exists (h ++ r). split; [reflexivity|]. constructor; [rewrite L; apply varint_count, Hh|exact E].
Qed.

(** ** Parts on their own *)

Lemma part_round_trip {A} (ser : A -> result bytes) de g ok : writes ser g ok -> reads de g -> (forall a b, g a b -> ok a) ->
  forall a b, ser a = Ok b -> (blen b <= MAX_SIZE)%N -> ((forall rest, de (b ++ rest) = Ok (a, rest)) <-> ok a).
Proof.
  intros [S T] R O a b H L. split.
  - intros D. specialize (D []). apply R in D. destruct D as (b' & _ & G). exact (O _ _ G).
  - intros K rest. apply R. exists b. split; [reflexivity|]. apply S; assumption.
Qed.
