(** Properties C97-C108: network messages. *)
From Verif Require Import Sha256 Tx_Proofs.
From Verif Require Import Base Sha256 Tx_Model Block_Model Net_Model Grammar_Spec Net_Spec Net_Proofs NetFrame_Proofs NetMain_Proofs NetErr_Proofs.
Local Open Scope string_scope.
Local Open Scope list_scope.
Local Open Scope Z_scope.

(** The C library knows no other texts, for the examples. *)
Definition no_other (_ : string) : option bytes := None.

(** A version message seen on the network in 2012. *)
Definition nowhere : address := mkAddress 60002 0 1 (repeat x00 10 ++ repeat xff 2) "0.0.0.0" 0.
Definition satoshi072 : msg := MVersion (mkVersion 60002 1 1355854353 nowhere (Some nowhere) (Some 7284544412836900411) (Some (str "/Satoshi:0.7.2/")) (Some 212672)).
Definition satoshi072_bytes : bytes := hex "f9beb4d976657273696f6e0000000000640000003b648d5a62ea0000010000000000000011b2d05000000000010000000000000000000000000000000000ffff000000000000010000000000000000000000000000000000ffff0000000000003b2eb35d8ce617650f2f5361746f7368693a302e372e322fc03e0300".
(** Addresses of peers, and what was written for them. *)
Definition peer : address := mkAddress 60002 1292899810 1 (repeat x00 10 ++ repeat xff 2) "10.0.0.1" 8333.
Definition peers : msg := MAddr [peer; mkAddress 60002 0 1 (repeat x00 10 ++ repeat xff 2) "255.199.20.0" 18333].

(** Decided instances of the specification. *)
Lemma version_faithful : faithful satoshi072.
Proof. cbn [faithful satoshi072]. repeat split; try discriminate; [exists [x00; x00; x00; x00]; exact (quad_intro x00 x00 x00 x00)|]. exists nowhere. repeat split. exists [x00; x00; x00; x00]. exact (quad_intro x00 x00 x00 x00). Qed.
Lemma peers_faithful : faithful peers.
Proof.
  repeat constructor; try discriminate.
  - exists [x0a; x00; x00; x01]. exact (quad_intro x0a x00 x00 x01).
  - exists [xff; xc7; x14; x00]. exact (quad_intro xff xc7 x14 x00).
Qed.

(** ** C97: what is sent *)

(** The frame: network, name, length, checksum, body. *)
Theorem C97_frame : forall other c m s, to_bytes other c m = Ok s <-> exists body, msg_ser other m = Ok body /\ frame c (kind m) body s.
Proof. exact sent. Qed.
Print Assumptions C97_frame.

(** The body is a text of the message, and there is no shorter one. *)
Theorem C97_body : forall other c m s, to_bytes other c m = Ok s -> faithful m -> (blen s <= 24 + 0x02000000)%N ->
  exists body, frame c (kind m) body s /\ body_bytes m body /\ forall b', body_bytes m b' -> (List.length body <= List.length b')%nat.
Proof. exact sent_text. Qed.
Print Assumptions C97_body.

(** A message can be sent exactly when its attributes can be expressed. *)
Theorem C97_sendable : forall other c m, faithful m ->
  ((exists s, to_bytes other c m = Ok s /\ (blen s <= 24 + 0x02000000)%N) <-> exists b, body_bytes m b /\ (blen b <= 0x02000000)%N).
Proof. exact sendable. Qed.
Print Assumptions C97_sendable.

Example C97_instance : faithful satoshi072 /\ to_bytes no_other Mainnet satoshi072 = Ok satoshi072_bytes /\
  faithful peers /\ exists s, to_bytes no_other Testnet peers = Ok s /\ (blen s <= 24 + 0x02000000)%N.
Proof.
  split; [exact version_faithful|]. split; [vm_compute; reflexivity|]. split; [exact peers_faithful|].
  eexists. split; [vm_compute; reflexivity|]. vm_compute. discriminate.
Qed.

(** ** C98: what is sent arrives *)

Theorem C98_round_trip : forall other c m s, to_bytes other c m = Ok s -> (blen s <= 24 + 0x02000000)%N ->
  ((forall rest, stream_deserialize c (s ++ rest) = Ok (Some m, rest)) <-> faithful m).
Proof. exact round_trip. Qed.
Print Assumptions C98_round_trip.

Theorem C98_from_bytes : forall other m s, to_bytes other Mainnet m = Ok s -> (blen s <= 24 + 0x02000000)%N -> faithful m ->
  from_bytes s = Ok (Some m) /\ msg_deserialize s = Ok (Some m).
Proof.
  intros other m s H L F. pose proof (proj2 (round_trip _ _ _ _ H L) F []) as R. rewrite app_nil_r in R.
  unfold from_bytes, msg_deserialize, bdeserialize. rewrite R. split; reflexivity.
Qed.
Print Assumptions C98_from_bytes.

(** Messages sent one after the other are received one after the other. *)
Theorem C98_streams : forall other c ms s rest, send other c ms = Ok s -> Forall faithful ms ->
  Forall (fun m => forall b, to_bytes other c m = Ok b -> (blen b <= 24 + 0x02000000)%N) ms ->
  receive c (List.length ms) (s ++ rest) = Ok (map Some ms, rest).
Proof. exact streams. Qed.
Print Assumptions C98_streams.

(** Messages over 32 MiB are sent, but refused by the receiver. *)
Theorem C98_too_long : forall other c m s rest, to_bytes other c m = Ok s -> (24 + 0x02000000 < blen s < 24 + 2 ^ 31)%N ->
  stream_deserialize c (s ++ rest) = Err SerializationError.
Proof. exact too_long. Qed.
Print Assumptions C98_too_long.

(** An alert of a little more than 32 MiB. *)
Lemma long_alert k : (65535 < k < 2 ^ 31 - 6)%N -> exists s, to_bytes no_other Mainnet (MAlert (mkAlert (repeat x41 (N.to_nat k)) [])) = Ok s /\
  blen s = (24 + (k + 6))%N.
Proof.
  intros H. assert (L : blen (repeat x41 (N.to_nat k)) = k) by (unfold blen; rewrite repeat_length; lia).
  remember (repeat x41 (N.to_nat k)) as b eqn:Eb. clear Eb.
  assert (A : msg_ser no_other (MAlert (mkAlert b [])) = Ok ((xfe :: le_enc 4 k) ++ b ++ [x00])).
  { unfold msg_ser, alert_ser, varstring_ser. cbn [al_vchMsg al_vchSig]. rewrite L. unfold varint_ser at 1.
    replace (Z.of_N k <? 0)%Z with false by lia. replace (Z.of_N k <? 253)%Z with false by lia.
    replace (Z.of_N k <=? 65535)%Z with false by lia. replace (Z.of_N k <=? 4294967295)%Z with true by lia.
    destruct (pack_u_ok 4 (Z.of_N k) ltac:(change (2 ^ (8 * Z.of_nat 4)) with 4294967296; lia)) as [E _]. rewrite E, N2Z.id. cbn [bind].
    change (varint_ser (Z.of_N (blen []))) with (Ok [x00]). cbn [bind]. rewrite <- app_assoc. reflexivity. }
  assert (B : blen ((xfe :: le_enc 4 k) ++ b ++ [x00]) = (k + 6)%N).
  { unfold blen in *. rewrite !app_length. cbn [List.length]. rewrite le_enc_length. lia. }
  unfold to_bytes. rewrite A. cbn [bind]. rewrite B.
  destruct (pack_u_ok 4 (Z.of_N (k + 6)) ltac:(change (2 ^ (8 * Z.of_nat 4)) with 4294967296; lia)) as [E _]. rewrite E. cbn [bind]. eexists. split; [reflexivity|].
  assert (Q : forall x : bytes, List.length (firstn 4 (Hash x)) = 4%nat).
  { intros x. rewrite firstn_length. unfold Hash. rewrite sha256_length. reflexivity. }
  unfold blen in *. rewrite !app_length in *. rewrite le_enc_length, Q. cbn [command MESSAGE_START] in *.
  change (List.length (command (MAlert (mkAlert b [])))) with 5%nat. cbn [List.length repeat Nat.sub] in *. rewrite ?repeat_length.
  change (List.length (hex "f9beb4d9")) with 4%nat. change (List.length (str "alert")) with 5%nat. cbv iota. lia.
Qed.
Example C98_too_long_instance : exists m s, to_bytes no_other Mainnet m = Ok s /\ (24 + 0x02000000 < blen s < 24 + 2 ^ 31)%N.
Proof. destruct (long_alert 0x02000000 ltac:(lia)) as (s & E & L). eexists _, s. split; [exact E|]. rewrite L. lia. Qed.

Example C98_instance : from_bytes satoshi072_bytes = Ok (Some satoshi072) /\
  exists s, send no_other Regtest [MVerack; peers; MPing 7] = Ok s /\ receive Regtest 3 (s ++ [x01]) = Ok ([Some MVerack; Some peers; Some (MPing 7)], [x01]).
Proof. split; [vm_compute; reflexivity|]. eexists. split; [vm_compute; reflexivity|]. vm_compute. reflexivity. Qed.
(** A message with an attribute that is not sent does not come back the same. *)
Example C98_unfaithful : let m := MVersion (mkVersion 60002 1 1355854353 peer (Some nowhere) (Some 0) (Some []) (Some 0)) in
  ~ faithful m /\ exists s m', to_bytes no_other Mainnet m = Ok s /\ from_bytes s = Ok (Some m') /\ m' <> m.
Proof.
  split.
  - intros (_ & _ & (_ & T & _) & _). specialize (T eq_refl). discriminate T.
  - eexists; eexists. split; [vm_compute; reflexivity|]. split; [vm_compute; reflexivity|]. discriminate.
Qed.

(** ** C99: what is accepted *)

Theorem C99_accepted : forall c s m rest, stream_deserialize c s = Ok (Some m, rest) <->
  exists body b junk, received c (str (kind m)) body s rest /\ body = b ++ junk /\ body_bytes m b.
Proof. exact accepts. Qed.
Print Assumptions C99_accepted.

(** None is returned exactly for well-framed messages of an unknown kind. *)
Theorem C99_unknown : forall c s rest, stream_deserialize c s = Ok (None, rest) <->
  exists cmd body, received c cmd body s rest /\ ~ In cmd (map str known) /\ ascii_only cmd.
Proof. exact ignores. Qed.
Print Assumptions C99_unknown.

Theorem C99_from_bytes : forall s x, from_bytes s = Ok x <-> exists rest, stream_deserialize Mainnet s = Ok (x, rest).
Proof. exact from_bytes_iff. Qed.
Print Assumptions C99_from_bytes.

(** A frame is opened in one way only. *)
Theorem C99_unique : forall c s c1 b1 r1 c2 b2 r2, received c c1 b1 s r1 -> received c c2 b2 s r2 -> c1 = c2 /\ b1 = b2 /\ r1 = r2.
Proof. exact received_unique. Qed.
Print Assumptions C99_unique.

Example C99_instance : received Mainnet (str "ping") [x07; x00; x00; x00; x00; x00; x00; x00; xaa]
    (hex "f9beb4d970696e6700ffffffffffffff09000000" ++ checksum [x07; x00; x00; x00; x00; x00; x00; x00; xaa] ++ [x07; x00; x00; x00; x00; x00; x00; x00; xaa; xbb]) [xbb] /\
  from_bytes (hex "f9beb4d970696e6700ffffffffffffff09000000" ++ checksum [x07; x00; x00; x00; x00; x00; x00; x00; xaa] ++ [x07; x00; x00; x00; x00; x00; x00; x00; xaa; xbb]) = Ok (Some (MPing 7)) /\
  from_bytes (hex "f9beb4d9666f6f00000000000000000000000000" ++ checksum []) = Ok None.
Proof.
  split; [|split; vm_compute; reflexivity].
  apply (received_intro Mainnet (str "ping") [x07; x00; x00; x00; x00; x00; x00; x00; xaa] (hex "70696e6700ffffffffffffff") (hex "09000000") 9 [x07; x00; x00; x00; x00; x00; x00; x00; xaa; xbb]).
  - split; [apply (kind_nozero (MPing 0))|]. split; [reflexivity|]. right. exists (repeat xff 7). reflexivity.
  - split; [split; reflexivity|split; [discriminate|reflexivity]].
  - apply (covers_exact 9 [x07; x00; x00; x00; x00; x00; x00; x00; xaa] [xbb]); [reflexivity|discriminate].
Qed.

(** ** C100: one message, one form *)

(** The full statement, [from_bytes s = Ok (Some m) -> to_bytes other Mainnet m = Ok s], fails: bytes after the end of the body,
    bytes after the zero that ends the name, and bytes after the message are not looked at. *)
Theorem C100_one_form_refuted : exists s1 s2 s3 m, from_bytes s1 = Ok (Some m) /\ from_bytes s2 = Ok (Some m) /\ from_bytes s3 = Ok (Some m) /\
  forall other, exists s, to_bytes other Mainnet m = Ok s /\ s <> s1 /\ s <> s2 /\ s <> s3 /\ from_bytes s = Ok (Some m).
Proof.
  exists (hex "f9beb4d976657261636b000000000000" ++ [x01; x00; x00; x00] ++ checksum [xaa] ++ [xaa]), (hex "f9beb4d976657261636b00616263646500000000" ++ checksum []),
    (hex "f9beb4d976657261636b00000000000000000000" ++ checksum [] ++ [xaa]), MVerack.
  split; [vm_compute; reflexivity|]. split; [vm_compute; reflexivity|]. split; [vm_compute; reflexivity|]. intros other. eexists. split; [vm_compute; reflexivity|].
  repeat (split; [vm_compute; discriminate|]). vm_compute. reflexivity.
Qed.
Print Assumptions C100_one_form_refuted.

(** What does hold: sending it again gives a form that is not longer and means the same, also on another network. *)
Theorem C100_one_form_partial : forall other c c' s m rest, stream_deserialize c s = Ok (Some m, rest) -> current m -> (blen s <= 24 + 0x02000000)%N ->
  exists s', to_bytes other c' m = Ok s' /\ (blen s' <= blen s)%N /\ forall rest', stream_deserialize c' (s' ++ rest') = Ok (Some m, rest').
Proof. exact resend_shorter. Qed.
Print Assumptions C100_one_form_partial.

Example C100_instance : from_bytes (satoshi072_bytes ++ [x00]) = Ok (Some satoshi072) /\ current satoshi072 /\ (blen satoshi072_bytes <= 24 + 0x02000000)%N.
Proof. split; [vm_compute; reflexivity|]. split; [vm_compute; discriminate|]. vm_compute. discriminate. Qed.

(** ** C101: how much is taken from the stream *)

(** The full statement, that no more is taken than 24 bytes and the announced length, at most 32 MiB, fails: with the length -1
    all that follows is taken and dropped. *)
Theorem C101_takes_refuted : forall c, exists header, List.length header = 24%nat /\
  forall junk, stream_deserialize c (header ++ junk) = Ok (Some MVerack, []).
Proof.
  intros c. exists (swallow c). split; [|exact (swallows c)]. unfold swallow. rewrite !app_length, magic_len, checksum_len, !repeat_length. reflexivity.
Qed.
Print Assumptions C101_takes_refuted.

(** With a length that is not negative it holds. *)
Theorem C101_takes_partial : forall c s x rest len, stream_deserialize c s = Ok (x, rest) -> firstn 4 (skipn 16 s) = len -> 0 <= unpack_s 4 len ->
  exists used, s = used ++ rest /\ Z.of_N (blen used) = 24 + unpack_s 4 len /\ unpack_s 4 len <= 0x02000000 /\
  forall rest', stream_deserialize c (used ++ rest') = Ok (x, rest').
Proof. exact takes. Qed.
Print Assumptions C101_takes_partial.

Example C101_instance : stream_deserialize Mainnet (satoshi072_bytes ++ [x01; x02]) = Ok (Some satoshi072, [x01; x02]) /\
  unpack_s 4 (firstn 4 (skipn 16 (satoshi072_bytes ++ [x01; x02]))) = 100.
Proof. split; vm_compute; reflexivity. Qed.

(** ** C102: what was received can be sent *)

Definition old_version : bytes := hex "f9beb4d976657273696f6e00000000002e000000" ++
  checksum (hex "69000000010000000000000011b2d05000000000010000000000000000000000000000000000ffff000000000000") ++
  hex "69000000010000000000000011b2d05000000000010000000000000000000000000000000000ffff000000000000".

(** The full statement fails for version messages of old peers. *)
Theorem C102_resend_refuted : exists s m, from_bytes s = Ok (Some m) /\ forall other c, to_bytes other c m = Err AttributeError.
Proof.
  exists old_version. eexists. split; [vm_compute; reflexivity|]. intros other [| |]; vm_compute; reflexivity.
Qed.
Print Assumptions C102_resend_refuted.

(** Those are the only ones. *)
Theorem C102_resend_partial : forall other c c' s m rest, stream_deserialize c s = Ok (Some m, rest) -> (blen s < 2 ^ 32)%N ->
  ((exists s', to_bytes other c' m = Ok s') <-> current m).
Proof. exact resend. Qed.
Print Assumptions C102_resend_partial.

Theorem C102_old : forall other c c' s v rest, stream_deserialize c s = Ok (Some (MVersion v), rest) -> n_nVersion v < 209 ->
  to_bytes other c' (MVersion v) = Err (if n_nVersion v <? 106 then AttributeError else StructError).
Proof. exact resend_old. Qed.
Print Assumptions C102_old.

Example C102_old_instance : exists v, stream_deserialize Mainnet old_version = Ok (Some (MVersion v), []) /\ n_nVersion v < 106 /\
  to_bytes no_other Mainnet (MVersion v) = Err AttributeError.
Proof. eexists. split; [vm_compute; reflexivity|]. split; [vm_compute; reflexivity|]. vm_compute. reflexivity. Qed.

Example C102_instance : exists v, from_bytes old_version = Ok (Some (MVersion v)) /\ n_nVersion v = 105 /\ (blen old_version < 2 ^ 32)%N.
Proof. eexists. split; [vm_compute; reflexivity|]. split; vm_compute; reflexivity. Qed.

(** ** C103: networks are kept apart *)

Theorem C103_other_network : forall other c c' m s rest, to_bytes other c m = Ok s -> c' <> c -> stream_deserialize c' (s ++ rest) = Err ValueError.
Proof. exact other_network. Qed.
Print Assumptions C103_other_network.

(** from_bytes, deserialize and serialize always mean the main network. *)
Theorem C103_main_only : forall other c m s, to_bytes other c m = Ok s -> c <> Mainnet ->
  from_bytes s = Err ValueError /\ msg_deserialize s = Err ValueError /\ exists s', msg_serialize other m = Ok s' /\ s' <> s /\ skipn 4 s' = skipn 4 s.
Proof.
  intros other c m s H N. assert (N' : Mainnet <> c) by (intros E; apply N; symmetry; exact E). pose proof (other_network other c Mainnet m s [] H N') as R. rewrite app_nil_r in R.
  split; [unfold from_bytes; rewrite R; reflexivity|]. split; [unfold msg_deserialize, bdeserialize; rewrite R; reflexivity|].
  apply sent in H. destruct H as (body & B & [zeros len L Z Lb]). exists (magic Mainnet ++ str (kind m) ++ zeros ++ len ++ checksum body ++ body). split.
  - apply sent. exists body. split; [exact B|]. constructor; assumption.
  - split.
    + intros E. apply (f_equal (firstn 4)) in E. destruct (app_split (magic Mainnet) (str (kind m) ++ zeros ++ len ++ checksum body ++ body) 4 (magic_len _)) as [E1 _].
      destruct (app_split (magic c) (str (kind m) ++ zeros ++ len ++ checksum body ++ body) 4 (magic_len _)) as [E2 _]. rewrite E1, E2 in E. apply magic_inj in E. exact (N' E).
    + destruct (app_split (magic Mainnet) (str (kind m) ++ zeros ++ len ++ checksum body ++ body) 4 (magic_len _)) as [_ ->].
      destruct (app_split (magic c) (str (kind m) ++ zeros ++ len ++ checksum body ++ body) 4 (magic_len _)) as [_ ->]. reflexivity.
Qed.
Print Assumptions C103_main_only.

Example C103_instance : exists s, to_bytes no_other Testnet peers = Ok s /\ stream_deserialize Testnet s = Ok (Some peers, []) /\ from_bytes s = Err ValueError.
Proof. eexists. split; [vm_compute; reflexivity|]. split; vm_compute; reflexivity. Qed.

(** ** C104: damaged messages *)

(** A header whose checksum is not that of the body is refused, whatever else it says; so an altered body, or an altered checksum,
    is noticed unless the first four bytes of the double SHA-256 of what arrives agree by chance. *)
Theorem C104_checksum : forall c field len sum body rest, List.length field = 12%nat -> le 4 (Z.of_N (blen body)) len -> List.length sum = 4%nat -> (blen body <= 0x02000000)%N ->
  sum <> checksum body -> stream_deserialize c (magic c ++ field ++ len ++ sum ++ body ++ rest) = Err ValueError.
Proof. exact bad_checksum. Qed.
Print Assumptions C104_checksum.

Example C104_instance : List.length (hex "70696e670000000000000000") = 12%nat /\ le 4 8 (hex "08000000") /\ checksum (repeat x00 8) <> checksum (repeat x00 7 ++ [x01]).
Proof. split; [reflexivity|]. split; [split; reflexivity|]. vm_compute. discriminate. Qed.

(** ** C105: what reading can raise *)

Theorem C105_errors : forall c s e, stream_deserialize c s = Err e ->
  e = ValueError \/ e = UnicodeDecodeError \/ e = SerializationError \/ e = SerializationTruncationError.
Proof. exact stream_errors. Qed.
Print Assumptions C105_errors.

Theorem C105_from_bytes : forall s e, from_bytes s = Err e ->
  e = ValueError \/ e = UnicodeDecodeError \/ e = SerializationError \/ e = SerializationTruncationError.
Proof.
  intros s e H. unfold from_bytes in H. destruct (stream_deserialize Mainnet s) as [[m r]|e'] eqn:E; cbn [bind] in H; [discriminate|]. inversion H; subst. exact (stream_errors _ _ _ E).
Qed.
Print Assumptions C105_from_bytes.

(** All four occur. *)
Example C105_instance : from_bytes (repeat x00 24) = Err ValueError /\
  from_bytes (hex "f9beb4d9ff0000000000000000000000" ++ [x00; x00; x00; x00] ++ checksum []) = Err UnicodeDecodeError /\
  from_bytes (hex "f9beb4d976657261636b00000000000001000002" ++ checksum []) = Err SerializationError /\
  from_bytes (hex "f9beb4d976657261636b00000000000001000000" ++ checksum []) = Err SerializationTruncationError.
Proof. repeat split; vm_compute; reflexivity. Qed.

(** ** C106: the contents of alerts *)

(** The full statement, that they can be written and read, fails always: the code uses names that do not exist. *)
Theorem C106_alerts_refuted : (forall u b, ualert_ser u <> Ok b) /\ (forall s u r, ualert_de s <> Ok (u, r)).
Proof.
  split.
  - intros u b. unfold ualert_ser. do 5 (destruct (pack_s _ _) as [?|]; [|discriminate]; cbn [bind]). discriminate.
  - intros s u r. unfold ualert_de. do 5 (destruct (ser_read _ _) as [[? ?]|]; [|discriminate]; cbn [bind]). discriminate.
Qed.
Print Assumptions C106_alerts_refuted.

(** So is a list of numbers: it is written, but reading gives None. *)
Theorem C106_numbers_refuted : forall l b rest, ints_ser l = Ok b -> ints_de (b ++ rest) = Ok (None, rest).
Proof. exact ints_lost. Qed.
Print Assumptions C106_numbers_refuted.

(** The alert itself, which holds these contents as bytes and a signature, is written and read. *)
Theorem C106_envelope_partial : forall a b, alert_ser a = Ok b -> (blen b <= 0x02000000)%N -> forall rest, alert_de (b ++ rest) = Ok (a, rest).
Proof. intros a b H L. apply (part_round_trip _ _ _ _ alert_writes alert_reads); [intros; exact I|exact H|exact L|exact I]. Qed.
Print Assumptions C106_envelope_partial.

Example C106_instance : ualert_ser (mkUalert 1 0 0 0 0) = Err NameError /\ (exists b, ints_ser [1; -2] = Ok b /\ b = hex "0201000000feffffff") /\
  alert_ser (mkAlert [x01; x02] [x03]) = Ok [x02; x01; x02; x01; x03].
Proof. split; [vm_compute; reflexivity|]. split; [eexists; split; vm_compute; reflexivity|]. vm_compute. reflexivity. Qed.

(** ** C107: parts of messages on their own *)

Theorem C107_address : forall other a b, address_ser other false a = Ok b -> (blen b <= 0x02000000)%N ->
  ((forall rest, address_de false (b ++ rest) = Ok (a, rest)) <-> standard true a /\ exists i, quad (a_ip a) i).
Proof. intros other. exact (part_round_trip _ _ _ _ (address_writes other true) (address_reads true) (address_ok true)). Qed.
Print Assumptions C107_address.

Theorem C107_address_text : forall timed s a rest, address_de (negb timed) s = Ok (a, rest) <-> exists b, s = b ++ rest /\ standard timed a /\ address_text timed a b.
Proof. exact address_reads. Qed.
Print Assumptions C107_address_text.

Theorem C107_inv : forall v b, inv_ser v = Ok b -> (blen b <= 0x02000000)%N -> ((forall rest, inv_de (b ++ rest) = Ok (v, rest)) <-> List.length (v_hash v) = 32%nat).
Proof. refine (part_round_trip _ _ _ _ inv_writes inv_reads _). intros a b [t _ L]. exact L. Qed.
Print Assumptions C107_inv.

Example C107_inv_instance : inv_ser (mkInv 2 (repeat x07 32)) = Ok (hex "02000000" ++ repeat x07 32) /\
  inv_de (hex "02000000" ++ repeat x07 32 ++ [xaa]) = Ok (mkInv 2 (repeat x07 32), [xaa]).
Proof. split; reflexivity. Qed.

Theorem C107_locator : forall l b, locator_ser l = Ok b -> (blen b <= 0x02000000)%N -> forall rest, locator_de (b ++ rest) = Ok (l, rest).
Proof. intros l b H L. apply (part_round_trip _ _ _ _ locator_writes locator_reads); [intros; exact I|exact H|exact L|exact I]. Qed.
Print Assumptions C107_locator.

Theorem C107_hashes : forall l, (exists b, uint256s_ser l = Ok b) <-> Forall (fun h => List.length h = 32%nat) l /\ Z.of_nat (List.length l) < 2 ^ 64.
Proof. exact hashes_written. Qed.
Print Assumptions C107_hashes.

Example C107_hashes_instance : uint256s_ser [repeat x07 32; repeat x08 32] = Ok (x02 :: repeat x07 32 ++ repeat x08 32) /\
  is_ok (uint256s_ser [repeat x07 31]) = false.
Proof. split; vm_compute; reflexivity. Qed.
Theorem C107_hashes_back : forall l b rest, uint256s_ser l = Ok b -> uint256s_de (b ++ rest) = Ok (l, rest).
Proof. exact hashes_round_trip. Qed.
Print Assumptions C107_hashes_back.

Example C107_instance : address_ser no_other false peer = Ok (hex "e215104d010000000000000000000000000000000000ffff0a000001208d") /\
  (standard true peer /\ exists i, quad (a_ip peer) i) /\ exists b, locator_ser (mkLocator 60002 [repeat x07 32; repeat x08 32]) = Ok b /\ (blen b <= 0x02000000)%N.
Proof.
  split; [vm_compute; reflexivity|]. split; [pose proof peers_faithful as F; inversion F; assumption|].
  eexists. split; [vm_compute; reflexivity|]. vm_compute. discriminate.
Qed.

(** ** C108: comparing messages *)

Theorem C108_equal : forall other m1 m2 s1 s2, to_bytes other Mainnet m1 = Ok s1 -> to_bytes other Mainnet m2 = Ok s2 ->
  faithful m1 -> faithful m2 -> (blen s1 <= 24 + 0x02000000)%N -> (blen s2 <= 24 + 0x02000000)%N ->
  exists b, msg_eq other m1 m2 = Ok b /\ (b = true <-> m1 = m2).
Proof. exact eq_faithful. Qed.
Print Assumptions C108_equal.

Theorem C108_kinds : forall other m1 m2, kind m1 <> kind m2 -> msg_eq other m1 m2 = Ok false.
Proof. exact eq_kinds. Qed.
Print Assumptions C108_kinds.

(** GetHash() of messages: never the same for two messages, unless the double sha256 of what is sent for them collides. *)
Theorem C108_hash : forall other m1 m2 s1 s2, to_bytes other Mainnet m1 = Ok s1 -> to_bytes other Mainnet m2 = Ok s2 ->
  faithful m1 -> faithful m2 -> (blen s1 <= 24 + 0x02000000)%N -> (blen s2 <= 24 + 0x02000000)%N ->
  exists h1 h2, msg_GetHash other m1 = Ok h1 /\ msg_GetHash other m2 = Ok h2 /\ (m1 = m2 -> h1 = h2) /\ (h1 = h2 -> m1 = m2 \/ s1 <> s2 /\ Hash s1 = Hash s2).
Proof.
  intros other m1 m2 s1 s2 H1 H2 F1 F2 L1 L2. exists (Hash s1), (Hash s2). unfold msg_GetHash, msg_serialize. rewrite H1, H2. cbn [bind].
  split; [reflexivity|]. split; [reflexivity|]. split; [intros ->; congruence|]. intros E. destruct (list_eq_dec Byte.byte_eq_dec s1 s2) as [->|N]; [left|right; auto].
  pose proof (proj2 (round_trip _ _ _ _ H1 L1) F1 []) as R1. pose proof (proj2 (round_trip _ _ _ _ H2 L2) F2 []) as R2. rewrite R1 in R2. inversion R2. reflexivity.
Qed.
Print Assumptions C108_hash.
Example C108_hash_instance : exists s1 s2 h1 h2, to_bytes no_other Mainnet (MPing 1) = Ok s1 /\ to_bytes no_other Mainnet (MPong 1) = Ok s2 /\
  msg_GetHash no_other (MPing 1) = Ok h1 /\ msg_GetHash no_other (MPong 1) = Ok h2 /\ bytes_eqb h1 h2 = false /\ faithful (MPing 1) /\ faithful (MPong 1).
Proof.
  eexists _, _, _, _. split; [vm_compute; reflexivity|]. split; [vm_compute; reflexivity|]. split; [vm_compute; reflexivity|]. split; [vm_compute; reflexivity|].
  split; [vm_compute; reflexivity|]. split; exact Logic.I.
Qed.

Example C108_instance : msg_eq no_other peers peers = Ok true /\ msg_eq no_other (MPing 1) (MPing 2) = Ok false /\ msg_eq no_other (MPing 1) (MPong 1) = Ok false /\
  kind (MPing 1) <> kind (MPong 1).
Proof. repeat split; try (vm_compute; reflexivity). discriminate. Qed.
