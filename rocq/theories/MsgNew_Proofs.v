From Coq Require Import ZifyBool ZifyNat ZifyN.
From Verif Require Import Base Sha256 Serialize_Model Chain_Model Tx_Model Tx_Spec Tx_Proofs Block_Model Base58_Model Net_Model Net_Spec Net_Proofs NetMain_Proofs PyText_Spec PyText_Proofs Repr_Model Repr_Proofs MmrRepr_Proofs MsgRepr_Model MsgRepr_Spec MsgRepr_Proofs MsgNew_Model MsgNew_Spec.
Local Open Scope Z_scope.
Local Open Scope list_scope.

Lemma small_sent other net m body : msg_ser other m = Ok body -> (blen body <= 0x02000000)%N -> (List.length (command m) <= 12)%nat ->
  exists s, to_bytes other net m = Ok s /\ (blen s <= 24 + 0x02000000)%N.
Proof.
  intros B L C. unfold to_bytes. rewrite B. cbn [bind]. destruct (pack_u_ok 4 (Z.of_N (blen body))) as (P & _); [lia|]. rewrite P. cbn [bind]. eexists. split; [reflexivity|].
  unfold blen in *. rewrite !app_length, repeat_length, le_enc_length. pose proof (firstn_le_length 4 (Hash body)). assert (List.length (MESSAGE_START net) = 4%nat) by (destruct net; reflexivity). lia.
Qed.

Lemma version_body other p now random : - 2 ^ 31 <= p < 2 ^ 31 -> - 2 ^ 63 <= now < 2 ^ 63 -> 0 <= random < 2 ^ 64 ->
  exists b, msg_ser other (MVersion (version_new p now random)) = Ok b /\ (blen b <= 0x02000000)%N.
Proof.
  intros P N R. cbn [msg_ser]. unfold version_ser, version_new. cbn [n_nVersion n_nServices n_nTime n_addrTo n_addrFrom n_nNonce n_strSubVer n_nStartingHeight].
  destruct (pack_s_ok 4 p) as (b1 & -> & L1 & _); [lia|exact P|]. destruct (pack_s_ok 8 now) as (b2 & -> & L2 & _); [lia|exact N|]. destruct (pack_u_ok 8 random) as (-> & _); [exact R|].
  assert (exists b, pack_u 8 1 = Ok b /\ List.length b = 8%nat) as (b3 & -> & L3) by (eexists; split; vm_compute; reflexivity).
  assert (exists b, address_ser other true (address_new PROTO_VERSION) = Ok b /\ List.length b = 26%nat) as (b4 & -> & L4) by (eexists; split; [vm_compute; reflexivity|reflexivity]).
  assert (exists b, varstring_ser (str "/python-bitcoin-0.0.1/") = Ok b /\ List.length b = 23%nat) as (b5 & -> & L5) by (eexists; split; vm_compute; reflexivity).
  assert (exists b, pack_s 4 (-1) = Ok b /\ List.length b = 4%nat) as (b6 & -> & L6) by (eexists; split; vm_compute; reflexivity).
  cbn [bind]. eexists. split; [reflexivity|]. unfold blen. rewrite !app_length, L1, L2, L3, L4, L5, L6, le_enc_length. vm_compute. discriminate.
Qed.
Lemma nowhere_quad : exists i, quad (a_ip (address_new PROTO_VERSION)) i.
Proof. exists [x00; x00; x00; x00]. exact (quad_intro x00 x00 x00 x00). Qed.
Lemma nowhere_standard : standard false (address_new PROTO_VERSION).
Proof. split; [reflexivity|]. split; reflexivity. Qed.
Lemma version_faithful_iff p now random : faithful (MVersion (version_new p now random)) <-> 209 <= p /\ p <> 10300.
Proof.
  cbn [faithful version_new n_nVersion n_addrTo n_addrFrom]. split; [tauto|]. intros (A & B). split; [exact A|]. split; [exact B|]. split; [exact nowhere_standard|]. split; [exact nowhere_quad|].
  exists (address_new PROTO_VERSION). split; [reflexivity|]. split; [exact nowhere_standard|exact nowhere_quad].
Qed.

Lemma new_version other net p now random : - 2 ^ 31 <= p < 2 ^ 31 -> - 2 ^ 63 <= now < 2 ^ 63 -> 0 <= random < 2 ^ 64 ->
  exists m s, msg_new NewVersion p now random = Ok m /\ to_bytes other net m = Ok s /\
    ((forall rest, stream_deserialize net (s ++ rest) = Ok (Some m, rest)) <-> 209 <= p /\ p <> 10300).
Proof.
  intros P N R. destruct (version_body other p now random P N R) as (b & B & L). destruct (small_sent other net _ b B L) as (s & S & LS); [cbn; lia|].
  exists (MVersion (version_new p now random)), s. split; [reflexivity|]. split; [exact S|]. rewrite <- (version_faithful_iff p now random). exact (round_trip other net _ s S LS).
Qed.

Lemma new_sent other c net now random : whole c -> - 2 ^ 63 <= now < 2 ^ 63 -> 0 <= random < 2 ^ 64 ->
  exists m s, msg_new c PROTO_VERSION now random = Ok m /\ to_bytes other net m = Ok s /\ (forall rest, stream_deserialize net (s ++ rest) = Ok (Some m, rest)).
Proof.
  intros C N R.
  assert (G : forall m b, msg_ser other m = Ok b -> (blen b <= 0x02000000)%N -> (List.length (command m) <= 12)%nat -> faithful m ->
    exists s, to_bytes other net m = Ok s /\ (forall rest, stream_deserialize net (s ++ rest) = Ok (Some m, rest))).
  { intros m b B L K F. destruct (small_sent other net m b B L K) as (s & S & LS). exists s. split; [exact S|]. apply (round_trip other net m s S LS). exact F. }
  assert (G0 : forall m b, msg_ser other m = Ok b -> (blen b <= 0x02000000)%N -> (List.length (command m) <= 12)%nat -> faithful m -> msg_new c PROTO_VERSION now random = Ok m ->
    exists m s, msg_new c PROTO_VERSION now random = Ok m /\ to_bytes other net m = Ok s /\ (forall rest, stream_deserialize net (s ++ rest) = Ok (Some m, rest))).
  { intros m b B L K F E. destruct (G m b B L K F) as (s & S). exists m, s. split; [exact E|exact S]. }
  destruct c; cbn [whole] in C.
  - destruct (new_version other net PROTO_VERSION now random) as (m & s & E & S & X); [unfold PROTO_VERSION; lia|exact N|exact R|]. exists m, s. split; [exact E|]. split; [exact S|]. apply X. unfold PROTO_VERSION. lia.
  - eapply (G0 MVerack); [vm_compute; reflexivity|vm_compute; discriminate|cbn; lia|exact Logic.I|reflexivity].
  - eapply (G0 (MAddr [])); [vm_compute; reflexivity|vm_compute; discriminate|cbn; lia|constructor|reflexivity].
  - eapply (G0 (MAlert alert_new)); [vm_compute; reflexivity|vm_compute; discriminate|cbn; lia|exact Logic.I|reflexivity].
  - eapply (G0 (MInv [])); [vm_compute; reflexivity|vm_compute; discriminate|cbn; lia|constructor|reflexivity].
  - eapply (G0 (MGetData [])); [vm_compute; reflexivity|vm_compute; discriminate|cbn; lia|constructor|reflexivity].
  - eapply (G0 (MGetBlocks locator_new (repeat x00 32))); [vm_compute; reflexivity|vm_compute; discriminate|cbn; lia|reflexivity|reflexivity].
  - eapply (G0 (MGetHeaders locator_new (repeat x00 32))); [vm_compute; reflexivity|vm_compute; discriminate|cbn; lia|reflexivity|reflexivity].
  - eapply (G0 (MHeaders [])); [vm_compute; reflexivity|vm_compute; discriminate|cbn; lia|exact Logic.I|reflexivity].
  - eapply (G0 (MTx (mkTx [] [] 0 1))); [vm_compute; reflexivity|vm_compute; discriminate|cbn; lia|exact Logic.I|reflexivity].
  - eapply (G0 (MBlock (mkBlock (mkHeader 2 (repeat x00 32) (repeat x00 32) 0 0 0) []))); [vm_compute; reflexivity|vm_compute; discriminate|cbn; lia|exact Logic.I|vm_compute; reflexivity].
  - eapply (G0 MGetAddr); [vm_compute; reflexivity|vm_compute; discriminate|cbn; lia|exact Logic.I|reflexivity].
  - destruct (pack_u_ok 8 nonce) as (B & _); [exact C|]. eapply (G0 (MPing nonce)); [exact B|unfold blen; rewrite le_enc_length; vm_compute; discriminate|cbn; lia|exact Logic.I|reflexivity].
  - destruct (pack_u_ok 8 nonce) as (B & _); [exact C|]. eapply (G0 (MPong nonce)); [exact B|unfold blen; rewrite le_enc_length; vm_compute; discriminate|cbn; lia|exact Logic.I|reflexivity].
  - eapply (G0 MMempool); [vm_compute; reflexivity|vm_compute; discriminate|cbn; lia|exact Logic.I|reflexivity].
Qed.
Lemma new_messages other ctime c net now random d : whole c -> - 2 ^ 63 <= now < 2 ^ 63 -> 0 <= random < 2 ^ 64 -> ctime now = Ok d ->
  exists m s t, msg_new c PROTO_VERSION now random = Ok m /\ to_bytes other net m = Ok s /\
    (forall rest, stream_deserialize net (s ++ rest) = Ok (Some m, rest)) /\ msg_repr ctime m = Ok t.
Proof.
  intros C N R D. destruct (new_sent other c net now random C N R) as (m & s & E & S & X). pose proof (X []) as X0. rewrite app_nil_r in X0.
  destruct (proj2 (printed_iff ctime net s m [] X0)) as (t & Et).
  { destruct c; cbn in E; injection E as <-; cbn [can_print]; try exact Logic.I; try constructor. - unfold PROTO_VERSION. cbn. lia. - cbn. eauto. }
  exists m, s, t. auto.
Qed.

Lemma bytes_pasted pr b : python pr (bytes_repr b) = Some (Ok (VBytes b)).
Proof. unfold python. rewrite (read_expression _ _ (expr_atom _ _ (bytes_atom b))). reflexivity. Qed.
Lemma shown other ctime c name now random d : whole c -> - 2 ^ 63 <= now < 2 ^ 63 -> 0 <= random < 2 ^ 64 -> ctime now = Ok d ->
  exists m r s, msg_new c PROTO_VERSION now random = Ok m /\ show other ctime c name now random = Ok [name ++ T " repr:"; r; name ++ T " serialized:"; bytes_repr s] /\
    msg_repr ctime m = Ok r /\ (forall pr, python pr (bytes_repr s) = Some (Ok (VBytes s))) /\ from_bytes s = Ok (Some m).
Proof.
  intros C N R D. destruct (new_messages other ctime c Mainnet now random d C N R D) as (m & s & t & E & S & X & P). exists m, t, s. split; [exact E|].
  split; [unfold show; rewrite E; cbn [bind]; rewrite P; cbn [bind]; rewrite S; reflexivity|]. split; [exact P|]. split; [intros pr; apply bytes_pasted|].
  pose proof (X []) as X0. rewrite app_nil_r in X0. unfold from_bytes. rewrite X0. reflexivity.
Qed.
Theorem program_prints other ctime now random d : - 2 ^ 63 <= now < 2 ^ 63 -> 0 <= random < 2 ^ 64 -> ctime now = Ok d ->
  exists m1 m2 m3 r1 r2 r3 l1 l2 l3 s1 s2 s3,
    msg_serializable other ctime now random = Ok [T "msg_version repr:"; r1; T "msg_version serialized:"; l1; T "msg_tx repr:"; r2; T "msg_tx serialized:"; l2; T "msg_block repr:"; r3; T "msg_block serialized:"; l3] /\
    (exists v, m1 = MVersion v /\ n_nTime v = now /\ n_nNonce v = Some random) /\ (exists t, m2 = MTx t) /\ (exists b, m3 = MBlock b) /\
    Forall (fun x => let '(m, r, l, s) := x in msg_repr ctime m = Ok r /\ (forall pr, python pr l = Some (Ok (VBytes s))) /\ from_bytes s = Ok (Some m))
      [(m1, r1, l1, s1); (m2, r2, l2, s2); (m3, r3, l3, s3)].
Proof.
  intros N R D.
  destruct (shown other ctime NewVersion (T "msg_version") now random d Logic.I N R D) as (m1 & r1 & s1 & E1 & H1 & G1).
  destruct (shown other ctime NewTx (T "msg_tx") now random d Logic.I N R D) as (m2 & r2 & s2 & E2 & H2 & G2).
  destruct (shown other ctime NewBlock (T "msg_block") now random d Logic.I N R D) as (m3 & r3 & s3 & E3 & H3 & G3).
  exists m1, m2, m3, r1, r2, r3, (bytes_repr s1), (bytes_repr s2), (bytes_repr s3), s1, s2, s3.
  split; [unfold msg_serializable; rewrite H1, H2, H3; reflexivity|].
  split; [cbn in E1; injection E1 as <-; eexists; split; [reflexivity|split; reflexivity]|].
  split; [cbn in E2; injection E2 as <-; eauto|]. split; [cbn in E3; injection E3 as <-; eauto|].
  constructor; [exact G1|]. constructor; [exact G2|]. constructor; [exact G3|constructor].
Qed.
