(** Property C181: new messages, and the example program msg-serializable.py. *)
From Coq Require Import ZifyBool ZifyNat ZifyN.
From Verif Require Import Base Tx_Model Tx_Spec Block_Model Base58_Model Net_Model Net_Spec Net_Proofs PyText_Spec Repr_Model Repr_Proofs MmrRepr_Proofs MsgRepr_Model MsgNew_Model MsgNew_Spec MsgNew_Proofs.
Local Open Scope Z_scope.
Local Open Scope list_scope.

(** C181: a message made without arguments (ping and pong with any nonce of 64 bits) can be sent on every network, is received as the
    message it is, and can be printed if the C library has a date for the time. *)
Theorem C181_new_messages : forall other ctime c net now random d, whole c -> - 2 ^ 63 <= now < 2 ^ 63 -> 0 <= random < 2 ^ 64 -> ctime now = Ok d ->
  exists m s t, msg_new c PROTO_VERSION now random = Ok m /\ to_bytes other net m = Ok s /\
    (forall rest, stream_deserialize net (s ++ rest) = Ok (Some m, rest)) /\ msg_repr ctime m = Ok t.
Proof. exact new_messages. Qed.
Print Assumptions C181_new_messages.

(** Made for a protocol version, what is received is what was made exactly from version 209 on, except for 10300 ... *)
Theorem C181_version_partial : forall other net p now random, - 2 ^ 31 <= p < 2 ^ 31 -> - 2 ^ 63 <= now < 2 ^ 63 -> 0 <= random < 2 ^ 64 ->
  exists m s, msg_new NewVersion p now random = Ok m /\ to_bytes other net m = Ok s /\
    ((forall rest, stream_deserialize net (s ++ rest) = Ok (Some m, rest)) <-> 209 <= p /\ p <> 10300).
Proof. exact new_version. Qed.
Print Assumptions C181_version_partial.

(** ... so not for every version a message can be made for. *)
Definition any_version_is_received : Prop := forall other net p now random, - 2 ^ 31 <= p < 2 ^ 31 -> - 2 ^ 63 <= now < 2 ^ 63 -> 0 <= random < 2 ^ 64 ->
  exists m s, msg_new NewVersion p now random = Ok m /\ to_bytes other net m = Ok s /\ forall rest, stream_deserialize net (s ++ rest) = Ok (Some m, rest).
Theorem C181_any_version_refuted : ~ any_version_is_received.
Proof.
  intros H. destruct (H (fun _ => None) Mainnet 10300 0 0) as (m & s & E & S & R); [lia..|]. destruct (new_version (fun _ => None) Mainnet 10300 0 0) as (m' & s' & E' & S' & X); [lia..|].
  rewrite E in E'. injection E' as <-. rewrite S in S'. injection S' as <-. destruct (proj1 X R) as (_ & N). apply N. reflexivity.
Qed.
Print Assumptions C181_any_version_refuted.

(** C181: the program prints for each of the three classes a name, the printed form of a message, the name again, and a bytes literal
    that evaluates to bytes from which that message is received. *)
Theorem C181_program : forall other ctime now random d, - 2 ^ 63 <= now < 2 ^ 63 -> 0 <= random < 2 ^ 64 -> ctime now = Ok d ->
  exists m1 m2 m3 r1 r2 r3 l1 l2 l3 s1 s2 s3,
    msg_serializable other ctime now random = Ok [T "msg_version repr:"; r1; T "msg_version serialized:"; l1; T "msg_tx repr:"; r2; T "msg_tx serialized:"; l2; T "msg_block repr:"; r3; T "msg_block serialized:"; l3] /\
    (exists v, m1 = MVersion v /\ n_nTime v = now /\ n_nNonce v = Some random) /\ (exists t, m2 = MTx t) /\ (exists b, m3 = MBlock b) /\
    Forall (fun x => let '(m, r, l, s) := x in msg_repr ctime m = Ok r /\ (forall pr, python pr l = Some (Ok (VBytes s))) /\ from_bytes s = Ok (Some m))
      [(m1, r1, l1, s1); (m2, r2, l2, s2); (m3, r3, l3, s3)].
Proof. exact program_prints. Qed.
Print Assumptions C181_program.

(** At the beginning of 1970 in London. *)
Definition epoch (t : Z) : result text := if t =? 0 then Ok (T "Thu Jan  1 00:00:00 1970") else Err OverflowError.
Example C181_instance : epoch 0 = Ok (T "Thu Jan  1 00:00:00 1970") /\ whole (NewPing (2 ^ 64 - 1)) /\
  exists l, msg_serializable (fun _ => None) epoch 0 255 = Ok l /\ nth_error l 1 = Some (T "msg_version(nVersion=60002 nServices=1 nTime=Thu Jan  1 00:00:00 1970 addrTo=CAddress(nTime=0 nServices=1 ip=0.0.0.0 port=0) addrFrom=CAddress(nTime=0 nServices=1 ip=0.0.0.0 port=0) nNonce=0x00000000000000FF strSubVer=b'/python-bitcoin-0.0.1/' nStartingHeight=-1)") /\
  nth_error l 5 = Some (T "msg_tx(tx=CTransaction((), (), 0, 1))").
Proof. split; [reflexivity|]. split; [cbn; lia|]. eexists. split; [vm_compute; reflexivity|]. split; vm_compute; reflexivity. Qed.
