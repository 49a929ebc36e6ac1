(** Property C153: printing received messages. *)
From Verif Require Import Base Sha256 Tx_Model Block_Model Hex_Model Base58_Model Net_Model Repr_Model MsgRepr_Model MsgRepr_Spec MsgRepr_Proofs.
From Coq Require Import Lia.
Local Open Scope Z_scope.
Local Open Scope list_scope.

(** C153.  The full claim, that a message that was received can be printed, is false: an inventory may list a
    type without a name, as later versions of the protocol do. *)
Definition compact_inv : msg := MInv [mkInv 1 (repeat x11 32); mkInv 4 (repeat x22 32)].
(** The bytes of a message. *)
Definition framed (cmd : string) (body : bytes) : bytes :=
  MESSAGE_START Mainnet ++ str cmd ++ repeat x00 (12 - List.length (str cmd)) ++ le_enc 4 (N.of_nat (List.length body)) ++ firstn 4 (Hash body) ++ body.
Theorem C153_printing_refuted : exists b m, from_bytes b = Ok (Some m) /\ forall ctime, msg_repr ctime m = Err KeyError.
Proof.
  exists (framed "inv" ([x02] ++ le_enc 4 1 ++ repeat x11 32 ++ le_enc 4 4 ++ repeat x22 32)), compact_inv.
  split; [vm_compute; reflexivity|intros ctime; reflexivity].
Qed.
Print Assumptions C153_printing_refuted.

(** Exactly which messages can be printed, and what is raised for others; [ctime] is time.ctime. *)
Theorem C153_printing_partial : forall ctime c s m r, stream_deserialize c s = Ok (Some m, r) ->
  ((exists t, msg_repr ctime m = Ok t) <-> can_print ctime m).
Proof. exact printed_iff. Qed.
Print Assumptions C153_printing_partial.

Theorem C153_printing_error_partial : forall ctime c s m r e, stream_deserialize c s = Ok (Some m, r) -> msg_repr ctime m = Err e ->
  match m with
  | MVersion v => match ctime (n_nTime v) with Ok _ => e = TypeError | Err e' => e = e' end
  | MInv _ | MGetData _ => e = KeyError
  | _ => False
  end.
Proof. exact printed_error. Qed.
Print Assumptions C153_printing_error_partial.

(** A version message of an old node, which leaves out the last fields: TypeError; and a ping. *)
Definition date (t : Z) : result text := if t =? 0 then Ok (T "Thu Jan  1 00:00:00 1970") else Err OverflowError.
Example C153_old_version : exists m, from_bytes (framed "version" (le_enc 4 105 ++ repeat x00 42)) = Ok (Some m) /\ msg_repr date m = Err TypeError.
Proof. eexists. split; [vm_compute; reflexivity|vm_compute; reflexivity]. Qed.
Example C153_late_version : exists m, from_bytes (framed "version" (le_enc 4 105 ++ repeat x00 15 ++ [x01] ++ repeat x00 26)) = Ok (Some m) /\ msg_repr date m = Err OverflowError.
Proof. eexists. split; [vm_compute; reflexivity|vm_compute; reflexivity]. Qed.
Example C153_version : exists m, from_bytes (framed "version" (le_enc 4 60002 ++ repeat x00 76 ++ [x01; x41] ++ [x05; x00; x00; x00])) = Ok (Some m) /\
  msg_repr date m = Ok (T ("msg_version(nVersion=60002 nServices=0 nTime=Thu Jan  1 00:00:00 1970 addrTo=CAddress(nTime=0 nServices=0 ip=0.0.0.0 port=0) " ++
    "addrFrom=CAddress(nTime=0 nServices=0 ip=0.0.0.0 port=0) nNonce=0x0000000000000000 strSubVer=b'A' nStartingHeight=5)")).
Proof. eexists. split; [vm_compute; reflexivity|vm_compute; reflexivity]. Qed.
Example C153_ping : exists m, from_bytes (framed "ping" [xef; xbe; xad; xde; x00; x00; x00; x00]) = Ok (Some m) /\ msg_repr date m = Ok (T "msg_ping(0xdeadbeef)").
Proof. eexists. split; [vm_compute; reflexivity|vm_compute; reflexivity]. Qed.

(** The text of an inventory tells the inventory, that of a ping its nonce. *)
Theorem C153_inventory_text : forall ctime l l' t, Forall (fun v => List.length (v_hash v) = 32%nat) l -> Forall (fun v => List.length (v_hash v) = 32%nat) l' ->
  msg_repr ctime (MInv l) = Ok t -> msg_repr ctime (MInv l') = Ok t -> l = l'.
Proof. exact inventory_text. Qed.
Print Assumptions C153_inventory_text.

Theorem C153_ping_text : forall ctime n n' t, 0 <= n -> 0 <= n' -> msg_repr ctime (MPing n) = Ok t -> msg_repr ctime (MPing n') = Ok t -> n = n'.
Proof. exact nonce_text. Qed.
Print Assumptions C153_ping_text.

Example C153_inventory_instance : msg_repr date (MInv [mkInv 1 (repeat x11 32); mkInv 2 (repeat xab 32)]) =
  Ok (T ("msg_inv(inv=[CInv(type=TX hash=b'1111111111111111111111111111111111111111111111111111111111111111'), " ++
         "CInv(type=Block hash=b'abababababababababababababababababababababababababababababababab')])")).
Proof. vm_compute. reflexivity. Qed.
