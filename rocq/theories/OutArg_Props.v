(** Property C168: which outpoints the seal tool understands. *)
From Verif Require Import Base Hex_Model Tx_Model Rpc_Spec RpcUse_Proofs Chain_Model Chain_Examples OutArg_Spec OutArg_Proofs.
#[local] Open Scope string_scope.

(** The argument is taken for an outpoint exactly if it names it. *)
Theorem C168_outpoint_argument : forall s o, parse_outpoint s = Ok o <-> outpoint_text s o.
Proof. exact outpoint_argument. Qed.
Print Assumptions C168_outpoint_argument.

(** It never names two, *)
Theorem C168_one_outpoint : forall s o o', outpoint_text s o -> outpoint_text s o' -> o = o'.
Proof. intros s o o' H H'. apply outpoint_argument in H, H'. congruence. Qed.
Print Assumptions C168_one_outpoint.

(** and the program ends if it names none. *)
Theorem C168_refused : forall s, (forall o, ~ outpoint_text s o) -> parse_outpoint s = Err SystemExit.
Proof. exact outpoint_refused. Qed.
Print Assumptions C168_refused.

Definition id1 : string := "14180092832C9e49f36e37c2cfa6695a6670cc66dcba42266245e11c8f9de4cf".
(** Capital letters, a sign, spaces and an underscore; and some texts that name nothing. *)
Example C168_instance : (exists h, hex_text id1 (rev h) /\ parse_outpoint (id1 ++ ": +1_0 ") = Ok (mkOutPoint h 10) /\ parse_outpoint (id1 ++ ":-0") = Ok (mkOutPoint h 0) /\
    parse_outpoint (id1 ++ ":4294967295") = Ok (mkOutPoint h 4294967295)) /\
  Forall (fun s => forall o, ~ outpoint_text s o) [id1; id1 ++ ":"; id1 ++ ":-1"; id1 ++ ":4294967296"; id1 ++ ":1:"; id1 ++ ":0x1"; id1 ++ ":1__0"; ":0"; " " ++ id1 ++ ":0"].
Proof.
  split.
  - exists (match lx id1 with Ok h => h | Err _ => [] end). split; [apply lx_text; vm_compute; reflexivity|]. split; [|split]; vm_compute; reflexivity.
  - repeat constructor; intros o H; apply outpoint_argument in H; vm_compute in H; discriminate H.
Qed.
