(** Property C154: reading the operations of a script, and what the questions about a script mean. *)
From Verif Require Import Base Sha256 Script_Model Script_Spec Base58_Spec Base58_Proofs ScriptEval_Spec ScriptVerify_Spec ScriptVerify_Proofs
  ScriptRead_Spec ScriptRead_Proofs.

(** Every string can be read as far as it goes, in one way. *)
Theorem C154_script_reading_unique : forall s,
  (exists ops rest, read_up_to s ops rest) /\
  (forall ops rest ops' rest', read_up_to s ops rest -> read_up_to s ops' rest' -> ops = ops' /\ rest = rest').
Proof. intros s. split; [apply read_exists|]. intros. eapply read_unique; eassumption. Qed.
Print Assumptions C154_script_reading_unique.

(** [raw_iter] yields the operations read, with the places where they begin; it ends without an
    error exactly when nothing is left, and the error tells what is wrong with the rest. *)
Theorem C154_raw_iter : forall s ops rest, read_up_to s ops rest ->
  exists items e, raw_iter s = (items, e) /\ lists items ops /\ (e = None <-> rest = []) /\
    (rest <> [] -> (e = Some CScriptInvalidError <-> length_cut rest) /\ (e = Some CScriptTruncatedPushDataError <-> ~ length_cut rest)).
Proof. exact raw_iter_reads. Qed.
Print Assumptions C154_raw_iter.

(** [for x in script] gives the values of the operations read. *)
Theorem C154_script_iter : forall s ops rest, read_up_to s ops rest ->
  exists l e, script_iter s = (l, e) /\ Forall2 gives ops l /\ (e = None <-> rest = []) /\
    (rest <> [] -> (e = Some CScriptInvalidError <-> length_cut rest) /\ (e = Some CScriptTruncatedPushDataError <-> ~ length_cut rest)).
Proof. exact script_iter_reads. Qed.
Print Assumptions C154_script_iter.

(** 1, a push of two bytes, OP_DUP, OP_1NEGATE, then a push of five bytes with only two there. *)
Example C154_reading_instance :
  read_up_to (hex "51020a0b764f05aabb")
    [Op 0x51 None (hex "51"); Op 2 (Some (hex "0a0b")) (hex "020a0b"); Op 0x76 None (hex "76"); Op 0x4f None (hex "4f")] (hex "05aabb") /\
  raw_iter (hex "51020a0b764f05aabb") =
    ([(0x51%N, None, 0); (2%N, Some (hex "0a0b"), 1); (0x76%N, None, 4); (0x4f%N, None, 5)], Some CScriptTruncatedPushDataError) /\
  script_iter (hex "51020a0b764f05aabb") =
    ([CInt 1; CData (hex "0a0b"); COp 0x76; COp 0x4f], Some CScriptTruncatedPushDataError) /\
  ~ length_cut (hex "05aabb") /\
  length_cut (hex "4d01") /\ script_iter (hex "004d01") = ([CData []], Some CScriptInvalidError).
Proof.
  repeat apply conj; try reflexivity.
  - constructor; [exact (spelled_plain x51 eq_refl)|].
    constructor; [exact (spelled_push x02 (hex "0a0b") eq_refl eq_refl)|].
    constructor; [exact (spelled_plain x76 eq_refl)|].
    constructor; [exact (spelled_plain x4f eq_refl)|constructor].
  - apply op_size_none. reflexivity.
  - intros (x & r & n & E & I & L). change (hex "05aabb") with [x05; xaa; xbb] in E. injection E as <- <-.
    cbn [In] in I. intuition congruence.
  - exists x4d, [x01], 2. split; [reflexivity|]. split; [cbn [In]; auto|cbn; lia].
Qed.

(** [is_valid]: the script consists of whole operations. *)
Theorem C154_is_valid : forall s, script_is_valid s = true <-> exists ops, reads_as s ops.
Proof. exact is_valid_iff. Qed.
Print Assumptions C154_is_valid.

Example C154_is_valid_instance : script_is_valid (hex "ff4c01aa") = true /\ script_is_valid (hex "4c02aa") = false.
Proof. split; reflexivity. Qed.

(** [is_push_only]: whole operations, none above OP_16. *)
Theorem C154_is_push_only : forall s, is_push_only s = true <-> pushes_only s.
Proof. exact pushes_only_iff. Qed.
Print Assumptions C154_is_push_only.

Example C154_is_push_only_instance : is_push_only (hex "5002aabb60") = true /\ is_push_only (hex "5161") = false /\ is_push_only (hex "5102aa") = false.
Proof. repeat split. Qed.

(** [is_p2sh]: OP_HASH160, a push of 20 bytes, OP_EQUAL. *)
Theorem C154_is_p2sh : forall s, is_p2sh s = true <-> exists h, s = [xa9; x14] ++ h ++ [x87] /\ List.length h = 20.
Proof. exact is_p2sh_iff. Qed.
Print Assumptions C154_is_p2sh.

Example C154_is_p2sh_instance : is_p2sh ([xa9; x14] ++ repeat x07 20 ++ [x87]) = true /\
  is_p2sh ([xa9; x4c; x14] ++ repeat x07 20 ++ [x87]) = false /\ is_p2sh [xa9; x14; x87] = false.
Proof. repeat split. Qed.

(** [is_unspendable]: the script begins with OP_RETURN. *)
Theorem C154_is_unspendable : forall s, is_unspendable s = true <-> exists r, s = x6a :: r.
Proof. exact unspendable_iff. Qed.
Print Assumptions C154_is_unspendable.

Example C154_is_unspendable_instance : is_unspendable (hex "6a0400") = true /\ is_unspendable (hex "") = false /\ is_unspendable (hex "516a") = false.
Proof. repeat split. Qed.
