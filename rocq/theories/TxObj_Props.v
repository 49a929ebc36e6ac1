(** C156-C158: transactions as objects that may be shared, changed and asked for their hash. *)
From Verif Require Import Base Sha256 Tx_Model Tx_Spec SigHash_Model Money_Model TxObj_Model TxObj_Spec TxObj_Examples TxObj_Proofs TxObjSig_Proofs TxObjUse_Proofs TxObjMake_Proofs.

(** ** C156 *)

(** The statement for every object of an immutable class is false: one of its parts may be mutable.  Here the
    hash of transaction 8 was asked for before the outpoint of its input was changed: its serialization is another
    one then, its hash is still the old one, and the transaction 11, which is equal to it, has another hash. *)
Theorem C156_immutable_refuted :
  exists s x y b b', reached sum_hash s /\ has_class Imm s x /\ has_class Imm s y /\
    serialize s x = Ok b /\ fst (step sum_hash (AskHash x) s) = Ok (VBytes (Hash b')) /\ bytes_eqb (Hash b) (Hash b') = false /\
    fst (step sum_hash (Equal x y) s) = Ok (VBool true) /\
    fst (step sum_hash (AskHash y) s) = Ok (VBytes (Hash b)) /\
    fst (step sum_hash (AskPyHash x) s) <> fst (step sum_hash (AskPyHash y) s) /\
    serialize shared_store x = Ok b' /\ exists prog, s = snd (run sum_hash prog shared_store).
Proof.
  exists stale_store, 8%nat, 11%nat.
  exists (match serialize stale_store 8 with Ok b => b | Err _ => [] end), (match serialize shared_store 8 with Ok b => b | Err _ => [] end).
  split. { unfold stale_store, shared_store. apply reached_run. exists shared_prog. reflexivity. }
  split. { eexists. split; vm_compute; reflexivity. }
  split. { eexists. split; vm_compute; reflexivity. }
  split; [vm_compute; reflexivity|]. split; [vm_compute; reflexivity|]. split; [vm_compute; reflexivity|].
  split; [vm_compute; reflexivity|]. split; [vm_compute; reflexivity|]. split; [vm_compute; discriminate|].
  split; [vm_compute; reflexivity|]. eexists. reflexivity.
Qed.
Print Assumptions C156_immutable_refuted.

(** An object that is immutable throughout is the same whatever a program does, and its hashes are those of its
    serialization.  Missing: objects of immutable classes with mutable parts, of which it is false. *)
Theorem C156_immutable_partial :
  forall pyhash s x prog, reached pyhash s -> throughout Imm s x ->
  let s' := snd (run pyhash prog s) in
  looks s s' x /\ throughout Imm s' x /\
  fst (step pyhash (AskHash x) s') = (do b <- serialize s x; Ok (VBytes (Hash b))) /\
  fst (step pyhash (AskPyHash x) s') = (do b <- serialize s x; Ok (VInt (pyhash b))).
Proof. exact immutable_partial. Qed.
Print Assumptions C156_immutable_partial.

(** Of objects of the mutable classes nothing is remembered: the hash is the one of what they serialize to now. *)
Theorem C156_mutable_partial :
  forall pyhash s x, reached pyhash s -> has_class Mut s x ->
  step pyhash (AskHash x) s = (do b <- serialize s x; Ok (VBytes (Hash b)), s) /\
  step pyhash (AskPyHash x) s = (do b <- serialize s x; Ok (VInt (pyhash b)), s).
Proof. exact mutable_ask. Qed.
Print Assumptions C156_mutable_partial.

(** Objects that are equal have the same hashes. *)
Theorem C156_equal_partial :
  forall pyhash s a b, reached pyhash s ->
  throughout Imm s a \/ has_class Mut s a -> throughout Imm s b \/ has_class Mut s b ->
  fst (step pyhash (Equal a b) s) = Ok (VBool true) ->
  exists v, fst (step pyhash (AskHash a) s) = Ok (VBytes (Hash v)) /\ fst (step pyhash (AskHash b) s) = Ok (VBytes (Hash v)) /\
            fst (step pyhash (AskPyHash a) s) = Ok (VInt (pyhash v)) /\ fst (step pyhash (AskPyHash b) s) = Ok (VInt (pyhash v)).
Proof. exact equal_hash. Qed.
Print Assumptions C156_equal_partial.

(** Setting attributes of an object of an immutable class is refused and changes nothing. *)
Theorem C156_refused :
  forall pyhash s x f l, has_class Imm s x ->
  (exists e, step pyhash (SetAttr x f) s = (Err e, s)) /\ (exists e, step pyhash (Change x l) s = (Err e, s)).
Proof. exact set_refused. Qed.
Print Assumptions C156_refused.

(** What is read from bytes as a CTransaction is immutable throughout, and so is one made of such inputs. *)
Theorem C156_made_partial :
  (forall pyhash b s x s', step pyhash (LoadTx Imm b) s = (Ok (VRef x), s') -> throughout Imm s' x) /\
  (forall pyhash s vi vo l v x s', step pyhash (NewTx Imm vi vo l v) s = (Ok (VRef x), s') ->
     (forall r li, vi = Some r -> seq_at s r = Ok li -> Forall (throughout Imm s) li) -> throughout Imm s' x).
Proof.
  split.
  - intros pyhash b s x s' H. destruct (load_spec pyhash Imm b s x s' H) as (_ & _ & F & _). apply F. reflexivity.
  - exact new_tx_made.
Qed.
Print Assumptions C156_made_partial.

(** The transaction read from [two_bytes]: a program that tries to change it, and asks for its hash. *)
Example C156_instance :
  reached sum_hash loaded_store /\ throughout Imm loaded_store 11 /\ has_class Mut loaded_store 20 /\
  serialize loaded_store 11 = Ok two_bytes /\
  fst (run sum_hash [SetAttr 11%nat (FLockTime 4); SetAttr 2%nat (FScriptSig []); SetAttr 20%nat (FLockTime 4); AskHash 11%nat; Serialize 11%nat; Equal 11%nat 20%nat] loaded_store) =
  [Err AttributeError; Err AttributeError; Ok VNone; Ok (VBytes (Hash two_bytes)); Ok (VBytes two_bytes); Ok (VBool false)] /\
  fst (step sum_hash (Equal 11%nat 20%nat) loaded_store) = Ok (VBool true).
Proof.
  split; [eexists; reflexivity|]. split.
  { intros y P. assert (L : step sum_hash (LoadTx Imm two_bytes) start = (Ok (VRef 11%nat), snd (step sum_hash (LoadTx Imm two_bytes) start))) by (vm_compute; reflexivity).
    apply load_spec in L. destruct L as (_ & _ & F & _).
    pose proof (frozen_constant sum_hash _ 11%nat [LoadTx Mut two_bytes] (F eq_refl)) as [_ F']. exact (F' y P). }
  split; [eexists; split; vm_compute; reflexivity|]. repeat apply conj; vm_compute; reflexivity.
Qed.

(** ** C157 *)

(** A transaction object of the mutable class may have parts that cannot be changed: all that are read from bytes. *)
Theorem C157_mutable_parts_refuted :
  (exists s x, reached sum_hash s /\ has_class Mut s x /\ ~ throughout Mut s x) /\
  (forall pyhash b s x s', step pyhash (LoadTx Mut b) s = (Ok (VRef x), s') ->
   exists vi vo li lo lock ver h g, nth_error s' x = Some (Cell Mut (OTrans vi vo lock ver) h g) /\
     seq_at s' vi = Ok li /\ seq_at s' vo = Ok lo /\ Forall (throughout Imm s') li /\ Forall (throughout Imm s') lo).
Proof.
  split.
  - exists loaded_store, 20%nat. split; [eexists; reflexivity|]. split; [eexists; split; vm_compute; reflexivity|].
    intros F. assert (P : part loaded_store 20 13).
    { eapply part_in with (y := 16%nat); [vm_compute; reflexivity|left; reflexivity|].
      eapply part_in with (y := 13%nat); [vm_compute; reflexivity|left; reflexivity|]. apply part_self. }
    destruct (F _ P) as (c & E & C). vm_compute in E. injection E as <-. vm_compute in C. discriminate.
  - intros pyhash b s x s' H. destruct (load_spec pyhash Mut b s x s' H) as (_ & _ & _ & _ & R). exact R.
Qed.
Print Assumptions C157_mutable_parts_refuted.

(** [CMutableTransaction.from_tx] makes a copy of the same value, mutable throughout, that has no part in common
    with any object there was; those are as they were. *)
Theorem C157_copy_partial :
  forall pyhash s r x s', step pyhash (FromTx Mut r) s = (Ok (VRef x), s') ->
  throughout Mut s' x /\ (forall y, part s' x y -> nth_error s y = None) /\
  (exists t, tx_at s' x = Ok t /\ forall u, tx_at s r = Ok u -> t = u) /\
  (forall y c, nth_error s y = Some c -> nth_error s' y = Some c).
Proof. exact copy_spec. Qed.
Print Assumptions C157_copy_partial.

(** It does so whenever the values are in range. *)
Theorem C157_copy_exists_partial :
  forall pyhash s r t, tx_at s r = Ok t -> wf_tx t -> exists x s', step pyhash (FromTx Mut r) s = (Ok (VRef x), s').
Proof. exact copy_succeeds. Qed.
Print Assumptions C157_copy_exists_partial.

(** Nothing done with the copy, or with objects made later, changes what was there before. *)
Theorem C157_original_partial :
  forall pyhash s r x s' prog, reached pyhash s -> step pyhash (FromTx Mut r) s = (Ok (VRef x), s') ->
  (forall o y, In o prog -> In y (written o) -> nth_error s y = None) ->
  forall y c, nth_error s y = Some c -> looks s (snd (run pyhash prog s')) y.
Proof. exact independent. Qed.
Print Assumptions C157_original_partial.

(** An object changes only if one of its parts is written to. *)
Theorem C157_untouched_partial :
  forall pyhash s x prog, reached pyhash s -> (x < List.length s)%nat -> leaves_alone s x prog ->
  looks s (snd (run pyhash prog s)) x /\ forall y, part (snd (run pyhash prog s)) x y <-> part s x y.
Proof. exact alone_constant. Qed.
Print Assumptions C157_untouched_partial.

(** A copy (object 29) of the transaction 11: its first input (22) and the list of its outputs (28) are changed. *)
Definition copied_store : store := snd (step sum_hash (FromTx Mut 11%nat) loaded_store).
Example C157_instance :
  fst (step sum_hash (FromTx Mut 11%nat) loaded_store) = Ok (VRef 29%nat) /\
  fst (run sum_hash [SetAttr 22%nat (FScriptSig [x00]); SetAttr 21%nat (FN 9); Change 28%nat []; Serialize 11%nat; Serialize 29%nat] copied_store) =
  [Ok VNone; Ok VNone; Ok VNone; Ok (VBytes two_bytes);
   do b <- tx_ser (mkTx [mkTxIn (mkOutPoint (repeat x22 32) 9) [x00] 0xffffffff; mkTxIn (mkOutPoint (repeat x33 32) 1) [] 5] [] 3 2); Ok (VBytes b)].
Proof. split; vm_compute; reflexivity. Qed.

(** ** C158 *)

(** Asking for a signature hash leaves every object as it is, whatever is shared, and gives what the computation on
    values gives. *)
Theorem C158_signature_hash :
  forall pyhash s sc r i h,
  (forall t, tx_at s r = Ok t -> fst (step pyhash (SigHash sc r i h) s) = (do p <- RawSignatureHash sc t i h; Ok (VPair (fst p) (snd p)))) /\
  (forall y c, nth_error s y = Some c -> nth_error (snd (step pyhash (SigHash sc r i h) s)) y = Some c).
Proof. exact sighash_step. Qed.
Print Assumptions C158_signature_hash.

(** The mutable transaction 20 and the immutable 11, with the second of their inputs and SIGHASH_SINGLE. *)
Example C158_instance :
  fst (step sum_hash (SigHash [x76; xab; xa9] 20%nat 1 3) loaded_store) = fst (step sum_hash (SigHash [x76; xab; xa9] 11%nat 1 3) loaded_store) /\
  (exists b, fst (step sum_hash (SigHash [x76; xab; xa9] 20%nat 1 3) loaded_store) = Ok (VPair b false)) /\
  fst (step sum_hash (SigHash [x76; xab; xa9] 20%nat 2 1) loaded_store) = Ok (VPair HASH_ONE true) /\
  fst (step sum_hash (SigHash [x76] 2%nat 2 1) loaded_store) = Err AttributeError.
Proof.
  split; [vm_compute; reflexivity|]. split; [eexists; vm_compute; reflexivity|]. split; vm_compute; reflexivity.
Qed.
