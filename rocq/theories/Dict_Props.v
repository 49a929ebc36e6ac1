(** Property C164: transactions and their parts are good keys of dictionaries and sets. *)
From Verif Require Import Base Sha256 Tx_Model Tx_Spec SigHash_Model Money_Model TxObj_Model TxObj_Spec TxObj_Examples Dict_Model Dict_Spec Dict_Proofs.
Local Open Scope Z_scope.

(** False of objects that can be changed: an outpoint is changed while it is a key, and an outpoint like the
    one that was stored is not found. *)
Theorem C164_dictionary_refuted : ~ good_dictionary.
Proof.
  intros H. specialize (H sum_hash [DOp (NewPoint Mut (repeat x11 32) 7); DSet 1%nat 5; DOp (SetAttr 1%nat (FN 8)); DOp (NewPoint Imm (repeat x11 32) 7); DGet 2%nat] start (ex_intro _ [] eq_refl)).
  vm_compute in H. discriminate H.
Qed.
Print Assumptions C164_dictionary_refuted.

(** And of objects of the immutable classes with a part that can be changed: the transactions [k] and [k'] are
    equal, but the dictionary has the one and not the other. *)
Theorem C164_immutable_class_refuted : exists s k k' (prog : list (dop Z)), reached sum_hash s /\ has_class Imm s k /\
  fst (drun sum_hash (DSet k 5 :: prog ++ [DOp (Equal k k'); DGet k; DGet k']) [] s) =
    [Ok DNone; Ok (DOut VNone); Ok (DOut (VRef k')); Ok (DOut (VBool true)); Ok (DVal 5); Err KeyError].
Proof.
  exists shared_store, 8%nat, 11%nat, [DOp (SetAttr 1%nat (FN 8)); DOp (NewTx Imm (Some 3%nat) (Some 5%nat) 0 1)].
  split; [exists shared_prog; reflexivity|]. split; [eexists; split; vm_compute; reflexivity|]. vm_compute. reflexivity.
Qed.
Print Assumptions C164_immutable_class_refuted.

(** True if what is stored is immutable throughout: whatever else the program does, with these or other objects,
    and whatever the Python hashes are, the dictionary is a map from contents to values. *)
Theorem C164_dictionary_partial : forall pyhash V (prog : list (dop V)) s, reached pyhash s -> good_keys pyhash prog s ->
  fst (drun pyhash prog [] s) = expected pyhash prog no_entries s.
Proof. intros pyhash V prog s. exact (dictionary_start pyhash prog s). Qed.
Print Assumptions C164_dictionary_partial.

(** With all Python hashes the same: the transaction 11 and its input 2 are keys; the mutable transaction 20 read from the same
    bytes finds the value of 11, until its version is set; 11 is then still found, and is deleted. *)
Definition no_hash (b : bytes) : Z := 0.
Definition key_prog : list (dop Z) := [DSet 11%nat 5; DSet 2%nat 6; DGet 20%nat; DSet 11%nat 7; DGet 20%nat; DOp (SetAttr 20%nat (FVersion 9)); DGet 20%nat;
   DGet 11%nat; DGet 13%nat; DDel 11%nat; DGet 11%nat].
Definition key_store : store := snd (run no_hash [LoadTx Imm two_bytes; LoadTx Mut two_bytes] start).
(** Whether an object is immutable down to some depth, and has nothing deeper. *)
Fixpoint frozenb (n : nat) (s : store) (x : ref) : bool :=
  match n, nth_error s x with
  | S n', Some c => match c_cls c with Imm => forallb (frozenb n' s) (held (c_obj c)) | Mut => false end
  | _, _ => false
  end.
Lemma frozenb_ok n s : forall x, frozenb n s x = true -> throughout Imm s x.
Proof.
  induction n as [|n IH]; intros x H; [discriminate|]. cbn [frozenb] in H. destruct (nth_error s x) as [c|] eqn:E; [|discriminate].
  destruct (c_cls c) eqn:K; [|discriminate]. rewrite forallb_forall in H. intros y P. inversion P as [?|? c' z ? E' I' P']; subst; [eauto|].
  assert (c' = c) as -> by congruence. exact (IH z (H z I') y P').
Qed.
Example C164_instance : reached no_hash key_store /\ good_keys no_hash key_prog key_store /\
  fst (drun no_hash key_prog [] key_store) = [Ok DNone; Ok DNone; Ok (DVal 5); Ok DNone; Ok (DVal 7); Ok (DOut VNone); Err KeyError; Ok (DVal 7); Ok (DVal 6); Ok DNone; Err KeyError].
Proof.
  split; [eexists; reflexivity|]. split; [|vm_compute; reflexivity].
  cbn [good_keys key_prog].
  repeat match goal with
  | |- throughout Imm _ _ /\ _ => split; [apply (frozenb_ok 5); vm_compute; reflexivity|]
  | |- (throughout Imm _ ?k \/ _) /\ _ => split; [first [left; apply (frozenb_ok 5); vm_compute; reflexivity|right; eexists; split; vm_compute; reflexivity]|]
  end. exact Logic.I.
Qed.
