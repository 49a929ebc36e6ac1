(** Property C165: proofs as keys of dictionaries (PDict_Model.v). *)
From Verif Require Import Base Sha256 Serialize_Model Serialize_Spec Tx_Model Proof_Model Proof_Spec Cache_Model Proof_Examples
  Heap_Model Heap_Spec Heap_Inv Heap_Run Heap_Main Heap_Examples PDict_Model PDict_Spec PDict_Proofs.
Open Scope string_scope.
Open Scope list_scope.

(** ** C165: a dictionary of proofs is a map of their hashes *)
Theorem C165_proofs_as_keys : forall ct made (pyhash : bytes -> Z) (V : Type) (l : list (pop V)), program_table ct made -> Forall (pinstantiates ct made) l ->
  same_pouts l (prun ct pyhash l [] start []) (pexpected ct l nothing []).
Proof. intros ct made pyhash V l PT. exact (pdictionary_start ct made PT pyhash l). Qed.
(** All the hashes of Python fall together.  A Bar (handle 2) and its left part (0) are put in; the Bar is found by a pruned
    copy (5), by another Bar of the same parts (9), and the part by what the copy gives for it (7);
    what was stored through the copy is found through the Bar; a Foo that is not there is not found, nor what was deleted. *)
Example C165_instance : program_table shop concrete /\
  let l := map (@PCmd nat) make_bar ++ [PSet 2 10; PSet 0 20; PCmd (CPrune 2); PGet 5; PCmd (CGet 5 "left"); PGet 7;
    PCmd (CNew BAR [("left", AUse 7); ("right", AUse 1); ("nonproof_attr", int_arg 3)]); PGet 9; PSet 5 30; PGet 2; PGet 1; PDel 9; PGet 2; PGet 0; PGet 3] in
  Forall (pinstantiates shop concrete) l /\ prun shop (fun _ => 0%Z) l [] start [] =
  [POut (UProof FOO); POut (UProof FOO); POut (UProof BAR); PNone; PNone; POut (UProof BAR); PVal 10; POut (UProof FOO); PVal 20;
   POut (UProof BAR); PVal 10; PNone; PVal 30; PErr KeyError; PNone; PErr KeyError; PVal 20; PErr NameError].
Proof. split; [exact shop_program|]. split; [repeat constructor; cbn; discriminate|vm_compute; reflexivity]. Qed.
Print Assumptions C165_proofs_as_keys.
