(** C183: the hashes of transaction proofs, seals and witnesses by hand. *)
From Verif Require Import Base Sha256 Hex_Model Serialize_Model Tx_Model Proof_Model Proof_Spec Chain_Model Chain_Spec Chain_Examples Chain_Props Recipe_Spec Recipe_Proofs.
Local Open Scope string_scope.
Local Open Scope list_scope.

(** An object has exactly the hash that the recipe gives; where the recipe gives none, hash raises. *)
Theorem C183_hash_by_hand : forall ct P, is_chain ct P -> forall v c h,
  In c [p_tx P; p_outpoint P; p_txin P; p_txout P; p_fseal P; p_fwit P; p_bseal P; p_bwit P] -> object ct c v ->
  (phash ct v = Ok h <-> recipe P v h).
Proof. exact hash_recipe. Qed.
Print Assumptions C183_hash_by_hand.

(** So the recipe gives one hash only. *)
Theorem C183_one_hash : forall ct P, is_chain ct P -> forall v h1 h2, recipe P v h1 -> recipe P v h2 -> h1 = h2.
Proof. intros ct P C v h1 h2 R1 R2. apply (recipe_hash ct P C) in R1. apply (recipe_hash ct P C) in R2. congruence. Qed.
Print Assumptions C183_one_hash.

(** The hashes below are those computed with hashlib from the bytes. *)
Example C183_instance : is_chain ledger chain1 /\ object ledger BWIT (witness tx2 1 0) /\
  phash ledger (witness tx2 1 0) = Ok (hex "6a24a48ee1800c1ba2b918e252cb26708f0cb9c2d9ef91a3cd0a5f61ca6bfcc9") /\
  recipe chain1 (witness tx2 1 0) (hex "6a24a48ee1800c1ba2b918e252cb26708f0cb9c2d9ef91a3cd0a5f61ca6bfcc9") /\
  recipe chain1 (Seal chain1 outpoint1 nonce1) (hex "7a60237871c006d35c977d12cce3c982b7ab34b71760774ee70ac9d23dc3d82f") /\
  (forall h, ~ recipe chain1 (PHash TXPROOF digest1) h).
Proof.
  assert (O : object ledger BWIT (witness tx2 1 0)) by (apply witness_ok; [apply tx2_wf|lia|lia]).
  assert (H : phash ledger (witness tx2 1 0) = Ok (hex "6a24a48ee1800c1ba2b918e252cb26708f0cb9c2d9ef91a3cd0a5f61ca6bfcc9")) by (vm_compute; reflexivity).
  refine (conj ledger_chain (conj O (conj H (conj _ (conj _ _))))).
  - apply (C183_hash_by_hand ledger chain1 ledger_chain _ BWIT); [cbn; auto 10|exact O|exact H].
  - apply (bseal_recipe ledger chain1 ledger_chain); [apply (Chain_Proofs.seal_object ledger chain1 ledger_chain); [apply outpoint1_wf|reflexivity]|vm_compute; reflexivity].
  - intros h R. apply (recipe_hash ledger chain1 ledger_chain) in R. vm_compute in R. discriminate.
Qed.
