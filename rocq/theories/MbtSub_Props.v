(** Property C178: comparing merbinner trees that are not complete. *)
From Verif Require Import Base Serialize_Model Serialize_Spec Proof_Model Proof_Spec Merbinner_Model Merbinner_Spec ProofHash_Proofs MerbinnerSubset_Proofs Tree_Examples Merbinner_Examples MbtChange_Spec MbtChange_Props MbtSub_Spec MbtSub_Proofs.

(** C178: what is learnt from [t.issubset(o)] holds for all other objects with the hashes of [t] and [o], honest or not, complete or not:
    they give the same answer or none. *)
Theorem C178_no_contradictory_subsets : forall ct M ks vs k2p t o t' o' h g b, wf_table ct -> wf_tags ct -> is_mbt ct M ks vs -> prefix_respects ct ks k2p ->
  any_tree ct M t -> any_tree ct M o -> any_tree ct M t' -> any_tree ct M o' ->
  phash ct (bnode M t) = Ok h -> phash ct (bnode M t') = Ok h -> phash ct (bnode M o) = Ok g -> phash ct (bnode M o') = Ok g ->
  issubset ct M k2p t o = Ok b ->
  (exists e, issubset ct M k2p t' o' = Err e /\ no_answer t' o' e) \/ issubset ct M k2p t' o' = Ok b \/
  hash_collision ct (bnode M t) (bnode M t') \/ hash_collision ct (bnode M o) (bnode M o').
Proof. intros ct M ks vs k2p t o t' o' h g b W T I R. exact (subsets_agree ct M ks vs k2p W T I R t o t' o' h g b). Qed.
Print Assumptions C178_no_contradictory_subsets.

(** C178: so for the hashes of the trees of two maps the answer is whether one map is included in the other. *)
Theorem C178_subsets_are_those_of_the_maps : forall ct M ks vs k2p K n D1 D2 t o t' o' h g, wf_table ct -> wf_tags ct -> is_mbt ct M ks vs -> good_keys ct k2p K n ->
  prefix_respects ct ks k2p -> history ct M k2p K D1 (Ok t) -> history ct M k2p K D2 (Ok o) ->
  (forall k v, In (k, v) D1 \/ In (k, v) D2 -> entry_fine ct ks vs k v) -> any_tree ct M t' -> any_tree ct M o' ->
  phash ct (bnode M t) = Ok h -> phash ct (bnode M t') = Ok h -> phash ct (bnode M o) = Ok g -> phash ct (bnode M o') = Ok g ->
  (exists e, issubset ct M k2p t' o' = Err e /\ no_answer t' o' e) \/ (exists b, issubset ct M k2p t' o' = Ok b /\ (b = true <-> sub_map ct D1 D2)) \/
  hash_collision ct (bnode M t) (bnode M t') \/ hash_collision ct (bnode M o) (bnode M o') \/ collision_among ct [bnode M t; bnode M o; bnode M TEmpty].
Proof. intros ct M ks vs k2p K n D1 D2 t o t' o' h g W T I G. exact (subsets_documented ct M ks vs k2p K n W T I G D1 D2 t o t' o' h g). Qed.
Print Assumptions C178_subsets_are_those_of_the_maps.

(** The tree of one entry, and the three trees of C176: complete, with two leaves pruned, with their parent pruned.  The entry is found in
    all of them; another one only in the complete tree. *)
Definition single (v : Z) : mbt := TLeaf (key x80 x00) (num v).
Definition other_key : mbt := match trio_tree with TInner _ (TInner _ a _) _ => a | t => t end.
Lemma digest_prefix : prefix_respects woods (SerPrim Digest) from_bytes.
Proof. exact (proj1 (proj2 (proj2 (proj2 (proj2 C176_instance))))). Qed.
Lemma less_any b : any_tree woods IntMBTree (less b).
Proof. pose proof C176_instance as X. do 10 apply proj2 in X. destruct b; [exact (proj1 (proj2 X))|exact (proj1 X)]. Qed.
Example C178_instance : prefix_respects woods (SerPrim Digest) from_bytes /\ any_tree woods IntMBTree (single 7) /\ any_tree woods IntMBTree (less false) /\ any_tree woods IntMBTree (less true) /\
  (exists h, phash woods (bnode IntMBTree trio_tree) = Ok h /\ phash woods (bnode IntMBTree (less false)) = Ok h /\ phash woods (bnode IntMBTree (less true)) = Ok h) /\
  map (fun o => issubset woods IntMBTree from_bytes (single 7) o) [trio_tree; less false; less true] = [Ok true; Ok true; Ok true] /\
  map (fun o => issubset woods IntMBTree from_bytes (single 8) o) [trio_tree; less false; less true] = [Ok false; Ok false; Ok false] /\
  map (fun o => issubset woods IntMBTree from_bytes other_key o) [trio_tree; less false; less true] = [Ok true; Err PrunedError; Err PrunedError] /\
  map (fun t => issubset woods IntMBTree from_bytes t (single 7)) [trio_tree; less false; less true] = [Ok false; Ok false; Ok false] /\
  issubset woods IntMBTree from_bytes (less true) trio_tree = Ok true.
Proof.
  split; [exact digest_prefix|]. split; [left; apply leaf_fits; lia|]. split; [apply less_any|]. split; [apply less_any|].
  split; [eexists; split; [vm_compute; reflexivity|split; vm_compute; reflexivity]|].
  split; [vm_compute; reflexivity|]. split; [vm_compute; reflexivity|]. split; [vm_compute; reflexivity|]. split; [vm_compute; reflexivity|]. vm_compute. reflexivity.
Qed.
