(** Property C176: changes to merbinner trees that are not complete. *)
From Verif Require Import Base Serialize_Model Serialize_Spec Proof_Model Proof_Spec Merbinner_Model Merbinner_Spec ProofHash_Proofs Tree_Examples Merbinner_Examples MbtChange_Spec MbtChange_Proofs.

(** C176: two tree objects with equal hash, honest or not, complete or not, never contradict each other about changes: when a sequence
    of changes works on one of them, then the other gives a tree with the same hash, or says that it does not know. *)
Theorem C176_no_contradictory_changes : forall ct M ks vs k2p cs t1 t2 h u1, wf_table ct -> wf_tags ct -> is_mbt ct M ks vs -> prefix_respects ct ks k2p ->
  cs <> [] -> Forall (fine_change ct ks vs) cs -> any_tree ct M t1 -> any_tree ct M t2 -> phash ct (bnode M t1) = Ok h -> phash ct (bnode M t2) = Ok h ->
  changes ct M k2p t1 cs = Ok u1 ->
  (exists e, changes ct M k2p t2 cs = Err e /\ unknown t2 e) \/
  (exists u2 h', changes ct M k2p t2 cs = Ok u2 /\ phash ct (bnode M u1) = Ok h' /\ phash ct (bnode M u2) = Ok h') \/
  hash_collision ct (bnode M t1) (bnode M t2).
Proof. intros ct M ks vs k2p cs t1 t2 h u1 W T I R. exact (changes_agree ct M ks vs k2p W T I R cs t1 t2 h u1). Qed.
Print Assumptions C176_no_contradictory_changes.

(** C176: if the hash is that of a tree of the map [D], the result has the hash of the documented tree of the map after the changes. *)
Theorem C176_changes_are_those_of_the_map : forall ct M ks vs k2p K n cs D D' t t' h, wf_table ct -> wf_tags ct -> is_mbt ct M ks vs -> good_keys ct k2p K n -> prefix_respects ct ks k2p ->
  history ct M k2p K D (Ok t) -> (forall k v, In (k, v) D -> entry_fine ct ks vs k v) ->
  cs <> [] -> map_after D cs D' -> Forall (usable ct M K) cs -> Forall (fine_change ct ks vs) cs ->
  any_tree ct M t' -> phash ct (bnode M t) = Ok h -> phash ct (bnode M t') = Ok h ->
  (exists e, changes ct M k2p t' cs = Err e /\ unknown t' e) \/
  (exists u u' h', radix_tree k2p D' u /\ changes ct M k2p t' cs = Ok u' /\ phash ct (bnode M u) = Ok h' /\ phash ct (bnode M u') = Ok h') \/
  hash_collision ct (bnode M t) (bnode M t').
Proof. intros ct M ks vs k2p K n cs D D' t t' h W T I G. exact (changes_documented ct M ks vs k2p K n W T I G cs D D' t t' h). Qed.
Print Assumptions C176_changes_are_those_of_the_map.

(** Of the tree of three entries two leaves are pruned; the third entry can be removed, replaced and joined by another; with their parent
    pruned too, nothing can be put. *)
Definition node_hash (t : mbt) : bytes := match data_hash woods (bnode IntMBTree t) with Ok d => d | Err _ => [] end.
Definition trio_tree : mbt := match mbt_new woods IntMBTree from_bytes trio with Ok t => t | Err _ => TEmpty end.
Definition less (deep : bool) : mbt :=
  match trio_tree with
  | TInner p (TInner q a b) r =>
    TInner p (if deep then TPruned BInner (node_hash (TInner q a b)) else TInner q (TPruned BLeaf (node_hash a)) (TPruned BLeaf (node_hash b))) r
  | t => t
  end.
Definition steps : list change := [Remove (key x80 x00); Put (key x80 x00) (num 12); Put (key x81 x00) (num 13)].
Definition tree_after : mbt := match changes woods IntMBTree from_bytes trio_tree steps with Ok t => t | Err _ => TEmpty end.
Definition less_after : mbt := match changes woods IntMBTree from_bytes (less false) steps with Ok t => t | Err _ => TEmpty end.

Lemma key_fits a b : holds woods (SerPrim Digest) (key a b).
Proof. destruct (woods_fine (key a b) 0 (key_digest a b)) as (A & _); [lia|exact A]. Qed.
Lemma leaf_fits a b z : (0 <= z < 2 ^ 64)%Z -> holds woods (SerProof (b_base IntMBTree)) (bnode IntMBTree (TLeaf (key a b) (num z))).
Proof. intros Hz. destruct (woods_fine (key a b) z (key_digest a b) Hz) as (A & B & _). apply Ho_full; [cbn; auto|]. constructor; [exact A|]. constructor; [exact B|constructor]. Qed.
Example C176_instance : wf_table woods /\ wf_tags woods /\ is_mbt woods IntMBTree (SerPrim Digest) (SerPrim UInt64) /\ good_keys woods from_bytes digest 256 /\
  prefix_respects woods (SerPrim Digest) from_bytes /\ history woods IntMBTree from_bytes digest trio (Ok trio_tree) /\
  (forall k v, In (k, v) trio -> entry_fine woods (SerPrim Digest) (SerPrim UInt64) k v) /\
  map_after trio steps ((key x81 x00, num 13) :: (key x80 x00, num 12) :: tl trio) /\ Forall (usable woods IntMBTree digest) steps /\ Forall (fine_change woods (SerPrim Digest) (SerPrim UInt64)) steps /\
  any_tree woods IntMBTree (less false) /\ any_tree woods IntMBTree (less true) /\
  (exists h, phash woods (bnode IntMBTree trio_tree) = Ok h /\ phash woods (bnode IntMBTree (less false)) = Ok h /\ phash woods (bnode IntMBTree (less true)) = Ok h) /\
  changes woods IntMBTree from_bytes (less false) steps = Ok less_after /\ changes woods IntMBTree from_bytes trio_tree steps = Ok tree_after /\ less_after <> tree_after /\
  (exists h, phash woods (bnode IntMBTree tree_after) = Ok h /\ phash woods (bnode IntMBTree less_after) = Ok h) /\
  put woods IntMBTree from_bytes (less true) (key x81 x00) (num 13) = Err PrunedError.
Proof.
  split; [exact woods_wf|]. split; [exact woods_tags|]. split; [exact woods_mbt|]. split; [exact woods_keys|]. split.
  { intros k k' Hk Hk' E. inversion Hk; subst; inversion Hk'; subst. match goal with A : fits _ _ _ k, B : fits _ _ _ k' |- _ => inversion A as [? a PA| | | | | |]; subst; inversion B as [? b PB| | | | | |]; subst end.
    destruct a, b; cbn in PA, PB; try contradiction. cbn in E. injection E as E. apply bytes_eqb_eq in E. subst. reflexivity. }
  split; [assert (mbt_new woods IntMBTree from_bytes trio = Ok trio_tree) as <- by (vm_compute; reflexivity); exact trio_history|]. split.
  { intros k v H. cbn [trio In] in H. decompose [or] H; try contradiction; match goal with X : _ = (k, v) |- _ => injection X as <- <- end; (apply woods_fine; [apply key_digest|lia]). }
  split; [apply (MA_remove [] (key x80 x00) (num 7) (tl trio)); apply MA_put; [cbn; intuition discriminate|]; apply MA_put; [cbn; intuition discriminate|apply MA_nil]|].
  split; [constructor; [exact I|]; constructor; [split; [apply key_digest|apply woods_entry; [apply key_digest|lia]]|]; constructor; [split; [apply key_digest|apply woods_entry; [apply key_digest|lia]]|constructor]|].
  split; [constructor; [split; [apply key_fits|intros X; discriminate X]|]; constructor; [apply woods_fine; [apply key_digest|lia]|]; constructor; [apply woods_fine; [apply key_digest|lia]|constructor]|].
  assert (B : forall p, holds woods SerBits (VBits p)) by (intros p; apply Ho_leaf; [reflexivity|constructor; exact I]).
  split.
  { left. let x := eval vm_compute in (less false) in replace (less false) with x by (vm_compute; reflexivity).
    apply Ho_full; [cbn; auto|]. constructor; [apply B|]. constructor; [|constructor; [apply (leaf_fits x80 x00 7); lia|constructor]].
    apply Ho_full; [cbn; auto|]. constructor; [apply B|]. constructor; [apply Ho_hash; [cbn; auto|reflexivity]|]. constructor; [apply Ho_hash; [cbn; auto|reflexivity]|constructor]. }
  split.
  { left. let x := eval vm_compute in (less true) in replace (less true) with x by (vm_compute; reflexivity).
    apply Ho_full; [cbn; auto|]. constructor; [apply B|]. constructor; [apply Ho_hash; [cbn; auto|reflexivity]|]. constructor; [apply (leaf_fits x80 x00 7); lia|constructor]. }
  split; [eexists; split; [vm_compute; reflexivity|split; vm_compute; reflexivity]|].
  split; [vm_compute; reflexivity|]. split; [vm_compute; reflexivity|]. split; [vm_compute; intros X; discriminate X|].
  split; [eexists; split; vm_compute; reflexivity|vm_compute; reflexivity].
Qed.
