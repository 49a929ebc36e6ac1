(** Properties C30-C35: merbinner trees. *)
From Verif Require Import Base Serialize_Model Proof_Model Proof_Spec ProofHash_Proofs Mmr_Model Merbinner_Model Merbinner_Spec Merbinner_Proofs
  MerbinnerHash_Proofs MerbinnerSubset_Proofs Tree_Examples Merbinner_Examples.

(** C30: after any history the tree is the map: lookups, length, items in prefix order, and
    KeyError exactly for absent keys; no step of the history raises. *)
Theorem C30_behaves_as_the_map : forall ct M ks vs k2p K n D r, wf_table ct -> is_mbt ct M ks vs -> good_keys ct k2p K n ->
  history ct M k2p K D r -> exists t, r = Ok t /\
  (forall k v, K k -> In (k, v) D -> tgetitem ct k2p t k = Ok v) /\
  (forall k, K k -> ~ In k (map fst D) -> tgetitem ct k2p t k = Err KeyError /\ remove ct M k2p t k = Err KeyError) /\
  (forall k v, K k -> In (k, v) D -> exists t', remove ct M k2p t k = Ok t') /\
  tlen t = Ok (List.length D) /\
  exists items, titems t = Ok items /\ Permutation items D /\ StronglySorted (before k2p) items /\ tkeys t = Ok (map fst items) /\ tvalues t = Ok (map snd items).
Proof. exact behaves_as_the_map. Qed.
Print Assumptions C30_behaves_as_the_map.

Example C30_instance : wf_table woods /\ is_mbt woods IntMBTree (SerPrim Digest) (SerPrim UInt64) /\ good_keys woods from_bytes digest 256 /\
  history woods IntMBTree from_bytes digest trio (mbt_new woods IntMBTree from_bytes trio) /\
  exists t, mbt_new woods IntMBTree from_bytes trio = Ok t /\ titems t = Ok [(key x0f x00, num 8); (key x0f x01, num 9); (key x80 x00, num 7)] /\
    tgetitem woods from_bytes t (key x0f x01) = Ok (num 9) /\ tgetitem woods from_bytes t (key x0f x02) = Err KeyError /\ tlen t = Ok 3.
Proof.
  split; [exact woods_wf|]. split; [exact woods_mbt|]. split; [exact woods_keys|]. split; [exact trio_history|].
  eexists. split; [vm_compute; reflexivity|]. split; [vm_compute; reflexivity|]. split; [vm_compute; reflexivity|]. split; vm_compute; reflexivity.
Qed.

(** C31: the tree is the documented construction for the map, and only depends on the map. *)
Theorem C31_structure_is_documented : forall ct M ks vs k2p K n D r, wf_table ct -> is_mbt ct M ks vs -> good_keys ct k2p K n ->
  history ct M k2p K D r -> exists t, r = Ok t /\ radix_tree k2p D t.
Proof. exact history_documented. Qed.
Print Assumptions C31_structure_is_documented.

Theorem C31_history_independent : forall ct M ks vs k2p K n D1 D2 r1 r2, wf_table ct -> is_mbt ct M ks vs -> good_keys ct k2p K n ->
  history ct M k2p K D1 r1 -> history ct M k2p K D2 r2 -> (forall k v, In (k, v) D1 <-> In (k, v) D2) -> exists t, r1 = Ok t /\ r2 = Ok t.
Proof. exact history_independent. Qed.
Print Assumptions C31_history_independent.

Example C31_instance : exists t D, history woods IntMBTree from_bytes digest D detour /\ (forall k v, In (k, v) D <-> In (k, v) trio) /\
  detour = Ok t /\ mbt_new woods IntMBTree from_bytes trio = Ok t /\ radix_tree from_bytes trio t.
Proof.
  eexists. exists [(key x80 x00, num 7); (key x0f x00, num 8); (key x0f x01, num 9)]. split; [|split; [intros k v; reflexivity|split; [vm_compute; reflexivity|split; [vm_compute; reflexivity|]]]].
  - unfold detour.
    pose proof (Hy_new woods IntMBTree from_bytes digest [(key x0f x01, num 9); (key x77 x77, num 1)]) as H0.
    assert (H1 : history woods IntMBTree from_bytes digest [(key x0f x01, num 9); (key x77 x77, num 1)] (mbt_new woods IntMBTree from_bytes [(key x0f x01, num 9); (key x77 x77, num 1)])).
    { apply H0; [repeat constructor; cbn; intuition discriminate|]. intros k v H. cbn [In] in H. decompose [or] H; try contradiction; match goal with X : _ = (k, v) |- _ => injection X as <- <- end;
        (split; [apply key_digest|apply woods_entry; [apply key_digest|lia]]). }
    apply (Hy_put _ _ _ _ _ _ (key x0f x00) (num 8)) in H1; [|apply key_digest|apply woods_entry; [apply key_digest|lia]|cbn; intuition discriminate].
    apply (Hy_remove _ _ _ _ [(key x0f x00, num 8); (key x0f x01, num 9)] (key x77 x77) (num 1) []) in H1.
    apply (Hy_put _ _ _ _ _ _ (key x80 x00) (num 7)) in H1; [|apply key_digest|apply woods_entry; [apply key_digest|lia]|cbn; intuition discriminate].
    destruct (do t <- mbt_new _ _ _ _; put _ _ _ t _ _) as [t|]; exact H1.
  - destruct (history_documented woods IntMBTree _ _ from_bytes digest 256 trio _ woods_wf woods_mbt woods_keys trio_history) as (t & E & R).
    vm_compute in E. injection E as E. vm_compute. rewrite E. vm_compute in R. exact R.
Qed.

(** C32 is false: putting a key that is present raises AssertionError. *)
Theorem C32_put_replaces_refuted : exists ct M ks vs k2p K n D t k v, wf_table ct /\ is_mbt ct M ks vs /\ good_keys ct k2p K n /\
  history ct M k2p K D (Ok t) /\ K k /\ entry_ok ct M k v /\ In k (map fst D) /\ put ct M k2p t k v = Err AssertionError.
Proof.
  exists woods, IntMBTree, (SerPrim Digest), (SerPrim UInt64), from_bytes, digest, 256, [(key x80 x00, num 7)], (TLeaf (key x80 x00) (num 7)), (key x80 x00), (num 8).
  split; [exact woods_wf|]. split; [exact woods_mbt|]. split; [exact woods_keys|]. split.
  - apply (Hy_new woods IntMBTree from_bytes digest [(key x80 x00, num 7)]); [repeat constructor; intros []|].
    intros k v [X|[]]. injection X as <- <-. split; [apply key_digest|apply woods_entry; [apply key_digest|lia]].
  - split; [apply key_digest|]. split; [apply woods_entry; [apply key_digest|lia]|]. split; [left; reflexivity|]. vm_compute. reflexivity.
Qed.
Print Assumptions C32_put_replaces_refuted.

(** C32, what the code does instead of the full statement (a tree with the key's new
    value): for every tree and present key it raises AssertionError, even for the same value;
    removing first and then putting gives the documented result.  Missing: putting. *)
Theorem C32_put_present_partial : forall ct M ks vs k2p K n D t k v v', wf_table ct -> is_mbt ct M ks vs -> good_keys ct k2p K n ->
  history ct M k2p K D (Ok t) -> In (k, v') D -> entry_ok ct M k v ->
  put ct M k2p t k v = Err AssertionError /\
  exists t' t'', remove ct M k2p t k = Ok t' /\ put ct M k2p t' k v = Ok t'' /\ tgetitem ct k2p t'' k = Ok v /\
    (forall k0 v0, k0 <> k -> In (k0, v0) D -> tgetitem ct k2p t'' k0 = Ok v0).
Proof. exact put_present_map. Qed.
Print Assumptions C32_put_present_partial.

Example C32_instance : exists t t' t'', mbt_new woods IntMBTree from_bytes trio = Ok t /\ put woods IntMBTree from_bytes t (key x0f x00) (num 1) = Err AssertionError /\
  remove woods IntMBTree from_bytes t (key x0f x00) = Ok t' /\ put woods IntMBTree from_bytes t' (key x0f x00) (num 1) = Ok t'' /\ tgetitem woods from_bytes t'' (key x0f x00) = Ok (num 1).
Proof. eexists _, _, _. split; [vm_compute; reflexivity|]. split; [vm_compute; reflexivity|]. split; [vm_compute; reflexivity|]. split; [vm_compute; reflexivity|]. vm_compute; reflexivity. Qed.

(** C33: equal hashes, equal maps (values equal up to pruning inside values that are
    themselves proofs), or a collision. *)
Theorem C33_hash_binds_the_map : forall ct M ks vs k2p K n D1 D2 t1 t2 h, wf_table ct -> wf_tags ct -> is_mbt ct M ks vs -> good_keys ct k2p K n ->
  history ct M k2p K D1 (Ok t1) -> history ct M k2p K D2 (Ok t2) ->
  (forall k v, In (k, v) D1 \/ In (k, v) D2 -> entry_fine ct ks vs k v) ->
  phash ct (bnode M t1) = Ok h -> phash ct (bnode M t2) = Ok h ->
  ((forall k v1, In (k, v1) D1 -> exists v2, In (k, v2) D2 /\ agree ct v1 v2) /\
   (forall k v2, In (k, v2) D2 -> exists v1, In (k, v1) D1 /\ agree ct v1 v2) /\
   (Forall complete (map snd D1) -> Forall complete (map snd D2) -> forall k v, In (k, v) D1 <-> In (k, v) D2)) \/
  hash_collision ct (bnode M t1) (bnode M t2).
Proof. exact map_binding. Qed.
Print Assumptions C33_hash_binds_the_map.

Example C33_instance : wf_tags woods /\ (forall k v, In (k, v) trio -> entry_fine woods (SerPrim Digest) (SerPrim UInt64) k v) /\ exists t1 t2 h1 h2,
  mbt_new woods IntMBTree from_bytes trio = Ok t1 /\ mbt_new woods IntMBTree from_bytes (tl trio) = Ok t2 /\
  phash woods (bnode IntMBTree t1) = Ok h1 /\ phash woods (bnode IntMBTree t2) = Ok h2 /\ h1 <> h2.
Proof.
  split; [exact woods_tags|]. split.
  - intros k v H. cbn [trio In] in H. decompose [or] H; try contradiction; match goal with X : _ = (k, v) |- _ => injection X as <- <- end; (apply woods_fine; [apply key_digest|lia]).
  - eexists _, _, _, _. split; [vm_compute; reflexivity|]. split; [vm_compute; reflexivity|]. split; [vm_compute; reflexivity|]. split; [vm_compute; reflexivity|]. discriminate.
Qed.

(** C34: two tree objects with equal hash, honest or not, never contradict each other. *)
Theorem C34_no_contradictory_lookups : forall ct M ks vs k2p t1 t2 h, wf_table ct -> wf_tags ct -> is_mbt ct M ks vs ->
  any_tree ct M t1 -> any_tree ct M t2 -> phash ct (bnode M t1) = Ok h -> phash ct (bnode M t2) = Ok h ->
  ((forall k v1 v2, tgetitem ct k2p t1 k = Ok v1 -> tgetitem ct k2p t2 k = Ok v2 -> agree ct v1 v2) /\
   (forall k v1, tgetitem ct k2p t1 k = Ok v1 -> tgetitem ct k2p t2 k <> Err KeyError)) \/ hash_collision ct (bnode M t1) (bnode M t2).
Proof. intros ct M ks vs k2p t1 t2 h W T I. exact (lookups_agree ct M ks vs W T I k2p t1 t2 h). Qed.
Print Assumptions C34_no_contradictory_lookups.

(** The left sub-tree pruned away; and a malformed object: a leaf on the wrong side. *)
Definition pruned_trio : result mbt :=
  do t <- mbt_new woods IntMBTree from_bytes trio;
  match t with TInner p l r => do dh <- data_hash woods (bnode IntMBTree l); Ok (TInner p (TPruned BInner dh) r) | _ => Err AssertionError end.
Definition malformed : mbt := TInner [] (TLeaf (key x80 x00) (num 7)) (TLeaf (key x80 x00) (num 8)).
Example C34_instance : exists t1 t2 h, mbt_new woods IntMBTree from_bytes trio = Ok t1 /\ pruned_trio = Ok t2 /\
  phash woods (bnode IntMBTree t1) = Ok h /\ phash woods (bnode IntMBTree t2) = Ok h /\ any_tree woods IntMBTree t2 /\ any_tree woods IntMBTree malformed /\
  tgetitem woods from_bytes t2 (key x80 x00) = Ok (num 7) /\ tgetitem woods from_bytes t2 (key x0f x00) = Err PrunedError /\ tgetitem woods from_bytes malformed (key x80 x00) = Ok (num 8).
Proof.
  assert (LH : forall a b z, (0 <= z < 2 ^ 64)%Z -> holds woods (SerProof 4) (bnode IntMBTree (TLeaf (key a b) (num z)))).
  { intros a b z Hz. destruct (woods_fine (key a b) z (key_digest a b) Hz) as (A & B & _). apply Ho_full; [cbn; auto|]. constructor; [exact A|]. constructor; [exact B|constructor]. }
  eexists _, _, _. split; [vm_compute; reflexivity|]. split; [vm_compute; reflexivity|]. split; [vm_compute; reflexivity|]. split; [vm_compute; reflexivity|].
  split; [left; apply Ho_full; [cbn; auto|]; constructor; [apply Ho_leaf; [reflexivity|constructor; exact I]|]; constructor; [apply Ho_hash; [cbn; auto|reflexivity]|]; constructor; [apply (LH x80 x00 7%Z); lia|constructor]|].
  split; [left; apply Ho_full; [cbn; auto|]; constructor; [apply Ho_leaf; [reflexivity|constructor; exact I]|]; constructor; [apply LH; lia|]; constructor; [apply LH; lia|constructor]|].
  split; [vm_compute; reflexivity|]. split; vm_compute; reflexivity.
Qed.

(** C35: issubset never raises and tells whether every entry is an entry of the other tree,
    or two of the byte strings hashed for the two trees and the empty tree collide. *)
Theorem C35_issubset : forall ct M ks vs k2p K n D1 D2 t1 t2, wf_table ct -> wf_tags ct -> is_mbt ct M ks vs -> good_keys ct k2p K n ->
  history ct M k2p K D1 (Ok t1) -> history ct M k2p K D2 (Ok t2) ->
  (forall k v, In (k, v) D1 \/ In (k, v) D2 -> entry_fine ct ks vs k v) ->
  (exists b, issubset ct M k2p t1 t2 = Ok b /\ (b = true <-> sub_map ct D1 D2)) \/
  collision_among ct [bnode M t1; bnode M t2; bnode M TEmpty].
Proof. exact issubset_map. Qed.
Print Assumptions C35_issubset.

Example C35_instance : exists t1 t2 t3, mbt_new woods IntMBTree from_bytes trio = Ok t1 /\ mbt_new woods IntMBTree from_bytes (tl trio) = Ok t2 /\
  mbt_new woods IntMBTree from_bytes [(key x0f x01, num 9); (key x80 x00, num 8)] = Ok t3 /\
  issubset woods IntMBTree from_bytes t2 t1 = Ok true /\ issubset woods IntMBTree from_bytes t1 t2 = Ok false /\ issubset woods IntMBTree from_bytes t3 t1 = Ok false.
Proof.
  eexists _, _, _. split; [vm_compute; reflexivity|]. split; [vm_compute; reflexivity|]. split; [vm_compute; reflexivity|]. split; [vm_compute; reflexivity|]. split; vm_compute; reflexivity.
Qed.
