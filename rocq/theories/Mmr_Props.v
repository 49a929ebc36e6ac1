(** Properties C24-C29, C51: merkle mountain ranges. *)
From Verif Require Import Base PySlice Serialize_Model Proof_Model Proof_Spec ProofHash_Proofs ProofArrive_Proofs Mmr_Model Mmr_Spec Mmr_Proofs MmrSlice_Proofs Tree_Examples.
Local Open Scope Z_scope.

(** C24: however a MMR is built, it is the documented tree of the list of values (in
    particular no assertion fires); there is only one such tree. *)
Theorem C24_structure_is_canonical : forall ct M sr vs r, wf_table ct -> is_mmr ct M sr ->
  built ct M vs r -> Forall (item ct M) vs -> fine (List.length vs) -> exists t, r = Ok t /\ documented vs t.
Proof. exact built_ok. Qed.
Print Assumptions C24_structure_is_canonical.

Theorem C24_documented_tree_is_unique : forall vs t t', documented vs t -> documented vs t' -> t = t'.
Proof. intros vs t t' D D'. exact (doc_unique vs t D t' D'). Qed.
Print Assumptions C24_documented_tree_is_unique.

Example C24_instance : wf_table woods /\ is_mmr woods IntMMR (SerPrim UInt64) /\ Forall (item woods IntMMR) (nums 11) /\
  (do t <- mmr_new woods IntMMR (nums 3); do t <- append woods IntMMR t (num 3); extend woods IntMMR t (map num [4; 5; 6])) =
    Ok (Inner (Inner (Inner (Inner (Leaf (num 0)) (Leaf (num 1)) 2) (Inner (Leaf (num 2)) (Leaf (num 3)) 2) 4)
                     (Inner (Leaf (num 4)) (Leaf (num 5)) 2) 6)
              (Leaf (num 6)) 7) /\
  built woods IntMMR (nums 7) (do t <- (do t <- mmr_new woods IntMMR (nums 3); append woods IntMMR t (num 3)); extend woods IntMMR t (map num [4; 5; 6])).
Proof.
  split; [exact woods_wf|]. split; [exact woods_mmr|]. split; [apply nums_all; [exact num_item|lia]|]. split; [vm_compute; reflexivity|].
  change (nums 7) with ((nums 3 ++ [num 3]) ++ map num [4; 5; 6]). apply B_extend, B_append, B_new.
Qed.

(** C25: len, iteration, reversed iteration and indexing are those of the list. *)
Theorem C25_behaves_as_the_list : forall ct M sr vs r, wf_table ct -> is_mmr ct M sr ->
  built ct M vs r -> Forall (item ct M) vs -> fine (List.length vs) -> exists t, r = Ok t /\
  mlen t = Ok (Z.of_nat (List.length vs)) /\ items t = Ok vs /\ items_reversed t = Ok (rev vs) /\
  (forall i, 0 <= i < Z.of_nat (List.length vs) -> exists v, nth_error vs (Z.to_nat i) = Some v /\ getitem t i = Ok v) /\
  (forall i, - Z.of_nat (List.length vs) <= i < 0 -> exists v, nth_error vs (Z.to_nat (Z.of_nat (List.length vs) + i)) = Some v /\ getitem t i = Ok v) /\
  (forall i, ~ - Z.of_nat (List.length vs) <= i < Z.of_nat (List.length vs) -> getitem t i = Err IndexError).
Proof.
  intros ct M sr vs r W I B IV F. destruct (built_ok ct M sr vs r W I B IV F) as (t & -> & D). exists t. split; [reflexivity|].
  split; [apply doc_len; assumption|]. split; [apply doc_items; assumption|]. split; [apply doc_items_reversed; assumption|].
  pose proof (getitem_ok vs t D F) as G.
  assert (NTH : forall j, 0 <= j < Z.of_nat (List.length vs) -> exists v, nth_error vs (Z.to_nat j) = Some v).
  { intros j Hj. destruct (nth_error vs (Z.to_nat j)) eqn:E; [eauto|]. apply nth_error_None in E. lia. }
  split; [|split].
  - intros i Hi. destruct (NTH i Hi) as (v & E). exists v. split; [exact E|]. rewrite G. unfold py_index, znth.
    destruct (Z.ltb_spec i 0); [lia|]. destruct (Z.ltb_spec i 0); [lia|]. rewrite E. reflexivity.
  - intros i Hi. destruct (NTH (Z.of_nat (List.length vs) + i)) as (v & E); [lia|]. exists v. split; [exact E|]. rewrite G. unfold py_index, znth.
    destruct (Z.ltb_spec i 0); [|lia]. destruct (Z.ltb_spec (i + Z.of_nat (List.length vs)) 0); [lia|]. rewrite Z.add_comm, E. reflexivity.
  - intros i Hi. rewrite G. apply index_bounds, Hi.
Qed.
Print Assumptions C25_behaves_as_the_list.

(** C25: the items already there keep their place. *)
Theorem C25_extending_keeps_items : forall ct M sr vs vs' t t' i, wf_table ct -> is_mmr ct M sr ->
  built ct M vs (Ok t) -> Forall (item ct M) (vs ++ vs') -> fine (List.length (vs ++ vs')) -> extend ct M t vs' = Ok t' ->
  0 <= i < Z.of_nat (List.length vs) -> getitem t' i = getitem t i.
Proof.
  intros ct M sr vs vs' t t' i W I B IV F E Hi. pose proof (proj1 (Forall_app _ _ _) IV) as (IV1 & _).
  assert (F1 : fine (List.length vs)) by (unfold fine in *; rewrite app_length in F; lia).
  destruct (built_ok ct M sr vs _ W I B IV1 F1) as (t0 & E0 & D0). inversion E0; subst t0.
  destruct (built_ok ct M sr _ _ W I (B_extend ct M vs _ vs' B) IV F) as (t1 & E1 & D1). cbn [bind] in E1. assert (t1 = t') as -> by congruence.
  rewrite (getitem_ok _ _ D0 F1), (getitem_ok _ _ D1 F). unfold py_index. destruct (Z.ltb_spec i 0); [lia|]. rewrite znth_app_l by lia. reflexivity.
Qed.
Print Assumptions C25_extending_keeps_items.

Example C25_instance : exists t, mmr_new woods IntMMR (nums 13) = Ok t /\ mlen t = Ok 13 /\ getitem t 11 = Ok (num 11) /\ getitem t (-13) = Ok (num 0) /\
  getitem t 13 = Err IndexError /\ getitem t (-14) = Err IndexError /\ items_reversed t = Ok (rev (nums 13)).
Proof. eexists. split; [vm_compute; reflexivity|]. vm_compute. auto 10. Qed.

(** C26 is false: 12 items, [m[9:7]] gives two items where a list gives none. *)
Theorem C26_slice_refuted : exists ct M sr vs t s t', wf_table ct /\ is_mmr ct M sr /\ Forall (item ct M) vs /\
  built ct M vs (Ok t) /\ sl_step s = None /\ py_slice vs s = Ok [] /\ getslice ct M t s = Ok t' /\ mlen t' = Ok 2.
Proof.
  exists woods, IntMMR, (SerPrim UInt64), (nums 12). eexists. exists (Slice (Some 9) (Some 7) None). eexists.
  split; [exact woods_wf|]. split; [exact woods_mmr|]. split; [apply nums_all; [exact num_item|lia]|].
  split. { assert (E : exists t, mmr_new woods IntMMR (nums 12) = Ok t) by (eexists; vm_compute; reflexivity).
    pose proof (B_new woods IntMMR (nums 12)) as B. vm_compute in B. vm_compute. exact B. }
  split; [reflexivity|]. split; [vm_compute; reflexivity|]. split; [vm_compute; reflexivity|]. vm_compute. reflexivity.
Qed.
Print Assumptions C26_slice_refuted.

(** C26, what holds of the full statement (every start and stop): whenever the start is not
    after the stop once both are clamped to the list as Python does, the slice is the MMR of
    the slice of the list.  Missing: start after stop, where the result should be empty. *)
Theorem C26_slice_partial : forall ct M sr vs r s a b, wf_table ct -> is_mmr ct M sr ->
  built ct M vs r -> Forall (item ct M) vs -> fine (List.length vs) ->
  slice_indices s (Z.of_nat (List.length vs)) = Ok (a, b, 1) -> a <= b ->
  exists t vs' t', r = Ok t /\ py_slice vs s = Ok vs' /\ getslice ct M t s = Ok t' /\ documented vs' t' /\ mmr_new ct M vs' = Ok t'.
Proof.
  intros ct M sr vs r s a b W I B IV F E LE. destruct (built_ok ct M sr vs r W I B IV F) as (t & -> & D).
  destruct (getslice_ok ct M sr W I t vs D IV F s a b E LE) as (t' & G & D'). set (vs' := firstn _ _) in *.
  exists t, vs', t'. split; [reflexivity|]. split; [apply PySlice_Proofs.py_slice_unit, E|]. split; [exact G|]. split; [exact D'|].
  assert (IV' : Forall (item ct M) vs').
  { apply Forall_forall. intros x Hx. rewrite Forall_forall in IV. apply IV. unfold vs' in Hx.
    rewrite <- (firstn_skipn (Z.to_nat a) vs). apply in_or_app. right. rewrite <- (firstn_skipn (Z.to_nat (b - a)) (skipn (Z.to_nat a) vs)). apply in_or_app. left. exact Hx. }
  assert (F' : fine (List.length vs')). { unfold fine in *. unfold vs'. rewrite firstn_length, skipn_length. lia. }
  destruct (built_ok ct M sr vs' _ W I (B_new ct M vs') IV' F') as (t2 & E2 & D2). rewrite E2. f_equal. exact (doc_unique _ _ D2 _ D').
Qed.
Print Assumptions C26_slice_partial.

Example C26_instance : slice_indices (Slice (Some (-7)) (Some (-2)) None) (Z.of_nat (List.length (nums 11))) = Ok (4, 9, 1) /\
  exists t t', mmr_new woods IntMMR (nums 11) = Ok t /\ getslice woods IntMMR t (Slice (Some (-7)) (Some (-2)) None) = Ok t' /\
  items t' = Ok (map num [4; 5; 6; 7; 8]).
Proof. split; [vm_compute; reflexivity|]. eexists. eexists. split; [vm_compute; reflexivity|]. split; [vm_compute; reflexivity|]. vm_compute. reflexivity. Qed.

(** C26, the missing case: a stop before the start, where a list gives nothing.  The slice
    never raises and never gives anything but the documented tree of consecutive items that
    begin at the start (possibly none); with the stop at or before the first item it is empty
    as it should be. *)
Theorem C26_slice_backwards_partial : forall ct M sr vs r s a b, wf_table ct -> is_mmr ct M sr ->
  built ct M vs r -> Forall (item ct M) vs -> fine (List.length vs) ->
  slice_indices s (Z.of_nat (List.length vs)) = Ok (a, b, 1) -> b < a ->
  exists t t' k, r = Ok t /\ py_slice vs s = Ok [] /\ getslice ct M t s = Ok t' /\
  documented (firstn k (skipn (Z.to_nat a) vs)) t' /\ (b = 0 -> t' = Empty).
Proof.
  intros ct M sr vs r s a b W I B IV F E LT. destruct (built_ok ct M sr vs r W I B IV F) as (t & -> & D).
  destruct (getslice_back ct M sr W I t vs D IV F s a b E LT) as (t' & k & G & D' & K). exists t, t', k. split; [reflexivity|].
  split. { rewrite (PySlice_Proofs.py_slice_unit vs s a b E). replace (Z.to_nat (b - a)) with 0%nat by lia. reflexivity. }
  split; [exact G|]. split; [exact D'|]. intros Hb. rewrite (K Hb) in D'. cbn [firstn] in D'. exact (doc_unique _ _ D' _ D_empty).
Qed.
Print Assumptions C26_slice_backwards_partial.

Example C26_backwards_instance : slice_indices (Slice (Some 9) (Some (-5)) None) (Z.of_nat (List.length (nums 12))) = Ok (9, 7, 1) /\
  slice_indices (Slice (Some 11) (Some (-20)) None) (Z.of_nat (List.length (nums 12))) = Ok (11, 0, 1) /\
  exists t t', mmr_new woods IntMMR (nums 12) = Ok t /\ getslice woods IntMMR t (Slice (Some 9) (Some (-5)) None) = Ok t' /\
  items t' = Ok (map num [9; 10]) /\ getslice woods IntMMR t (Slice (Some 11) (Some (-20)) None) = Ok Empty.
Proof.
  split; [vm_compute; reflexivity|]. split; [vm_compute; reflexivity|]. eexists. eexists. split; [vm_compute; reflexivity|]. split; [vm_compute; reflexivity|].
  split; vm_compute; reflexivity.
Qed.

(** C27: equal hashes, equal lists (item by item equal up to pruning inside items that are
    themselves proofs), or a collision. *)
Theorem C27_hash_binds_the_list : forall ct M sr vs1 vs2 t1 t2 h, wf_table ct -> wf_tags ct -> is_mmr ct M sr ->
  built ct M vs1 (Ok t1) -> built ct M vs2 (Ok t2) -> Forall (item ct M) vs1 -> Forall (item ct M) vs2 ->
  Forall (holds ct sr) vs1 -> Forall (holds ct sr) vs2 -> fine (List.length vs1) -> fine (List.length vs2) ->
  phash ct (node M t1) = Ok h -> phash ct (node M t2) = Ok h ->
  (Forall2 (agree ct) vs1 vs2 /\ (Forall complete vs1 -> Forall complete vs2 -> vs1 = vs2)) \/ hash_collision ct (node M t1) (node M t2).
Proof.
  intros ct M sr vs1 vs2 t1 t2 h W T I B1 B2 I1 I2 H1 H2 F1 F2 P1 P2.
  destruct (built_ok ct M sr vs1 _ W I B1 I1 F1) as (t1' & E1 & D1). inversion E1; subst t1'.
  destruct (built_ok ct M sr vs2 _ W I B2 I2 F2) as (t2' & E2 & D2). inversion E2; subst t2'.
  eapply list_binding; eassumption.
Qed.
Print Assumptions C27_hash_binds_the_list.

Example C27_instance : wf_tags woods /\ Forall (holds woods (SerPrim UInt64)) (nums 3) /\ exists t1 t2 h1 h2,
  mmr_new woods IntMMR (map num [1; 2; 3]) = Ok t1 /\ mmr_new woods IntMMR (map num [2; 1; 3]) = Ok t2 /\
  phash woods (node IntMMR t1) = Ok h1 /\ phash woods (node IntMMR t2) = Ok h2 /\ h1 <> h2.
Proof.
  split; [exact woods_tags|]. split; [apply nums_all; [exact num_holds|lia]|]. eexists _, _, _, _. split; [vm_compute; reflexivity|].
  split; [vm_compute; reflexivity|]. split; [vm_compute; reflexivity|]. split; [vm_compute; reflexivity|]. discriminate.
Qed.

(** C28: two proof objects with equal hash never contradict each other. *)
Theorem C28_no_contradictory_proofs : forall ct M sr t1 t2 h, wf_table ct -> wf_tags ct -> is_mmr ct M sr ->
  any_object ct M t1 -> any_object ct M t2 -> phash ct (node M t1) = Ok h -> phash ct (node M t2) = Ok h ->
  ((forall n1 n2, mlen t1 = Ok n1 -> mlen t2 = Ok n2 -> n1 = n2) /\
   (forall i v1 v2, getitem t1 i = Ok v1 -> getitem t2 i = Ok v2 -> agree ct v1 v2) /\
   (forall l1 l2, items t1 = Ok l1 -> items t2 = Ok l2 -> Forall2 (agree ct) l1 l2) /\
   (forall i v1 n2, getitem t1 i = Ok v1 -> mlen t2 = Ok n2 -> - n2 <= i < n2)) \/ hash_collision ct (node M t1) (node M t2).
Proof. exact no_contradiction. Qed.
Print Assumptions C28_no_contradictory_proofs.

(** An honest object with a hidden sub-tree, and one with a dishonest length. *)
Definition hidden_half : result mmr :=
  do l <- mmr_new woods IntMMR (map num [1; 2]); do r <- mmr_new woods IntMMR (map num [3; 4]);
  do dh <- data_hash woods (node IntMMR l); Ok (Inner (Pruned KInner dh) r 4).
Example C28_instance : exists t1 t2 h, hidden_half = Ok t1 /\ mmr_new woods IntMMR (map num [1; 2; 3; 4]) = Ok t2 /\
  phash woods (node IntMMR t1) = Ok h /\ phash woods (node IntMMR t2) = Ok h /\ any_object woods IntMMR t1 /\
  any_object woods IntMMR (Inner (Leaf (num 1)) (Leaf (num 2)) 77) /\ mlen (Inner (Leaf (num 1)) (Leaf (num 2)) 77) = Ok 77.
Proof.
  eexists _, _, _. split; [vm_compute; reflexivity|]. split; [vm_compute; reflexivity|]. split; [vm_compute; reflexivity|]. split; [vm_compute; reflexivity|].
  split; [|split; [|reflexivity]]; left.
  - apply inner_holds; [apply Ho_hash; [cbn; auto|reflexivity]| |lia]. apply inner_holds; [apply leaf_holds; lia|apply leaf_holds; lia|lia].
  - apply inner_holds; [apply leaf_holds; lia|apply leaf_holds; lia|lia].
Qed.

(** C29: is_perfect_tree tells whether the number of items is a power of two. *)
Theorem C29_is_perfect_tree : forall ct M sr vs r, wf_table ct -> is_mmr ct M sr ->
  built ct M vs r -> Forall (item ct M) vs -> fine (List.length vs) -> exists t b, r = Ok t /\ is_perfect_tree t = Ok b /\
  (b = true <-> exists e, List.length vs = (2 ^ e)%nat).
Proof.
  intros ct M sr vs r W I B IV F. destruct (built_ok ct M sr vs r W I B IV F) as (t & -> & D).
  exists t, (perfect (Z.of_nat (List.length vs))). split; [reflexivity|]. split; [unfold is_perfect_tree; rewrite (doc_len vs t D F); reflexivity|].
  rewrite perfect_spec by lia. split.
  - intros (e & He & E). exists (Z.to_nat e). apply Nat2Z.inj. rewrite Nat2Z.inj_pow, E. f_equal. lia.
  - intros (e & E). exists (Z.of_nat e). split; [lia|]. rewrite E, Nat2Z.inj_pow. reflexivity.
Qed.
Print Assumptions C29_is_perfect_tree.

Example C29_instance : exists t8 t12, mmr_new woods IntMMR (nums 8) = Ok t8 /\ mmr_new woods IntMMR (nums 12) = Ok t12 /\
  is_perfect_tree t8 = Ok true /\ is_perfect_tree t12 = Ok false /\ is_perfect_tree Empty = Ok false.
Proof. eexists. eexists. split; [vm_compute; reflexivity|]. split; [vm_compute; reflexivity|]. vm_compute. auto. Qed.

(** C51 is false: a MMR received with its root pruned is of the base class, whose [append]
    returns a MMR holding just the new value. *)
Theorem C51_append_to_pruned_refuted : exists ct M sr dh v t', wf_table ct /\ is_mmr ct M sr /\ item ct M v /\
  de_class ct (m_base M) (xff :: dh) = Ok (node M (Pruned KBase dh), []) /\
  append ct M (Pruned KBase dh) v = Ok t' /\ documented [v] t'.
Proof.
  exists woods, IntMMR, (SerPrim UInt64), (repeat x01 32), (num 5), (Leaf (num 5)). split; [exact woods_wf|]. split; [exact woods_mmr|].
  split; [apply num_item; lia|]. split; [vm_compute; reflexivity|]. split; [vm_compute; reflexivity|constructor].
Qed.
Print Assumptions C51_append_to_pruned_refuted.

(** C51, what holds of the full statement (appending to any pruned MMR): if the root is
    still of its own class, extending raises PrunedError or gives a pruned form of the
    extended MMR, with its hash.  Missing: the root received as a pruned base class. *)
Theorem C51_extend_pruned_partial : forall ct M sr vs t t' vs', wf_table ct -> is_mmr ct M sr -> built ct M vs (Ok t) ->
  Forall (item ct M) (vs ++ vs') -> fine (List.length (vs ++ vs')) -> hides ct M t t' ->
  extend ct M t' vs' = Err PrunedError \/
  exists u u', extend ct M t' vs' = Ok u' /\ documented (vs ++ vs') u /\ hides ct M u u' /\ phash ct (node M u') = phash ct (node M u).
Proof. exact append_to_hidden. Qed.
Print Assumptions C51_extend_pruned_partial.

Example C51_instance : exists t1 t2 u1 u2 h, hidden_half = Ok t1 /\ mmr_new woods IntMMR (map num [1; 2; 3; 4]) = Ok t2 /\ hides woods IntMMR t2 t1 /\
  extend woods IntMMR t1 (map num [5; 6]) = Ok u1 /\ extend woods IntMMR t2 (map num [5; 6]) = Ok u2 /\
  phash woods (node IntMMR u1) = Ok h /\ phash woods (node IntMMR u2) = Ok h.
Proof.
  eexists _, _, _, _, _. split; [vm_compute; reflexivity|]. split; [vm_compute; reflexivity|]. split.
  { apply Hi_inner; [|apply Hi_same]. apply (Hi_pruned woods IntMMR (Inner (Leaf (num 1)) (Leaf (num 2)) 2)). vm_compute. reflexivity. }
  split; [vm_compute; reflexivity|]. split; [vm_compute; reflexivity|]. split; vm_compute; reflexivity.
Qed.

(** C55 for classes with variants (like the nodes of a MMR) too: what deserialize returns is
    well typed all the way down, or is nothing but the 32 byte data hash of a pruned proof of
    the class that was asked for. *)
Theorem C55_classes_with_variants : forall ct c buf v, wf_table ct -> variant_table ct -> deserialize ct c buf = Ok v ->
  fits ct any_bits (SerProof c) v \/
  exists dh, v = PHash c dh /\ List.length dh = 32%nat /\ c_kind (ct c) <> Plain.
Proof.
  intros ct c buf v W V H. destruct (deserialize_arrived ct c buf v W V H) as [F|(dh & E & L & N)]; [left; exact F|].
  right. exists dh. split; [exact E|]. split; [exact L|]. intros K. apply N. unfold declared. rewrite K. reflexivity.
Qed.
Print Assumptions C55_classes_with_variants.

Lemma woods_variants : variant_table woods.
Proof.
  assert (B : base_declared woods 0%nat /\ base_declared woods 4%nat).
  { split; intros u k Hu Hk H; [assert (u = [1; 2; 3]%nat) as -> by (inversion Hu; reflexivity)|assert (u = [5; 6; 7]%nat) as -> by (inversion Hu; reflexivity)];
      cbn in Hk; intuition subst; cbn in H; intuition discriminate. }
  destruct B as [B0 B4]. intros c name sr Ha.
  per c; cbn [woods c_attrs In] in Ha; intuition; repeat match goal with H : _ = (_, _) |- _ => injection H as <- <- end; assumption || exact I.
Qed.

Definition mmr3 := match mmr_new woods IntMMR (nums 3) with Ok t => node IntMMR t | _ => num 0 end.
Definition mmr3_file := match ser_proof woods mmr3 with Ok f => f | _ => [] end.
Example C55_variants_instance : variant_table woods /\ c_kind (woods (m_base IntMMR)) <> Plain /\
  deserialize woods (m_base IntMMR) (xff :: repeat x01 32) = Ok (PHash (m_base IntMMR) (repeat x01 32)) /\
  List.length mmr3_file = 15%nat /\ deserialize woods (m_base IntMMR) mmr3_file = Ok mmr3.
Proof.
  split; [exact woods_variants|]. split; [discriminate|]. repeat split; vm_compute; reflexivity.
Qed.
