(** Property C177: extending and slicing merkle mountain ranges that are not complete. *)
From Verif Require Import Base PySlice Serialize_Model Serialize_Spec Proof_Model Proof_Spec Mmr_Model Mmr_Spec Merbinner_Spec ProofHash_Proofs Tree_Examples MmrChange_Spec MmrChange_Proofs.
Local Open Scope Z_scope.

(** C177: two MMR objects with equal hash, honest or not, complete or not, never contradict each other about what is made of them: when a
    sequence of extensions and slices works on one of them, then the other gives a MMR with the same hash, or raises PrunedError. *)
Theorem C177_no_contradictory_changes : forall ct M sr os t1 t2 h u1, wf_table ct -> wf_tags ct -> is_mmr ct M sr ->
  Forall (fine_mop ct sr) os -> holds ct (SerProof (m_base M)) (node M t1) -> holds ct (SerProof (m_base M)) (node M t2) ->
  phash ct (node M t1) = Ok h -> phash ct (node M t2) = Ok h -> mrun ct M t1 os = Ok u1 ->
  mrun ct M t2 os = Err PrunedError \/
  (exists u2 h', mrun ct M t2 os = Ok u2 /\ phash ct (node M u1) = Ok h' /\ phash ct (node M u2) = Ok h') \/
  hash_collision ct (node M t1) (node M t2).
Proof. intros ct M sr os t1 t2 h u1 W T I. exact (runs_agree ct M sr W T I os t1 t2 h u1). Qed.
Print Assumptions C177_no_contradictory_changes.

(** C177: if the hash is that of the MMR of a list, the result has the hash of the documented MMR of the list that the same extensions
    and slices give. *)
Theorem C177_changes_are_those_of_the_list : forall ct M sr os l l' t t' h, wf_table ct -> wf_tags ct -> is_mmr ct M sr ->
  built ct M l (Ok t) -> Forall (item ct M) l -> Forall (fine_value ct sr) l -> fine (List.length l) ->
  list_after l os l' -> Forall (fine_mop ct sr) os -> (forall vs, In (Extend vs) os -> Forall (item ct M) vs) ->
  holds ct (SerProof (m_base M)) (node M t') -> phash ct (node M t) = Ok h -> phash ct (node M t') = Ok h ->
  mrun ct M t' os = Err PrunedError \/
  (exists u u' h', documented l' u /\ mrun ct M t' os = Ok u' /\ phash ct (node M u) = Ok h' /\ phash ct (node M u') = Ok h') \/
  hash_collision ct (node M t) (node M t').
Proof. intros ct M sr os l l' t t' h W T I. exact (runs_documented ct M sr W T I os l l' t t' h). Qed.
Print Assumptions C177_changes_are_those_of_the_list.

(** Of the MMR of 0 .. 4 the items 0 and 1 are pruned, or all but the last one.  In the first case two items can be appended, all but
    the last of the items from 4 on taken and another item appended; in the second nothing can be appended. *)
Definition five : mmr := match mmr_new woods IntMMR (nums 5) with Ok t => t | Err _ => Empty end.
Definition hash_of (t : mmr) : bytes := match data_hash woods (node IntMMR t) with Ok d => d | Err _ => [] end.
Definition without (deep : bool) : mmr :=
  match five with
  | Inner (Inner a b m) r n => Inner (if deep then Pruned KInner (hash_of (Inner a b m)) else Inner (Pruned KInner (hash_of a)) b m) r n
  | t => t
  end.
Definition doings : list mop := [Extend (map num [5; 6]); Cut (Slice (Some 4) (Some (-1)) None); Extend [num 9]].
Definition five_after : mmr := match mrun woods IntMMR five doings with Ok t => t | Err _ => Empty end.
Definition growing : list mop := [Extend (map num [5; 6; 7])].
Definition grown : mmr := match mrun woods IntMMR five growing with Ok t => t | Err _ => Empty end.
Definition less_grown : mmr := match mrun woods IntMMR (without false) growing with Ok t => t | Err _ => Empty end.

Lemma num_fine z : 0 <= z < 2 ^ 64 -> fine_value woods (SerPrim UInt64) (num z).
Proof. intros H. split; [apply num_holds, H|intros X; discriminate X]. Qed.
Example C177_instance : wf_table woods /\ wf_tags woods /\ is_mmr woods IntMMR (SerPrim UInt64) /\ built woods IntMMR (nums 5) (Ok five) /\
  Forall (item woods IntMMR) (nums 5) /\ Forall (fine_value woods (SerPrim UInt64)) (nums 5) /\ fine (List.length (nums 5)) /\
  list_after (nums 5) doings (map num [4; 5; 9]) /\ Forall (fine_mop woods (SerPrim UInt64)) doings /\ (forall vs, In (Extend vs) doings -> Forall (item woods IntMMR) vs) /\
  holds woods (SerProof (m_base IntMMR)) (node IntMMR five) /\ holds woods (SerProof (m_base IntMMR)) (node IntMMR (without false)) /\ holds woods (SerProof (m_base IntMMR)) (node IntMMR (without true)) /\
  (exists h, phash woods (node IntMMR five) = Ok h /\ phash woods (node IntMMR (without false)) = Ok h /\ phash woods (node IntMMR (without true)) = Ok h) /\
  mrun woods IntMMR five doings = Ok five_after /\ mrun woods IntMMR (without false) doings = Ok five_after /\ items five_after = Ok (map num [4; 5; 9]) /\
  mrun woods IntMMR five growing = Ok grown /\ mrun woods IntMMR (without false) growing = Ok less_grown /\ grown <> less_grown /\
  (exists h, phash woods (node IntMMR grown) = Ok h /\ phash woods (node IntMMR less_grown) = Ok h) /\
  mrun woods IntMMR (without true) doings = Err PrunedError /\ mrun woods IntMMR (without false) [Cut (Slice (Some 1) (Some 3) None)] = Err PrunedError.
Proof.
  split; [exact woods_wf|]. split; [exact woods_tags|]. split; [exact woods_mmr|].
  split; [assert (mmr_new woods IntMMR (nums 5) = Ok five) as <- by (vm_compute; reflexivity); apply B_new|].
  split; [repeat (constructor; [apply num_item; lia|]); constructor|]. split; [repeat (constructor; [apply num_fine; lia|]); constructor|]. split; [unfold fine; cbn; lia|].
  split. { apply LA_extend; [unfold fine; cbn; lia|]. apply (LA_cut _ _ 4 6 _ (map num [4; 5])); [reflexivity|lia|reflexivity|]. apply LA_extend; [unfold fine; cbn; lia|apply LA_nil]. }
  split. { constructor; [repeat (constructor; [apply num_fine; lia|]); constructor|]. constructor; [exact Logic.I|]. constructor; [repeat (constructor; [apply num_fine; lia|]); constructor|constructor]. }
  split. { intros vs [E|[E|[E|[]]]]; try discriminate E; injection E as <-; repeat (constructor; [apply num_item; lia|]); constructor. }
  split. { let x := eval vm_compute in five in replace five with x by (vm_compute; reflexivity). repeat (apply inner_holds; [| |lia]); (apply leaf_holds; lia). }
  split. { let x := eval vm_compute in (without false) in replace (without false) with x by (vm_compute; reflexivity).
    repeat (apply inner_holds; [| |lia]); first [apply leaf_holds; lia|apply Ho_hash; [cbn; auto|reflexivity]]. }
  split. { let x := eval vm_compute in (without true) in replace (without true) with x by (vm_compute; reflexivity).
    repeat (apply inner_holds; [| |lia]); first [apply leaf_holds; lia|apply Ho_hash; [cbn; auto|reflexivity]]. }
  split; [eexists; split; [vm_compute; reflexivity|split; vm_compute; reflexivity]|].
  split; [vm_compute; reflexivity|]. split; [vm_compute; reflexivity|]. split; [vm_compute; reflexivity|]. split; [vm_compute; reflexivity|]. split; [vm_compute; reflexivity|].
  split; [vm_compute; intros X; discriminate X|]. split; [eexists; split; vm_compute; reflexivity|]. split; vm_compute; reflexivity.
Qed.
