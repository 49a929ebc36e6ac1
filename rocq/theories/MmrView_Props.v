(** Properties C166 and C167: what proofs about a MMR and appending to it cost. *)
From Verif Require Import Base PySlice Serialize_Model Proof_Model Proof_Spec Mmr_Model Mmr_Spec Mmr_Proofs Tree_Examples
  MmrView_Model MmrView_Proofs MmrCost_Model MmrCost_Proofs.
Local Open Scope Z_scope.

(** ** C166: proofs about one item and about the length are short *)

(** [v] is item [i] of the list, [vb] what is sent for it on its own: [mmr.prune()] gives it at
    [i], and what is then sent of the copy is at most 176 bytes longer for every doubling of the length of the list. *)
Theorem C166_item_proof_is_short : forall ct M sr vs t h i v vb, wf_table ct -> is_mmr ct M sr ->
  built ct M vs (Ok t) -> Forall (item ct M) vs -> fine (List.length vs) -> phash ct (node M t) = Ok h ->
  py_index vs i = Ok v -> ser_val ct sr (prune ct v) = Ok vb ->
  exists w b, vgetitem ct t i (prune ct (node M t)) = (Ok (prune ct v), w) /\ ser_proof ct w = Ok b /\
    Z.of_nat (List.length b) <= 2 + Z.of_nat (List.length vb) + 176 * Z.log2 (Z.of_nat (List.length vs)).
Proof.
  intros ct M sr vs t h i v vb W I B IV F. destruct (built_ok ct M sr vs _ W I B IV F) as (t' & E & D). assert (t' = t) as -> by congruence.
  exact (fun H => item_any ct M sr W I vs t h i v vb D F H).
Qed.
Print Assumptions C166_item_proof_is_short.

(** That there is no item [i], and the length, are told by 77 bytes. *)
Theorem C166_no_item_proof_is_short : forall ct M sr vs t h i, wf_table ct -> is_mmr ct M sr ->
  built ct M vs (Ok t) -> Forall (item ct M) vs -> fine (List.length vs) -> phash ct (node M t) = Ok h -> py_index vs i = Err IndexError ->
  exists w b, vgetitem ct t i (prune ct (node M t)) = (Err IndexError, w) /\ ser_proof ct w = Ok b /\ (List.length b <= 77)%nat.
Proof.
  intros ct M sr vs t h i W I B IV F. destruct (built_ok ct M sr vs _ W I B IV F) as (t' & E & D). assert (t' = t) as -> by congruence.
  exact (fun H => item_none ct M sr W I vs t h i D F H).
Qed.
Print Assumptions C166_no_item_proof_is_short.

Theorem C166_length_proof_is_short : forall ct M sr vs t h, wf_table ct -> is_mmr ct M sr ->
  built ct M vs (Ok t) -> Forall (item ct M) vs -> fine (List.length vs) -> phash ct (node M t) = Ok h ->
  exists w b, vlen ct t (prune ct (node M t)) = (Ok (Z.of_nat (List.length vs)), w) /\ ser_proof ct w = Ok b /\ (List.length b <= 77)%nat.
Proof.
  intros ct M sr vs t h W I B IV F. destruct (built_ok ct M sr vs _ W I B IV F) as (t' & E & D). assert (t' = t) as -> by congruence.
  exact (fun H => length_view ct M sr W I vs t h D F H).
Qed.
Print Assumptions C166_length_proof_is_short.

Definition mmr_of (n : nat) : mmr := match mmr_new woods IntMMR (nums n) with Ok t => t | Err _ => Empty end.
Lemma mmr_of_11 : mmr_new woods IntMMR (nums 11) = Ok (mmr_of 11). Proof. vm_compute. reflexivity. Qed.
Lemma mmr_of_7 : mmr_new woods IntMMR (nums 7) = Ok (mmr_of 7). Proof. vm_compute. reflexivity. Qed.
(** The length of what is sent of a pruned copy after [i] was asked for. *)
Definition sent_for (t : mmr) (i : Z) : result (result val * nat) :=
  let '(r, w) := vgetitem woods t i (prune woods (node IntMMR t)) in do b <- ser_proof woods w; Ok (r, List.length b).
(** 11 numbers; what is sent after one was asked for. *)
Example C166_instance : wf_table woods /\ is_mmr woods IntMMR (SerPrim UInt64) /\ built woods IntMMR (nums 11) (Ok (mmr_of 11)) /\ Forall (item woods IntMMR) (nums 11) /\
  (exists h, phash woods (node IntMMR (mmr_of 11)) = Ok h) /\ ser_val woods (SerPrim UInt64) (prune woods (num 5)) = Ok [x05] /\
  map (sent_for (mmr_of 11)) [5; -1; 10; 0; 11] = [Ok (Ok (num 5), 219%nat); Ok (Ok (num 10), 75%nat); Ok (Ok (num 10), 75%nat); Ok (Ok (num 0), 183%nat); Ok (Err IndexError, 69%nat)].
Proof.
  split; [exact woods_wf|]. split; [exact woods_mmr|]. split; [rewrite <- mmr_of_11; constructor|].
  split; [apply nums_all; [exact num_item|lia]|]. split; [|split; [reflexivity|vm_compute; reflexivity]].
  exists (match phash woods (node IntMMR (mmr_of 11)) with Ok h => h | Err _ => [] end). vm_compute. reflexivity.
Qed.

(** ** C167: appending to a MMR is cheap *)

(** The count is of the calls [append] makes; what comes out is what it gives. *)
Theorem C167_append_is_cheap : forall ct M sr vs t v, wf_table ct -> is_mmr ct M sr ->
  built ct M vs (Ok t) -> Forall (item ct M) vs -> item ct M v -> fine (S (List.length vs)) ->
  fst (cappend ct M t v) = append ct M t v /\ Z.of_nat (snd (cappend ct M t v)) <= 3 + 4 * Z.log2 (Z.of_nat (S (List.length vs))).
Proof.
  intros ct M sr vs t v W I B IV Iv F. destruct (built_ok ct M sr vs _ W I B IV ltac:(unfold fine in *; lia)) as (t' & E & D). assert (t' = t) as -> by congruence.
  split; [apply cappend_append|]. exact (append_cost ct M sr vs t v W I D Iv F).
Qed.
Print Assumptions C167_append_is_cheap.

Example C167_instance : built woods IntMMR (nums 7) (Ok (mmr_of 7)) /\ Forall (item woods IntMMR) (nums 7) /\ item woods IntMMR (num 7) /\
  fst (cappend woods IntMMR (mmr_of 7) (num 7)) = Ok (mmr_of 8) /\
  map (fun n => snd (cappend woods IntMMR (mmr_of n) (num 0))) [0; 1; 2; 3; 7; 8]%nat = [2; 3; 3; 7; 11; 3]%nat.
Proof.
  split; [rewrite <- mmr_of_7; constructor|]. split; [apply nums_all; [exact num_item|lia]|]. split; [apply num_item; lia|].
  split; vm_compute; reflexivity.
Qed.
