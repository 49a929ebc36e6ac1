(** Properties C179 and C180: what objects say about the list or the map they commit to, and when their own answers agree. *)
From Verif Require Import Base PySlice Serialize_Model Serialize_Spec Proof_Model Proof_Spec Mmr_Model Mmr_Spec Merbinner_Model Merbinner_Spec ProofHash_Proofs Tree_Examples Merbinner_Examples
  MerbinnerSubset_Proofs MbtChange_Spec MmrChange_Spec MmrChange_Props MbtChange_Props MbtSub_Props Truth_Spec Truth_Proofs Truth2_Proofs.
Local Open Scope Z_scope.

(** C179: every answer of an object with the hash of the MMR of a list is true of the list: its length, its items in both directions, the
    item at every index, and that there is none; what it cannot tell it does not answer. *)
Theorem C179_answers_about_the_list : forall ct M sr l t t' h, wf_table ct -> wf_tags ct -> is_mmr ct M sr ->
  built ct M l (Ok t) -> Forall (item ct M) l -> Forall (fine_value ct sr) l -> fine (List.length l) ->
  any_object ct M t' -> phash ct (node M t) = Ok h -> phash ct (node M t') = Ok h ->
  (right_or (mmr_silence t') (mlen t') (fun n => n = Z.of_nat (List.length l)) /\
   right_or (mmr_silence t') (items t') (Forall2 (agree ct) l) /\
   right_or (mmr_silence t') (items_reversed t') (Forall2 (agree ct) (rev l)) /\
   (forall i, - Z.of_nat (List.length l) <= i < Z.of_nat (List.length l) ->
      right_or (mmr_silence t') (getitem t' i) (fun w => exists v, nth_error l (Z.to_nat (if i <? 0 then Z.of_nat (List.length l) + i else i)) = Some v /\ agree ct v w)) /\
   (forall i, ~ - Z.of_nat (List.length l) <= i < Z.of_nat (List.length l) -> getitem t' i = Err (mmr_silence t') \/ getitem t' i = Err IndexError)) \/
  hash_collision ct (node M t) (node M t').
Proof. intros ct M sr l t t' h W T I. exact (list_truth ct M sr W T I l t t' h). Qed.
Print Assumptions C179_answers_about_the_list.

(** C179: the same for the tree of a map: the number of entries, the entries, keys and values in the order of the prefixes, the value of
    every key, and that there is none. *)
Theorem C179_answers_about_the_map : forall ct M ks vs k2p K n D t t' h, wf_table ct -> wf_tags ct -> is_mbt ct M ks vs -> good_keys ct k2p K n ->
  prefix_respects ct ks k2p -> history ct M k2p K D (Ok t) -> (forall k v, In (k, v) D -> entry_fine ct ks vs k v) ->
  any_tree ct M t' -> phash ct (bnode M t) = Ok h -> phash ct (bnode M t') = Ok h ->
  (right_or (mbt_silence t') (tlen t') (fun m => m = List.length D) /\
   (exists entries, Permutation entries D /\ StronglySorted (before k2p) entries /\
      right_or (mbt_silence t') (titems t') (Forall2 (agree_entry ct) entries) /\
      right_or (mbt_silence t') (tkeys t') (Forall2 (agree ct) (map fst entries)) /\
      right_or (mbt_silence t') (tvalues t') (Forall2 (agree ct) (map snd entries))) /\
   (forall k v, K k -> In (k, v) D -> right_or (mbt_silence t') (tgetitem ct k2p t' k) (agree ct v)) /\
   (forall k, K k -> holds ct ks k -> hashable ct k -> ~ In k (map fst D) -> tgetitem ct k2p t' k = Err (mbt_silence t') \/ tgetitem ct k2p t' k = Err KeyError)) \/
  hash_collision ct (bnode M t) (bnode M t').
Proof. intros ct M ks vs k2p K n D t t' h W T I G. exact (map_truth ct M ks vs k2p K n W T I G D t t' h). Qed.
Print Assumptions C179_answers_about_the_map.

(** The objects of C177 and C176.  Of the MMR with two items pruned the length and the last item can be told; for the item 2 the
    length of the pruned part is missing. *)
Example C179_instance : built woods IntMMR (nums 5) (Ok five) /\ any_object woods IntMMR (without false) /\ any_tree woods IntMBTree (less false) /\
  history woods IntMBTree from_bytes digest trio (Ok trio_tree) /\
  (exists h, phash woods (node IntMMR five) = Ok h /\ phash woods (node IntMMR (without false)) = Ok h) /\
  (exists h, phash woods (bnode IntMBTree trio_tree) = Ok h /\ phash woods (bnode IntMBTree (less false)) = Ok h) /\
  mlen (without false) = Ok 5 /\ items (without false) = Err PrunedError /\ map (getitem (without false)) [-1; 2; 5; 0] = [Ok (num 4); Err PrunedError; Err IndexError; Err PrunedError] /\
  titems trio_tree <> Err PrunedError /\ titems (less false) = Err PrunedError /\ tgetitem woods from_bytes (less false) (key x80 x00) = Ok (num 7) /\
  tgetitem woods from_bytes (less false) (key x81 x00) = Err KeyError.
Proof.
  pose proof C177_instance as X. do 3 apply proj2 in X. destruct X as (B & X). do 7 apply proj2 in X. destruct X as (H & _).
  pose proof C176_instance as Y. do 5 apply proj2 in Y. destruct Y as (Hi & _).
  split; [exact B|]. split; [left; exact H|]. split; [apply less_any|]. split; [exact Hi|].
  split; [eexists; split; vm_compute; reflexivity|]. split; [eexists; split; vm_compute; reflexivity|].
  split; [vm_compute; reflexivity|]. split; [vm_compute; reflexivity|]. split; [vm_compute; reflexivity|]. split; [vm_compute; intros E; discriminate E|].
  split; [vm_compute; reflexivity|]. split; vm_compute; reflexivity.
Qed.

(** C180: of an object read from anywhere, what it lists, its length and its lookups agree: false for both kinds of objects, as what is
    read is not checked. *)
Definition lists_what_it_gives : Prop := forall buf t l, deserialize woods (m_base IntMMR) buf = Ok (node IntMMR t) -> items t = Ok l ->
  mlen t = Ok (Z.of_nat (List.length l)) /\ forall i, getitem t i = py_index l i.
Definition lists_what_it_finds : Prop := forall buf t es k v, deserialize woods (b_base IntMBTree) buf = Ok (bnode IntMBTree t) -> titems t = Ok es ->
  In (k, v) es -> tgetitem woods from_bytes t k = Ok v.

(** Of a list of two values with the length 77 no index from 2 on gives anything ... *)
Definition longer : mmr := Inner (Leaf (num 1)) (Leaf (num 2)) 77.
Definition longer_bytes : bytes := match ser_proof woods (node IntMMR longer) with Ok b => b | Err _ => [] end.
Theorem C180_lists_what_it_gives_refuted : ~ lists_what_it_gives.
Proof. intros H. destruct (H longer_bytes longer (map num [1; 2])) as (L & _); [vm_compute; reflexivity|reflexivity|]. vm_compute in L. discriminate L. Qed.
Print Assumptions C180_lists_what_it_gives_refuted.
(** ... and a key on the wrong side is listed and not found. *)
Definition misplaced : mbt := TInner [true] (TLeaf (key x80 x00) (num 7)) (TLeaf (key x81 x00) (num 8)).
Definition misplaced_bytes : bytes := match ser_proof woods (bnode IntMBTree misplaced) with Ok b => b | Err _ => [] end.
Theorem C180_lists_what_it_finds_refuted : ~ lists_what_it_finds.
Proof.
  intros H. assert (E : tgetitem woods from_bytes misplaced (key x81 x00) = Ok (num 8)).
  { apply (H misplaced_bytes misplaced [(key x80 x00, num 7); (key x81 x00, num 8)]); [vm_compute; reflexivity|reflexivity|right; left; reflexivity]. }
  vm_compute in E. discriminate E.
Qed.
Print Assumptions C180_lists_what_it_finds_refuted.

(** C180, what holds of every object: what is given for an index or a key is listed, and the length of a tree is the number of entries
    listed.  Missing: that what is listed is given, which is false. *)
Theorem C180_given_is_listed_partial :
  (forall t i v l, getitem t i = Ok v -> items t = Ok l -> In v l) /\
  (forall ct k2p t k v es, tgetitem ct k2p t k = Ok v -> titems t = Ok es -> exists k', In (k', v) es /\ py_eq ct k' k = Ok true) /\
  (forall t es, titems t = Ok es -> tlen t = Ok (List.length es)).
Proof. exact (conj getitem_listed (conj lookup_listed listed_len)). Qed.
Print Assumptions C180_given_is_listed_partial.

(** C180, what a reader has to check for the rest: that the length fields count the values, and that the keys have the prefixes of the
    inner nodes above them.  Such objects are the list and the map they list. *)
Theorem C180_checked_lengths_partial : forall t l, items t = Ok l -> well_counted t -> fine (List.length l) ->
  mlen t = Ok (Z.of_nat (List.length l)) /\ forall i, getitem t i = py_index l i.
Proof. intros t l E C F. exact (conj (counted_len t l E C F) (fun i => counted_getitem t l i E C F)). Qed.
Print Assumptions C180_checked_lengths_partial.
Theorem C180_checked_prefixes_partial : forall ct k2p t es k v, titems t = Ok es -> well_placed k2p t -> In (k, v) es -> py_eq ct k k = Ok true ->
  tgetitem ct k2p t k = Ok v.
Proof. exact placed_lookup. Qed.
Print Assumptions C180_checked_prefixes_partial.

(** Objects that no constructor makes but that pass the check: three values with the single one on the left; two entries below an
    inner node that has nothing on its other side. *)
Definition lopsided : mmr := Inner (Leaf (num 1)) (Inner (Leaf (num 2)) (Leaf (num 3)) 2) 3.
Definition placed : mbt := TInner [] TEmpty (TInner [true] (TLeaf (key x80 x00) (num 7)) (TLeaf (key xc0 x00) (num 8))).
Example C180_instance : items lopsided = Ok (map num [1; 2; 3]) /\ well_counted lopsided /\ fine (List.length (map num [1; 2; 3])) /\ lopsided <> match mmr_new woods IntMMR (map num [1; 2; 3]) with Ok t => t | Err _ => Empty end /\
  titems placed = Ok [(key x80 x00, num 7); (key xc0 x00, num 8)] /\ well_placed from_bytes placed /\ py_eq woods (key xc0 x00) (key xc0 x00) = Ok true /\
  tgetitem woods from_bytes placed (key xc0 x00) = Ok (num 8) /\ ~ well_counted longer /\ ~ well_placed from_bytes misplaced.
Proof.
  split; [reflexivity|]. split; [vm_compute; auto 10|]. split; [unfold fine; cbn; lia|]. split; [vm_compute; intros E; discriminate E|]. split; [reflexivity|].
  split. { split; [intros k []|]. split; [intros k [<-|[<-|[]]]; eexists; vm_compute; reflexivity|]. split; [exact Logic.I|].
    split; [intros k [<-|[]]; eexists; vm_compute; reflexivity|]. split; [intros k [<-|[]]; eexists; vm_compute; reflexivity|]. split; exact Logic.I. }
  split; [vm_compute; reflexivity|]. split; [vm_compute; reflexivity|]. split; [intros (_ & _ & E); discriminate E|].
  intros (_ & E & _). destruct (E _ (or_introl eq_refl)) as (x & X). vm_compute in X. discriminate X.
Qed.
