(** Property C155: the merkle tree a block keeps. *)
From Verif Require Import Base Sha256 Tx_Model Tx_Spec Block_Model Block_Spec Block_Proofs Block_Props BlockTree_Spec BlockTree_Proofs.

(** The attribute vMerkleTree is the tree over the ids of the transactions. *)
Theorem C155_block_tree : forall b t, block_merkle_tree b = Ok t <->
  exists ids, Forall2 (fun t i => tx_GetHash t = Ok i) (b_vtx b) ids /\ tree_of ids t.
Proof. exact block_tree. Qed.
Print Assumptions C155_block_tree.

(** Every block that can be made or read has one, and so has every block that could be sent. *)
Theorem C155_block_tree_exists : forall b,
  (wf_block b \/ (exists v p m ti bi n vtx, block_new v p m ti bi n vtx = Ok b) \/ (exists s r, block_de s = Ok (b, r))) ->
  exists t, block_merkle_tree b = Ok t.
Proof.
  intros b [W|[(v & p & m & ti & bi & n & vtx & E)|(s & r & E)]].
  - exact (block_tree_exists b W).
  - exact (made_block_tree _ _ _ _ _ _ _ _ E).
  - exact (read_block_tree _ _ _ E).
Qed.
Print Assumptions C155_block_tree_exists.

(** A tree begins with the ids and ends with the merkle root; there is one for each list. *)
Theorem C155_tree_shape : forall ids, exists t, tree_of ids t /\ (forall t', tree_of ids t' -> t' = t) /\
  firstn (List.length ids) t = ids /\ (ids <> [] -> exists front r, t = front ++ [r] /\ is_merkle_root ids r).
Proof.
  intros ids. pose proof (build_tree_of ids) as T. exists (build_merkle_tree ids). split; [exact T|].
  split; [intros t' T'; exact (tree_of_unique _ _ _ T' T)|]. split; [exact (tree_leaves _ _ T)|exact (tree_last _ _ T)].
Qed.
Print Assumptions C155_tree_shape.

(** Its last entry is what calc_merkle_root gives. *)
Theorem C155_tree_root : forall b r, b_vtx b <> [] -> (calc_merkle_root b = Ok r <-> exists front, block_merkle_tree b = Ok (front ++ [r])).
Proof. exact tree_root_iff. Qed.
Print Assumptions C155_tree_root.

(** Three transactions: three ids, two nodes above them, the root. *)
Definition three_block : block :=
  mkBlock (b_header good_block) [coinbase_tx [x51; x51] [mkTxOut 5000 [x51]]; spend_tx [x51; xac]; spend_tx [x51]].

Example C155_instance : wf_block three_block /\ exists a b c,
  mapM tx_GetHash (b_vtx three_block) = Ok [a; b; c] /\
  block_merkle_tree three_block = Ok [a; b; c; Hash (a ++ b); Hash (c ++ c); Hash (Hash (a ++ b) ++ Hash (c ++ c))] /\
  calc_merkle_root three_block = Ok (Hash (Hash (a ++ b) ++ Hash (c ++ c))) /\
  block_merkle_tree (mkBlock (b_header good_block) []) = Ok [].
Proof.
  split.
  { apply (block_ser_wf three_block (match block_ser three_block with Ok e => e | Err _ => [] end)); [vm_compute; reflexivity|vm_compute; discriminate]. }
  do 3 eexists. split; [vm_compute; reflexivity|]. split; [vm_compute; reflexivity|]. split; vm_compute; reflexivity.
Qed.

(** With the branch taken from the tree the receiver computes the merkle root from the id of a transaction. *)
Theorem C155_branch_complete : forall ids tree i, tree_of ids tree -> i < List.length ids ->
  exists front r, tree = front ++ [r] /\ climb (nth i ids []) i (branch (List.length ids) 0 (List.length ids) i tree) = r.
Proof. exact branch_complete. Qed.
Print Assumptions C155_branch_complete.

(** A branch as long as the one taken from the tree that leads to the merkle root leads there from the
    id at that place only, or there are two strings with the same hash. *)
Theorem C155_branch_sound : forall ids tree front r i h br, all32 ids -> tree_of ids tree -> tree = front ++ [r] -> i < List.length ids ->
  Forall (fun b => List.length b = 32) (h :: br) -> List.length br = List.length (branch (List.length ids) 0 (List.length ids) i tree) ->
  climb h i br = r ->
  h = nth i ids [] \/ exists x y, climbed h i br x /\ merkle_hashed ids y /\ collide x y.
Proof. exact branch_sound. Qed.
Print Assumptions C155_branch_sound.

Example C155_branch_instance :
  let ids := [repeat x01 32; repeat x02 32; repeat x03 32] in
  let tree := build_merkle_tree ids in
  let root := last tree [] in
  tree_of ids tree /\
  branch 3 0 3 2 tree = [repeat x03 32; Hash (repeat x01 32 ++ repeat x02 32)] /\
  climb (repeat x03 32) 2 (branch 3 0 3 2 tree) = root /\ climb (repeat x02 32) 1 (branch 3 0 3 1 tree) = root /\
  bytes_eqb (climb (repeat x02 32) 2 (branch 3 0 3 2 tree)) root = false.
Proof. split; [apply build_tree_of|]. vm_compute. repeat split. Qed.
