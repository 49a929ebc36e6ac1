(** Lemmas about the merkle trees of blocks (C155). *)
From Coq Require Import ZifyBool ZifyNat ZifyN.
From Verif Require Import Base Sha256 Tx_Model Tx_Spec Tx_Proofs Script_Model Script_Proofs Block_Model Block_Spec Block_Proofs BlockTree_Spec.
Ltac Zify.zify_post_hook ::= Z.div_mod_to_equations.

Lemma up_nonempty l : l <> [] -> up l <> [].
Proof. intros N H. apply (f_equal (@List.length bytes)) in H. rewrite up_length in H. destruct l; [congruence|]. cbn [List.length] in H. lia. Qed.

Lemma concat_levels n lvl : concat (map (fun i => level i lvl) (seq 0 (S n))) = lvl ++ concat (map (fun i => level i (up lvl)) (seq 0 n)).
Proof. change (seq 0 (S n)) with (0 :: seq 1 n). cbn [map concat]. change (level 0 lvl) with lvl. f_equal. rewrite <- seq_shift, map_map. reflexivity. Qed.

Lemma while_levels : forall fuel pre lvl, List.length lvl <= fuel -> lvl <> [] ->
  exists k r, level k lvl = [r] /\ (forall i, i < k -> 1 < List.length (level i lvl)) /\
    merkle_while fuel (List.length pre) (List.length lvl) (pre ++ lvl) = pre ++ concat (map (fun i => level i lvl) (seq 0 (S k))).
Proof.
  induction fuel as [|fuel IH]; intros pre lvl L N; [destruct lvl; [congruence|cbn in L; lia]|].
  cbn [merkle_while]. destruct (1 <? List.length lvl) eqn:E.
  - rewrite merkle_for_levels. fold (up lvl). rewrite <- up_length. rewrite app_assoc. rewrite <- app_length.
    destruct (IH (pre ++ lvl) (up lvl)) as (k & r & E1 & E2 & E3); [rewrite up_length; lia|apply up_nonempty, N|].
    exists (S k), r. split; [exact E1|]. split; [intros [|i] Hi; [cbn; lia|]; apply E2; lia|].
    rewrite E3, <- app_assoc, (concat_levels (S k)). reflexivity.
  - destruct lvl as [|x [|y lvl]]; [congruence| |cbn [List.length] in E; lia].
    exists 0, x. split; [reflexivity|]. split; [lia|]. reflexivity.
Qed.

Lemma build_tree_of l : tree_of l (build_merkle_tree l).
Proof.
  destruct l as [|x l]; [left; split; reflexivity|right]. apply (while_levels (List.length (x :: l)) [] (x :: l) (le_n _)). discriminate.
Qed.

Lemma tree_of_unique l t t' : tree_of l t -> tree_of l t' -> t = t'.
Proof.
  intros [[-> ->]|(k & r & K & B & ->)] [[N ->]|(k' & r' & K' & B' & ->)].
  - reflexivity.
  - exfalso. clear -K'. revert K'. induction k' as [|k IH]; [discriminate|exact IH].
  - subst. exfalso. clear -K. revert K. induction k as [|k IH]; [discriminate|exact IH].
  - destruct (Nat.lt_trichotomy k k') as [H|[->|H]]; [|reflexivity|].
    + apply B' in H. rewrite K in H. cbn in H. lia.
    + apply B in H. rewrite K' in H. cbn in H. lia.
Qed.

Lemma tree_leaves l t : tree_of l t -> firstn (List.length l) t = l.
Proof.
  intros [[-> ->]|(k & r & K & B & ->)]; [reflexivity|]. cbn [seq map concat]. change (level 0 l) with l.
  rewrite firstn_app, firstn_all, Nat.sub_diag. cbn [firstn]. apply app_nil_r.
Qed.

Lemma tree_last l t : tree_of l t -> l <> [] -> exists front r, t = front ++ [r] /\ is_merkle_root l r.
Proof.
  intros [[-> ->]|(k & r & K & B & ->)] N; [congruence|].
  rewrite seq_S, map_app, concat_app. cbn [map concat Nat.add]. rewrite app_nil_r. rewrite K.
  exists (concat (map (fun i => level i l) (seq 0 k))), r. split; [reflexivity|]. exists k. split; assumption.
Qed.

(** ** The attribute of a block *)

Lemma block_tree b t : block_merkle_tree b = Ok t <->
  exists ids, Forall2 (fun t i => tx_GetHash t = Ok i) (b_vtx b) ids /\ tree_of ids t.
Proof.
  unfold block_merkle_tree, build_merkle_tree_from_txs. destruct (mapM tx_GetHash (b_vtx b)) as [ids|e] eqn:M; cbn [bind].
  - pose proof (proj1 (mapM_Forall2 _ _ _) M) as F2. split.
    + intros H. assert (t = build_merkle_tree ids) as -> by congruence. exists ids. split; [exact F2|apply build_tree_of].
    + intros (ids' & F2' & T). apply mapM_Forall2 in F2'. assert (ids' = ids) by congruence. subst. f_equal.
      eapply tree_of_unique; [apply build_tree_of|exact T].
  - split; [discriminate|]. intros (ids' & F2' & _). apply mapM_Forall2 in F2'. congruence.
Qed.

Lemma block_tree_exists b : wf_block b -> exists t, block_merkle_tree b = Ok t.
Proof.
  intros (_ & F & _). destruct (mapM_hash_ok _ F) as [ids M]. apply mapM_Forall2 in M.
  exists (build_merkle_tree ids). apply block_tree. exists ids. split; [exact M|apply build_tree_of].
Qed.

Lemma made_block_tree v p m t b n vtx bl : block_new v p m t b n vtx = Ok bl -> exists tr, block_merkle_tree bl = Ok tr.
Proof.
  unfold block_new, block_merkle_tree. destruct (header_new v p m t b n) as [h|]; cbn [bind]; [|discriminate].
  destruct (build_merkle_tree_from_txs vtx) as [tr|] eqn:E; cbn [bind]; [|discriminate].
  intros H. assert (bl = mkBlock h vtx) as -> by congruence. exists tr. exact E.
Qed.

Lemma read_block_tree s bl r : block_de s = Ok (bl, r) -> exists tr, block_merkle_tree bl = Ok tr.
Proof.
  unfold block_de, block_merkle_tree. destruct (header_de s) as [[h s1]|]; cbn [bind]; [|discriminate].
  destruct (vector_de tx_de s1) as [[vtx s2]|]; cbn [bind]; [|discriminate].
  destruct (build_merkle_tree_from_txs vtx) as [tr|] eqn:E; cbn [bind]; [|discriminate].
  intros H. assert (bl = mkBlock h vtx) as -> by congruence. exists tr. exact E.
Qed.

Lemma tree_root_iff b r : b_vtx b <> [] -> (calc_merkle_root b = Ok r <-> exists front, block_merkle_tree b = Ok (front ++ [r])).
Proof.
  intros N. unfold calc_merkle_root, block_merkle_tree. destruct (b_vtx b) as [|t0 rest] eqn:E; [congruence|]. rewrite <- E.
  destruct (build_merkle_tree_from_txs (b_vtx b)) as [t|]; cbn [bind]; [|split; [discriminate|intros [f H]; discriminate]].
  split.
  - intros H. destruct (rev t) as [|x l] eqn:R; [discriminate|]. assert (x = r) by congruence. subst x.
    exists (rev l). f_equal. rewrite <- (rev_involutive t), R. reflexivity.
  - intros [f H]. assert (t = f ++ [r]) as -> by congruence. rewrite rev_app_distr. reflexivity.
Qed.

(** ** Branches *)

Lemma nth_joined : forall n l i, List.length l <= n -> i < (List.length l + 1) / 2 ->
  nth i (joined l) [] = nth (2 * i) l [] ++ nth (Nat.min (2 * i + 1) (List.length l - 1)) l [].
Proof.
  induction n as [|n IH]; intros [|a [|b l]] i L H; cbn [List.length] in *; try lia.
  - assert (i = 0) as -> by lia. reflexivity.
  - destruct i as [|i].
    + cbn [joined nth Nat.mul Nat.add]. replace (Nat.min 1 (Datatypes.S (Datatypes.S (List.length l)) - 1)) with 1 by lia. reflexivity.
    + cbn [joined nth]. rewrite IH by lia.
      replace (2 * Datatypes.S i) with (Datatypes.S (Datatypes.S (2 * i))) by lia. cbn [nth]. f_equal.
      destruct l as [|c l]; [cbn [List.length] in *; lia|]. cbn [List.length] in *.
      replace (Nat.min (Datatypes.S (Datatypes.S (2 * i)) + 1) (Datatypes.S (Datatypes.S (Datatypes.S (List.length l))) - 1))
        with (Datatypes.S (Datatypes.S (Nat.min (2 * i + 1) (Datatypes.S (List.length l) - 1)))) by lia.
      cbn [nth]. reflexivity.
Qed.

Lemma nth_up l i : i < List.length l ->
  nth (i / 2) (up l) [] =
  Hash (if Nat.even i then nth i l [] ++ nth (Nat.min (if Nat.even i then i + 1 else i - 1) (List.length l - 1)) l []
        else nth (Nat.min (if Nat.even i then i + 1 else i - 1) (List.length l - 1)) l [] ++ nth i l []).
Proof.
  intros H. assert (J : i / 2 < List.length (joined l)) by (rewrite joined_length; lia).
  unfold up. rewrite (nth_indep _ [] (Hash [])) by (rewrite map_length; exact J). rewrite map_nth.
  rewrite (nth_joined (List.length l)) by (rewrite ?joined_length in J; lia). f_equal.
  destruct (Nat.even i) eqn:E.
  - apply Nat.even_spec in E as [k ->]. replace (2 * k / 2) with k by lia. reflexivity.
  - assert (O : Nat.odd i = true) by (rewrite <- Nat.negb_even, E; reflexivity). apply Nat.odd_spec in O as [k ->].
    replace ((2 * k + 1) / 2) with k by lia. replace (Nat.min (2 * k + 1) (List.length l - 1)) with (2 * k + 1) by lia.
    replace (Nat.min (2 * k + 1 - 1) (List.length l - 1)) with (2 * k) by lia. reflexivity.
Qed.

Lemma branch_climbs : forall fuel k pre lvl r i, List.length lvl <= fuel -> level k lvl = [r] -> (forall j, j < k -> 1 < List.length (level j lvl)) ->
  i < List.length lvl ->
  let br := branch fuel (List.length pre) (List.length lvl) i (pre ++ concat (map (fun i => level i lvl) (seq 0 (S k)))) in
  climb (nth i lvl []) i br = r /\ List.length br = k /\ (forall x, climbed (nth i lvl []) i br x -> merkle_hashed lvl x).
Proof.
  induction fuel as [|fuel IH]; intros k pre lvl r i L K B I; [lia|]. cbn zeta. cbn [branch].
  destruct k as [|k].
  - change (lvl = [r]) in K. subst lvl. cbn [List.length] in *. assert (i = 0) as -> by lia. cbn [Nat.ltb Nat.leb climb nth List.length climbed]. split; [reflexivity|]. split; [reflexivity|]. intros x [].
  - pose proof (B 0 ltac:(lia)) as B0. change (1 < List.length lvl) in B0. destruct (1 <? List.length lvl) eqn:E; [|lia].
    rewrite concat_levels. rewrite app_assoc. rewrite <- app_length, <- up_length. set (T := concat _). rewrite app_nth1 by (rewrite app_length; lia).
    rewrite app_nth2_plus. cbn [climb climbed].
    specialize (IH k (pre ++ lvl) (up lvl) r (i / 2) ltac:(rewrite up_length; lia) K ltac:(intros j Hj; apply (B (S j)); lia) ltac:(rewrite up_length; lia)).
    cbn zeta in IH. rewrite nth_up in IH by exact I.
    change (concat (map (fun i => level i (up lvl)) (seq 0 (S k)))) with T in IH.
    set (br := branch fuel _ _ _ _) in *. cbn [List.length].
    destruct IH as (IH1 & IH2 & IH3). split; [exact IH1|]. split; [f_equal; exact IH2|].
    intros x [->|X].
    + apply hashed_here; [lia|].
      assert (J : i / 2 < List.length (joined lvl)) by (rewrite joined_length; lia).
      pose proof (nth_In (joined lvl) [] J) as P. rewrite (nth_joined (List.length lvl)) in P by (rewrite ?joined_length in J; lia).
      destruct (Nat.even i) eqn:EV.
      * apply Nat.even_spec in EV as [q ->]. replace (2 * q / 2) with q in P by lia. exact P.
      * assert (O : Nat.odd i = true) by (rewrite <- Nat.negb_even, EV; reflexivity). apply Nat.odd_spec in O as [q ->].
        replace ((2 * q + 1) / 2) with q in P by lia. replace (Nat.min (2 * q + 1) (List.length lvl - 1)) with (2 * q + 1) in P by lia.
        replace (Nat.min (2 * q + 1 - 1) (List.length lvl - 1)) with (2 * q) by lia. exact P.
    + apply hashed_up, IH3, X.
Qed.

Lemma branch_complete ids tree i : tree_of ids tree -> i < List.length ids ->
  exists front r, tree = front ++ [r] /\ climb (nth i ids []) i (branch (List.length ids) 0 (List.length ids) i tree) = r.
Proof.
  intros T I. destruct T as [[-> ->]|(k & r & K & B & T)]; [cbn in I; lia|].
  destruct (branch_climbs (List.length ids) k [] ids r i (le_n _) K B I) as (C & _). cbn [app List.length] in C. rewrite <- T in C.
  exists (concat (map (fun i => level i ids) (seq 0 k))), r. split; [|exact C].
  rewrite T, seq_S, map_app, concat_app. cbn [map concat Nat.add]. rewrite app_nil_r, K. reflexivity.
Qed.

Lemma app_split {A} (a b c d : list A) : List.length a = List.length c -> a ++ b = c ++ d -> a = c /\ b = d.
Proof.
  revert c; induction a as [|x a IH]; intros [|y c] L E; cbn in *; try discriminate; [auto|].
  injection E as -> E. destruct (IH c) as [-> ->]; auto.
Qed.

Lemma climb_binds : forall br br' h h' i, List.length br = List.length br' -> Forall (fun b => List.length b = 32) (h :: br) ->
  Forall (fun b => List.length b = 32) (h' :: br') -> climb h i br = climb h' i br' ->
  (h = h' /\ br = br') \/ exists x y, climbed h i br x /\ climbed h' i br' y /\ collide x y.
Proof.
  induction br as [|s br IH]; intros [|s' br'] h h' i L F F' E; try discriminate; [left; auto|].
  cbn [climb] in E. inversion F as [|? ? H1 F1]; subst. inversion F1 as [|? ? H2 F2]; subst.
  inversion F' as [|? ? H1' F1']; subst. inversion F1' as [|? ? H2' F2']; subst.
  cbn [List.length] in L. injection L as L.
  destruct (IH br' _ _ _ L ltac:(constructor; [apply Hash_length|exact F2]) ltac:(constructor; [apply Hash_length|exact F2']) E) as [[N ->]|(x & y & X & Y & C)].
  - destruct (list_eq_dec Byte.byte_eq_dec (if Nat.even i then h ++ s else s ++ h) (if Nat.even i then h' ++ s' else s' ++ h')) as [Q|Q].
    + left. destruct (Nat.even i).
      * apply app_split in Q as [-> ->]; [auto|congruence].
      * apply app_split in Q as [-> ->]; [auto|congruence].
    + right. do 2 eexists. split; [left; reflexivity|]. split; [left; reflexivity|]. split; assumption.
  - right. exists x, y. split; [right; exact X|]. split; [right; exact Y|exact C].
Qed.

Lemma all32_levels : forall k l, all32 l -> all32 (level k l).
Proof.
  induction k as [|k IH]; intros l H; [exact H|]. cbn [level]. apply IH. apply Forall_forall. intros x I.
  apply in_map_iff in I as (y & <- & _). apply Hash_length.
Qed.

Lemma branch_sound ids tree front r i h br : all32 ids -> tree_of ids tree -> tree = front ++ [r] -> i < List.length ids ->
  Forall (fun b => List.length b = 32) (h :: br) -> List.length br = List.length (branch (List.length ids) 0 (List.length ids) i tree) ->
  climb h i br = r ->
  h = nth i ids [] \/ exists x y, climbed h i br x /\ merkle_hashed ids y /\ collide x y.
Proof.
  intros A T TE I F L C. destruct T as [[-> ->]|(k & r0 & K & B & T)]; [cbn in I; lia|].
  destruct (branch_climbs (List.length ids) k [] ids r0 i (le_n _) K B I) as (C0 & L0 & M). cbn [app List.length] in C0, L0, M. rewrite <- T in C0, L0, M.
  assert (r0 = r) as ->.
  { rewrite TE, seq_S, map_app, concat_app in T. cbn [map concat Nat.add] in T. rewrite app_nil_r, K in T.
    apply app_inj_tail in T as [_ ->]. reflexivity. }
  assert (F0 : Forall (fun b => List.length b = 32) (nth i ids [] :: branch (List.length ids) 0 (List.length ids) i tree)).
  { constructor; [apply (proj1 (Forall_forall _ _) A), nth_In, I|].
    assert (G : Forall (fun b => List.length b = 32) tree).
    { rewrite T. apply Forall_concat, Forall_forall. intros l J. apply in_map_iff in J as (j & <- & _). apply all32_levels, A. }
    assert (Q : forall fuel k pre lvl, List.length lvl <= fuel -> (exists r, level k lvl = [r]) -> (forall j, j < k -> 1 < List.length (level j lvl)) ->
      Forall (fun b => List.length b = 32) (pre ++ concat (map (fun i => level i lvl) (seq 0 (S k)))) -> forall i, i < List.length lvl ->
      Forall (fun b => List.length b = 32) (branch fuel (List.length pre) (List.length lvl) i (pre ++ concat (map (fun i => level i lvl) (seq 0 (S k)))))).
    { clear. induction fuel as [|fuel IH]; intros k pre lvl L [r K] B G i I; [constructor|]. cbn [branch].
      destruct (1 <? List.length lvl) eqn:E; [|constructor]. destruct k as [|k]; [change (lvl = [r]) in K; subst; discriminate|].
      rewrite concat_levels, app_assoc in *. rewrite <- app_length, <- up_length. constructor.
      - apply (proj1 (Forall_forall _ _) G). apply nth_In. rewrite !app_length. destruct (Nat.even i); lia.
      - apply IH; [rewrite up_length; lia|exists r; exact K|intros j Hj; apply (B (S j)); lia|exact G|rewrite up_length; lia]. }
    specialize (Q (List.length ids) k [] ids (le_n _) (ex_intro _ r K) B). cbn [app List.length] in Q. rewrite <- T in Q. apply Q; assumption. }
  destruct (climb_binds br _ h (nth i ids []) i L F F0) as [[-> _]|(x & y & X & Y & Cl)]; [congruence|auto|].
  right. exists x, y. split; [exact X|]. split; [apply M, Y|exact Cl].
Qed.
