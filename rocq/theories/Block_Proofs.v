From Coq Require Import ZifyBool ZifyNat ZifyN.
From Verif Require Import Base Sha256 Tx_Model Tx_Spec Tx_Proofs Script_Model Script_Proofs Block_Model Block_Spec.

(** ** Codec *)

Lemma header_codec_len h : wf_header h -> exists enc, header_ser h = Ok enc /\ List.length enc = 80 /\
  forall rest, header_de (enc ++ rest) = Ok (h, rest).
Proof.
  destruct h as [v p m t b n]; intros (Hv & Hp & Hm & Ht & Hb & Hn); cbn [h_nVersion h_prev h_merkle h_nTime h_nBits h_nNonce] in *.
  unfold header_ser, header_de, header_new; cbn [h_nVersion h_prev h_merkle h_nTime h_nBits h_nNonce].
  destruct (pack_s_ok 4 v) as (ev & Ev & Lv & Dv); [lia | lia |].
  destruct (pack_u_ok 4 t) as (Et & Dt); [lia|].
  destruct (pack_u_ok 4 b) as (Eb & Db); [lia|].
  destruct (pack_u_ok 4 n) as (En & Dn); [lia|].
  rewrite Ev, Et, Eb, En. cbn [bind].
  replace (blen p =? 32)%N with true by (unfold blen; lia). replace (blen m =? 32)%N with true by (unfold blen; lia).
  cbn [assert bind]. eexists; split; [reflexivity|]. split.
  { rewrite !app_length, !le_enc_length. lia. }
  intros rest. rewrite <- !app_assoc.
  rewrite (ser_read_small 4) by (unfold blen; lia). cbn [bind].
  rewrite (ser_read_small 32) by (unfold blen; lia). cbn [bind].
  rewrite (ser_read_small 32) by (unfold blen; lia). cbn [bind].
  rewrite (ser_read_small 4) by (unfold blen; rewrite ?le_enc_length; cbn; lia). cbn [bind].
  rewrite (ser_read_small 4) by (unfold blen; rewrite ?le_enc_length; cbn; lia). cbn [bind].
  rewrite (ser_read_small 4) by (unfold blen; rewrite ?le_enc_length; cbn; lia). cbn [bind].
  rewrite Dv, Dt, Db, Dn, !Z2N.id by lia.
  replace (blen p =? 32)%N with true by (unfold blen; lia). replace (blen m =? 32)%N with true by (unfold blen; lia).
  reflexivity.
Qed.

Lemma header_codec : codec header_ser header_de wf_header.
Proof. intros h H. destruct (header_codec_len h H) as (e & E & _ & D). eauto. Qed.

Lemma header_extends : extends header_de.
Proof.
  intros s a r ext H. unfold header_de in *.
  ext_step H. ext_step H. ext_step H. ext_step H. ext_step H. ext_step H.
  apply (ser_read_extends _ _ _ _ ext) in E, E0, E1, E2, E3, E4.
  rewrite E. cbn [bind]. rewrite E0. cbn [bind]. rewrite E1. cbn [bind]. rewrite E2. cbn [bind]. rewrite E3. cbn [bind]. rewrite E4. cbn [bind].
  destruct (header_new _ _ _ _ _ _); [|discriminate]. cbn [bind] in *. inversion H; subst. reflexivity.
Qed.

Lemma header_de_wf s h r : header_de s = Ok (h, r) -> wf_header h.
Proof.
  unfold header_de. intros H. ext_step H. ext_step H. ext_step H. ext_step H. ext_step H. ext_step H.
  apply ser_read_inv in E, E0, E1, E2, E3, E4.
  destruct E as (_ & L & _), E0 as (_ & L0 & _), E1 as (_ & L1 & _), E2 as (_ & L2 & _), E3 as (_ & L3 & _), E4 as (_ & L4 & _).
  unfold header_new in H. rewrite L0, L1 in H. cbn [N.eqb Pos.eqb assert bind] in H. inversion H; subst.
  unfold wf_header. cbn [h_nVersion h_prev h_merkle h_nTime h_nBits h_nNonce].
  repeat match goal with L : blen ?b = 4%N |- context[Z.of_N (le_dec ?b)] =>
    let B := fresh in pose proof (le_dec_lt b) as B; rewrite L in B; change (256 ^ 4)%N with (2 ^ 32)%N in B; clear L end.
  unfold blen in *.
  split; [change (2 ^ 31)%Z with (2 ^ (8 * Z.of_nat 4 - 1))%Z; apply unpack_s_range; lia|].
  repeat split; lia.
Qed.

Lemma objs_de_le {A} (de : bytes -> result (A * bytes)) : consumes de ->
  forall fuel n s l r, objs_de de fuel n s = Ok (l, r) -> List.length r <= List.length s.
Proof.
  intros Hc fuel. induction fuel as [|fuel IH]; intros n s l r H; cbn [objs_de] in H.
  - destruct (n =? 0)%N; [|discriminate]. inversion H; subst. lia.
  - destruct (n =? 0)%N; [inversion H; subst; lia|]. ext_step H. ext_step H. apply Hc in E. apply IH in E0.
    inversion H; subst. lia.
Qed.

Lemma vector_de_le {A} (de : bytes -> result (A * bytes)) : consumes de ->
  forall s l r, vector_de de s = Ok (l, r) -> List.length r < List.length s.
Proof.
  intros Hc s l r H. unfold vector_de in H. ext_step H. apply varint_de_le in E. apply (objs_de_le de Hc) in H. lia.
Qed.

Lemma tx_consumes : consumes tx_de.
Proof.
  intros s a rest H. unfold tx_de in H. ext_step H. ext_step H. ext_step H. ext_step H.
  apply ser_read_le in E, E2. apply (vector_de_le _ txin_consumes) in E0. apply (vector_de_le _ txout_consumes) in E1.
  destruct (tx_new _ _ _ _); [|discriminate]. inversion H; subst. lia.
Qed.

Lemma mapM_hash_ok l : Forall wf_tx l -> exists ids, mapM tx_GetHash l = Ok ids.
Proof.
  induction 1 as [|t l Ht _ IH]; [exists []; reflexivity|]. destruct IH as [ids IH].
  destruct (tx_codec t Ht) as (e & E & _). exists (Hash e :: ids). cbn [mapM]. unfold tx_GetHash at 1. rewrite E. cbn [bind]. rewrite IH. reflexivity.
Qed.

Lemma block_codec : codec block_ser block_de wf_block.
Proof.
  intros [h vtx] (Hh & Ht & Hn). cbn [b_header b_vtx] in *. unfold block_ser, block_de. cbn [b_header b_vtx].
  destruct (header_codec h Hh) as (eh & Eh & Dh). rewrite Eh. cbn [bind].
  destruct (vector_codec _ _ _ tx_codec tx_consumes vtx (conj Ht Hn)) as (ev & Ev & Dv). rewrite Ev. cbn [bind].
  eexists. split; [reflexivity|]. intros rest. rewrite <- app_assoc, Dh. cbn [bind]. rewrite Dv. cbn [bind].
  unfold build_merkle_tree_from_txs. destruct (mapM_hash_ok vtx Ht) as [ids ->]. reflexivity.
Qed.

Lemma block_extends : extends block_de.
Proof.
  intros s a r ext H. unfold block_de in *. ext_step H. ext_step H.
  apply (header_extends _ _ _ ext) in E. apply (vector_extends _ tx_extends _ _ _ ext) in E0.
  rewrite E. cbn [bind]. rewrite E0. cbn [bind]. destruct (build_merkle_tree_from_txs _); [|discriminate]. cbn [bind] in *.
  inversion H; subst. reflexivity.
Qed.

Lemma block_de_wf s b r : block_de s = Ok (b, r) -> wf_block b.
Proof.
  unfold block_de. intros H. ext_step H. ext_step H. apply header_de_wf in E. apply (vector_de_wf _ _ tx_de_wf) in E0.
  destruct (build_merkle_tree_from_txs _); [|discriminate]. cbn [bind] in H. inversion H; subst. split; [exact E|exact E0].
Qed.

(** Conversely what serializes to a moderate size is well formed. *)

Lemma header_ser_wf h e : header_ser h = Ok e -> wf_header h /\ List.length e = 80.
Proof.
  intros H. assert (W : wf_header h).
  { unfold header_ser in H. destruct h as [v p m t b n]; cbn [h_nVersion h_prev h_merkle h_nTime h_nBits h_nNonce] in *.
    destruct (pack_s 4 v) eqn:E1; [|discriminate]. cbn [bind] in H.
    destruct (blen p =? 32)%N eqn:E2; [|discriminate]. cbn [assert bind] in H.
    destruct (blen m =? 32)%N eqn:E3; [|discriminate]. cbn [assert bind] in H.
    destruct (pack_u 4 t) eqn:E4; [|discriminate]. cbn [bind] in H.
    destruct (pack_u 4 b) eqn:E5; [|discriminate]. cbn [bind] in H.
    destruct (pack_u 4 n) eqn:E6; [|discriminate].
    apply pack_s_inv in E1. apply pack_u_inv in E4, E5, E6. unfold blen in *.
    unfold wf_header; cbn [h_nVersion h_prev h_merkle h_nTime h_nBits h_nNonce]. repeat split; lia. }
  split; [exact W|]. destruct (header_codec_len h W) as (e' & E & L & _). congruence.
Qed.

Lemma varint_ser_range i e : varint_ser i = Ok e -> (0 <= i < 2 ^ 64)%Z.
Proof. intros H. destruct (varint_ser_err i) as [E|E]; [congruence|exact E]. Qed.

Lemma bytes_ser_len s e : bytes_ser s = Ok e -> List.length s <= List.length e.
Proof.
  unfold bytes_ser. destruct (varint_ser _); [|discriminate]. cbn [bind]. intros H; inversion H. rewrite app_length. lia.
Qed.

Lemma txin_ser_wf i e : txin_ser i = Ok e -> (blen e <= MAX_SIZE)%N -> wf_txin i.
Proof.
  destruct i as [[h n] sc q]. unfold txin_ser, outpoint_ser. cbn [i_prevout i_scriptSig i_nSequence o_hash o_n]. intros H L.
  destruct (blen h =? 32)%N eqn:E1; [|discriminate]. cbn [assert bind] in H.
  destruct (pack_u 4 n) eqn:E2; [|discriminate]. cbn [bind] in H.
  destruct (bytes_ser sc) eqn:E3; [|discriminate]. cbn [bind] in H.
  destruct (pack_u 4 q) eqn:E4; [|discriminate]. cbn [bind] in H. inversion H; subst.
  apply bytes_ser_len in E3. apply pack_u_inv in E2, E4. unfold blen in *. rewrite !app_length in L.
  unfold wf_txin, wf_outpoint, wf_script, blen. cbn [i_prevout i_scriptSig i_nSequence o_hash o_n]. repeat split; lia.
Qed.

Lemma txout_ser_wf o e : txout_ser o = Ok e -> (blen e <= MAX_SIZE)%N -> wf_txout o.
Proof.
  destruct o as [v sc]. unfold txout_ser. cbn [o_nValue o_scriptPubKey]. intros H L.
  destruct (pack_s 8 v) eqn:E2; [|discriminate]. cbn [bind] in H.
  destruct (bytes_ser sc) eqn:E3; [|discriminate]. cbn [bind] in H. inversion H; subst.
  apply bytes_ser_len in E3. apply pack_s_inv in E2. unfold blen in *. rewrite !app_length in L.
  unfold wf_txout, wf_script, blen. cbn [o_nValue o_scriptPubKey]. repeat split; lia.
Qed.

Lemma objs_ser_wf {A} (ser : A -> result bytes) (wf : A -> Prop) :
  (forall a e, ser a = Ok e -> (blen e <= MAX_SIZE)%N -> wf a) ->
  forall l e, objs_ser ser l = Ok e -> (blen e <= MAX_SIZE)%N -> Forall wf l.
Proof.
  intros Hw l. induction l as [|a l IH]; intros e H L; [constructor|]. cbn [objs_ser] in H.
  destruct (ser a) eqn:E; [|discriminate]. cbn [bind] in H. destruct (objs_ser ser l) eqn:E2; [|discriminate]. cbn [bind] in H.
  inversion H; subst. rewrite blen_app in L. constructor; [eapply Hw; [exact E|lia]|eapply IH; [reflexivity|lia]].
Qed.

Lemma vector_ser_wf {A} (ser : A -> result bytes) (wf : A -> Prop) :
  (forall a e, ser a = Ok e -> (blen e <= MAX_SIZE)%N -> wf a) ->
  forall l e, vector_ser ser l = Ok e -> (blen e <= MAX_SIZE)%N -> Forall wf l /\ (Z.of_nat (List.length l) < 2 ^ 64)%Z.
Proof.
  intros Hw l e H L. unfold vector_ser in H. destruct (varint_ser _) eqn:E; [|discriminate]. cbn [bind] in H.
  destruct (objs_ser ser l) eqn:E2; [|discriminate]. cbn [bind] in H. inversion H; subst. rewrite blen_app in L.
  apply varint_ser_range in E. split; [|lia]. eapply objs_ser_wf; eauto. lia.
Qed.

Lemma tx_ser_wf t e : tx_ser t = Ok e -> (blen e <= MAX_SIZE)%N -> wf_tx t.
Proof.
  destruct t as [vin vout lock ver]. unfold tx_ser. cbn [t_vin t_vout t_nLockTime t_nVersion]. intros H L.
  destruct (pack_s 4 ver) eqn:E1; [|discriminate]. cbn [bind] in H.
  destruct (vector_ser txin_ser vin) eqn:E2; [|discriminate]. cbn [bind] in H.
  destruct (vector_ser txout_ser vout) eqn:E3; [|discriminate]. cbn [bind] in H.
  destruct (pack_u 4 lock) eqn:E4; [|discriminate]. cbn [bind] in H. inversion H; subst. rewrite !blen_app in L.
  apply (vector_ser_wf _ _ txin_ser_wf) in E2; [|lia]. apply (vector_ser_wf _ _ txout_ser_wf) in E3; [|lia].
  apply pack_s_inv in E1. apply pack_u_inv in E4.
  unfold wf_tx. cbn [t_vin t_vout t_nLockTime t_nVersion]. repeat split; try tauto; lia.
Qed.

Lemma block_ser_wf b e : block_ser b = Ok e -> (blen e <= MAX_SIZE)%N -> wf_block b.
Proof.
  destruct b as [h vtx]. unfold block_ser. cbn [b_header b_vtx]. intros H L.
  destruct (header_ser h) eqn:E1; [|discriminate]. cbn [bind] in H.
  destruct (vector_ser tx_ser vtx) eqn:E2; [|discriminate]. cbn [bind] in H. inversion H; subst. rewrite blen_app in L.
  apply header_ser_wf in E1. apply (vector_ser_wf _ _ tx_ser_wf) in E2; [|lia].
  split; [tauto|exact E2].
Qed.

(** ** The merkle tree *)

Lemma joined_length l : List.length (joined l) = (List.length l + 1) / 2.
Proof.
  assert (H : forall n l, List.length l <= n -> List.length (joined l) = (List.length l + 1) / 2).
  { clear l. induction n as [|n IH]; intros [|a [|b l]] L; try reflexivity; cbn [List.length] in L; try lia.
    cbn [joined List.length]. rewrite (IH l) by lia. lia. }
  eapply H; reflexivity.
Qed.

Lemma nth_mid {A} (d : A) pre a post n : n = List.length pre -> nth n (pre ++ a :: post) d = a.
Proof. intros ->. rewrite app_nth2, Nat.sub_diag by lia. reflexivity. Qed.

Lemma merkle_for_levels pre lvl :
  fold_left (merkle_step (List.length pre) (List.length lvl)) (range2 (List.length lvl)) (pre ++ lvl) =
  pre ++ lvl ++ map Hash (joined lvl).
Proof.
  assert (G : forall n r a done m, List.length r <= n -> List.length a = 2 * m ->
    fold_left (merkle_step (List.length pre) (List.length (a ++ r))) (map (fun k => 2 * k) (seq m ((List.length r + 1) / 2)))
      (pre ++ (a ++ r) ++ done) = pre ++ (a ++ r) ++ done ++ map Hash (joined r)).
  { induction n as [|n IH]; intros [|x [|y r]] a done m L Ha; cbn [List.length] in L; try lia.
    - cbn. rewrite !app_nil_r. reflexivity.
    - cbn. rewrite !app_nil_r. reflexivity.
    - change ((List.length [x] + 1) / 2) with 1. cbn [seq map fold_left joined]. unfold merkle_step.
      replace (Nat.min (2 * m + 1) (List.length (a ++ [x]) - 1)) with (2 * m) by (rewrite app_length; cbn [List.length]; lia).
      replace (pre ++ (a ++ [x]) ++ done) with ((pre ++ a) ++ x :: done) by (repeat (rewrite <- !app_assoc; cbn [app]); reflexivity).
      rewrite nth_mid by (rewrite app_length; lia). rewrite <- !app_assoc. reflexivity.
    - replace ((List.length (x :: y :: r) + 1) / 2) with (S ((List.length r + 1) / 2)) by (cbn [List.length]; lia).
      cbn [seq map fold_left joined]. unfold merkle_step at 2.
      replace (Nat.min (2 * m + 1) (List.length (a ++ x :: y :: r) - 1)) with (2 * m + 1) by (rewrite app_length; cbn [List.length]; lia).
      replace (pre ++ (a ++ x :: y :: r) ++ done) with ((pre ++ a) ++ x :: (y :: r ++ done)) by (repeat (rewrite <- !app_assoc; cbn [app]); reflexivity).
      rewrite nth_mid by (rewrite app_length; lia).
      replace ((pre ++ a) ++ x :: y :: r ++ done) with ((pre ++ a ++ [x]) ++ y :: (r ++ done)) by (repeat (rewrite <- !app_assoc; cbn [app]); reflexivity).
      rewrite nth_mid by (rewrite !app_length; cbn [List.length]; lia).
      replace (((pre ++ a ++ [x]) ++ y :: r ++ done) ++ [Hash (x ++ y)])
        with (pre ++ ((a ++ [x; y]) ++ r) ++ (done ++ [Hash (x ++ y)])) by (repeat (cbn [app]; rewrite <- ?app_assoc); reflexivity).
      replace (a ++ x :: y :: r) with ((a ++ [x; y]) ++ r) by (repeat (rewrite <- !app_assoc; cbn [app]); reflexivity).
      rewrite (IH r (a ++ [x; y]) (done ++ [Hash (x ++ y)]) (S m)); [|lia|rewrite app_length; cbn [List.length]; lia].
      rewrite <- !app_assoc. reflexivity. }
  specialize (G (List.length lvl) lvl [] [] 0 (le_n _) eq_refl). cbn [app] in G. rewrite app_nil_r in G. exact G.
Qed.

Definition up (l : list bytes) : list bytes := map Hash (joined l).

Lemma up_length l : List.length (up l) = (List.length l + 1) / 2.
Proof. unfold up. rewrite map_length. apply joined_length. Qed.

Lemma merkle_while_root : forall fuel pre lvl, List.length lvl <= fuel -> lvl <> [] ->
  exists r front, merkle_while fuel (List.length pre) (List.length lvl) (pre ++ lvl) = front ++ [r] /\ is_merkle_root lvl r.
Proof.
  induction fuel as [|fuel IH]; intros pre lvl L N; [destruct lvl; [congruence|cbn in L; lia]|].
  cbn [merkle_while]. destruct (1 <? List.length lvl) eqn:E.
  - rewrite merkle_for_levels. fold (up lvl). rewrite <- up_length.
    rewrite app_assoc. rewrite <- app_length.
    destruct (IH (pre ++ lvl) (up lvl)) as (r & front & E1 & k & E2 & E3).
    + rewrite up_length. lia.
    + intros H. apply (f_equal (@List.length bytes)) in H. rewrite up_length in H. cbn [List.length] in H. lia.
    + exists r, front. split; [exact E1|]. exists (S k). split; [exact E2|]. intros [|i] Hi; [cbn; lia|]. cbn. apply E3. lia.
  - destruct lvl as [|x [|y lvl]]; [congruence| |cbn [List.length] in E; lia].
    exists x, pre. split; [reflexivity|]. exists 0. split; [reflexivity|]. intros i Hi. lia.
Qed.

Lemma build_merkle_root l : l <> [] -> exists r front, build_merkle_tree l = front ++ [r] /\ is_merkle_root l r.
Proof. intros N. apply (merkle_while_root (List.length l) [] l (le_n _) N). Qed.

Lemma level_length_pos : forall k l, l <> [] -> level k l <> [].
Proof.
  induction k as [|k IH]; intros l N; [exact N|]. cbn [level]. apply IH. intros H. apply map_eq_nil in H.
  destruct l as [|a [|b l]]; cbn in H; congruence.
Qed.

Lemma level_S_out k l : level (S k) l = up (level k l).
Proof. revert l. induction k as [|k IH]; intros l; [reflexivity|]. cbn [level] in *. apply IH. Qed.

Lemma merkle_root_unique l r r' : is_merkle_root l r -> is_merkle_root l r' -> r = r'.
Proof.
  intros (k & E & B) (k' & E' & B'). destruct (lt_eq_lt_dec k k') as [[H| ->]|H].
  - apply B' in H. rewrite E in H. cbn in H. lia.
  - congruence.
  - apply B in H. rewrite E' in H. cbn in H. lia.
Qed.

(** ** What the merkle root commits to *)

(** [b] continues [a], and what follows first repeats an element of [a]. *)
Definition repeats (a b : list bytes) : Prop :=
  exists s, b = a ++ s /\ (s = [] \/ exists c s', s = c :: s' /\ In c a).

(** The first element of [a] is an inner node of [b]. *)
Definition deeper (a b : list bytes) : Prop :=
  exists k x rest a0 a', a = a0 :: a' /\ 1 < List.length (level k b) /\ joined (level k b) = x :: rest /\ a0 = Hash x.

Lemma collide_sym x y : collide x y -> collide y x.
Proof. intros [H1 H2]. split; congruence. Qed.

Lemma clash_sym a b : clash a b -> clash b a.
Proof. intros (x & y & Hx & Hy & H). exists y, x. split; [exact Hy|]. split; [exact Hx|]. apply collide_sym, H. Qed.

Lemma hashed_here l x : 1 < List.length l -> In x (joined l) -> merkle_hashed l x.
Proof. intros L H. exists 0. split; assumption. Qed.

Lemma hashed_up l x : merkle_hashed (up l) x -> merkle_hashed l x.
Proof. intros (k & L & H). exists (S k). split; assumption. Qed.

Lemma clash_up a b : clash (up a) (up b) -> clash a b.
Proof. intros (x & y & Hx & Hy & H). exists x, y. split; [apply hashed_up, Hx|]. split; [apply hashed_up, Hy|exact H]. Qed.

Lemma up_all32 l : all32 (up l).
Proof. apply Forall_forall. intros x H. apply in_map_iff in H. destruct H as (y & <- & _). apply Hash_length. Qed.

Lemma app32 (a b c d : bytes) : List.length a = 32 -> List.length c = 32 -> a ++ b = c ++ d -> a = c /\ b = d.
Proof.
  intros La Lc H. split.
  - apply (f_equal (firstn 32)) in H. rewrite <- La in H at 1. rewrite <- Lc in H. rewrite !firstn_app, !Nat.sub_diag, !firstn_all, !firstn_O, !app_nil_r in H. exact H.
  - apply (f_equal (skipn 32)) in H. rewrite <- La in H at 1. rewrite <- Lc in H. rewrite !skipn_app, !Nat.sub_diag, !skipn_all in H. exact H.
Qed.

Lemma joined_prefix : forall n a b s, List.length a <= n -> all32 a -> all32 b -> joined b = joined a ++ s ->
  (exists rest, b = a ++ rest /\ joined rest = s) \/ (exists c rest, In c a /\ b = a ++ c :: rest) \/ (exists c, In c b /\ a = b ++ [c]).
Proof.
  induction n as [|n IH]; intros [|x [|y a]] b s L Ha Hb H; cbn [List.length] in L; try lia.
  - left. exists b. split; [reflexivity|exact H].
  - left. exists b. split; [reflexivity|exact H].
  - inversion Ha as [|? ? Lx _]; subst. destruct b as [|d [|e b]]; cbn [joined app] in H; [discriminate| |].
    + inversion Hb as [|? ? Ld _]; subst. assert (E : d ++ d = x ++ x) by congruence. apply app32 in E; [|assumption..]. destruct E as [-> _].
      left. exists []. split; [reflexivity|]. apply (f_equal (@tl _)) in H. exact H.
    + inversion Hb as [|? ? Ld Hb']; subst. inversion Hb' as [|? ? Le _]; subst.
      assert (E : d ++ e = x ++ x) by congruence. apply app32 in E; [|assumption..]. destruct E as [-> ->].
      right; left. exists x, b. split; [left; reflexivity|reflexivity].
  - inversion Ha as [|? ? Lx Ha1]; subst. inversion Ha1 as [|? ? Ly Ha']; subst. destruct b as [|d [|e b]]; cbn [joined app] in H; [discriminate| |].
    + inversion Hb as [|? ? Ld _]; subst. assert (E : d ++ d = x ++ y) by congruence. apply app32 in E; [|assumption..]. destruct E as [-> ->].
      assert (E : joined a = []) by (destruct (joined a); [reflexivity|discriminate]).
      right; right. exists y. split; [left; reflexivity|]. destruct a as [|? [|? ?]]; cbn in E; try discriminate. reflexivity.
    + inversion Hb as [|? ? Ld Hb1]; subst. inversion Hb1 as [|? ? Le Hb']; subst.
      assert (E : d ++ e = x ++ y) by congruence. apply app32 in E; [|assumption..]. destruct E as [-> ->].
      assert (E : joined b = joined a ++ s) by congruence.
      destruct (IH a b s ltac:(lia) Ha' Hb' E) as [(rest & -> & R)|[(c & rest & I & ->)|(c & I & ->)]].
      * left. exists rest. split; [reflexivity|exact R].
      * right; left. exists c, rest. split; [right; right; exact I|reflexivity].
      * right; right. exists c. split; [right; right; exact I|reflexivity].
Qed.

Lemma map_Hash_prefix : forall l1 l2 s, map Hash l2 = map Hash l1 ++ s ->
  (exists s', l2 = l1 ++ s' /\ s = map Hash s') \/ exists x y, In x l1 /\ In y l2 /\ collide x y.
Proof.
  induction l1 as [|x l1 IH]; intros l2 s H.
  - left. exists l2. split; [reflexivity|]. symmetry. exact H.
  - destruct l2 as [|y l2]; [discriminate|]. cbn [map app] in H.
    assert (E1 : Hash y = Hash x) by congruence. assert (E2 : map Hash l2 = map Hash l1 ++ s) by congruence. clear H.
    destruct (bytes_eq_dec x y) as [->|N].
    + destruct (IH l2 s E2) as [(s' & -> & ->)|(u & v & U & V & C)].
      * left. exists s'. split; reflexivity.
      * right. exists u, v. repeat split; try (right; assumption); apply C.
    + right. exists x, y. repeat split; [left; reflexivity|left; reflexivity|exact N|congruence].
Qed.

Lemma repeats_down a b : 1 < List.length a -> 1 < List.length b -> all32 a -> all32 b ->
  repeats (up a) (up b) -> clash a b \/ repeats a b \/ repeats b a.
Proof.
  intros La Lb Ha Hb (s & E & Hs). unfold up in E. apply map_Hash_prefix in E. destruct E as [(s' & E & ->)|(x & y & X & Y & C)].
  2: { left. exists x, y. split; [apply hashed_here; assumption|]. split; [apply hashed_here; assumption|exact C]. }
  pose proof E as E0. apply (joined_prefix (List.length a)) in E; [|lia|assumption..].
  destruct E as [(rest & -> & R)|[(c & rest & I & ->)|(c & I & ->)]].
  - destruct rest as [|d rest].
    { right; left. exists []. split; [reflexivity|left; reflexivity]. }
    subst s'. destruct Hs as [Hs|(c & s' & Hs & I)].
    { exfalso. destruct rest; cbn in Hs; discriminate. }
    assert (J : exists e rest', joined (d :: rest) = (d ++ e) :: rest').
    { destruct rest as [|e rest]; cbn [joined]; eauto. }
    destruct J as (e & rest' & J). rewrite J in Hs. cbn [map] in Hs. assert (Ec : c = Hash (d ++ e)) by congruence. clear Hs. subst c.
    unfold up in I. apply in_map_iff in I. destruct I as (p & Hp & Ip).
    destruct (bytes_eq_dec p (d ++ e)) as [->|N].
    + right; left. exists (d :: rest). split; [reflexivity|]. right. exists d, rest. split; [reflexivity|].
      assert (Ld : List.length d = 32). { apply Forall_app in Hb. destruct Hb as [_ Hb]. inversion Hb; assumption. }
      clear - Ip Ha Ld. revert Ip Ha. assert (G : forall n l, List.length l <= n -> In (d ++ e) (joined l) -> all32 l -> In d l).
      { induction n as [|n IH]; intros [|x [|y l]] L I A; cbn [List.length] in L; try lia; cbn [joined] in I; try contradiction.
        - destruct I as [I|[]]. inversion A; subst. apply app32 in I; [|assumption..]. left. tauto.
        - inversion A as [|? ? A1 A2]; subst. inversion A2; subst. destruct I as [I|I].
          + apply app32 in I; [|assumption..]. left. tauto.
          + right; right. apply IH; [lia|assumption..]. }
      apply (G (List.length a)). lia.
    + left. exists p, (d ++ e). split; [apply hashed_here; assumption|]. split; [|split; assumption].
      apply hashed_here; [assumption|]. rewrite E0. apply in_or_app. right. rewrite J. left. reflexivity.
  - right; left. exists (c :: rest). split; [reflexivity|]. right. exists c, rest. split; [reflexivity|exact I].
  - right; right. exists [c]. split; [reflexivity|]. right. exists c, []. split; [reflexivity|exact I].
Qed.

Lemma joined_cons l : 1 < List.length l -> exists a b l' rest, l = a :: b :: l' /\ joined l = (a ++ b) :: rest.
Proof. destruct l as [|a [|b l]]; cbn [List.length]; intros H; try lia. repeat eexists. Qed.

Lemma up_len2 l : 1 < List.length (up l) -> 1 < List.length l.
Proof. rewrite up_length. intros H. destruct (List.length l) as [|[|n]]; [cbn in H; lia|cbn in H; lia|lia]. Qed.

Lemma deeper_down a b : 1 < List.length a -> 1 < List.length b -> all32 a ->
  deeper (up a) (up b) -> clash a b \/ deeper a b.
Proof.
  intros La Lb Ha (k & x & rest & a0 & a' & E0 & L & J & ->).
  destruct (joined_cons a La) as (y0 & y1 & al & rest' & Ea & Ja).
  assert (Ep : Hash (y0 ++ y1) = Hash x). { unfold up in E0. rewrite Ja in E0. cbn [map] in E0. congruence. }
  destruct (bytes_eq_dec (y0 ++ y1) x) as [E|N].
  - right. change (level k (up b)) with (level (S k) b) in J, L. rewrite level_S_out in J, L.
    destruct (joined_cons _ L) as (z0 & z1 & zl & rest2 & Ez & Jz).
    assert (E1 : y0 ++ y1 = z0 ++ z1) by congruence.
    pose proof (up_all32 (level k b)) as Az. rewrite Ez in Az. inversion Az as [|? ? Lz _]; subst.
    inversion Ha as [|? ? Ly _]; subst. apply app32 in E1; [|assumption..]. destruct E1 as [-> _].
    apply up_len2 in L. destruct (joined_cons _ L) as (w0 & w1 & wl & rest3 & Ew & Jw).
    exists k, (w0 ++ w1), rest3, z0, (y1 :: al). split; [reflexivity|]. split; [exact L|]. split; [exact Jw|].
    unfold up in Ez. rewrite Jw in Ez. cbn [map] in Ez. congruence.
  - left. exists (y0 ++ y1), x. split; [|split].
    + apply hashed_here; [exact La|]. rewrite Ja. left; reflexivity.
    + apply hashed_up. exists k. split; [exact L|]. rewrite J. left; reflexivity.
    + split; assumption.
Qed.

Lemma root_single a r : is_merkle_root [a] r -> r = a.
Proof. intros H. apply (merkle_root_unique [a]); [exact H|]. exists 0. split; [reflexivity|]. intros i Hi; lia. Qed.

Lemma root_up l r : 1 < List.length l -> is_merkle_root l r -> is_merkle_root (up l) r.
Proof.
  intros L ([|k] & E & B); [cbn in E; subst l; cbn in L; lia|]. exists k. split; [exact E|]. intros i Hi. apply (B (S i)). lia.
Qed.

Lemma root_deeper r b : 1 < List.length b -> is_merkle_root b r -> deeper [r] b.
Proof.
  intros L ([|k] & E & B); [cbn in E; subst b; cbn in L; lia|].
  rewrite level_S_out in E. pose proof (B k ltac:(lia)) as L2. destruct (joined_cons _ L2) as (w0 & w1 & wl & rest & _ & Jw).
  exists k, (w0 ++ w1), rest, r, []. split; [reflexivity|]. split; [exact L2|]. split; [exact Jw|].
  unfold up in E. rewrite Jw in E. cbn [map] in E. congruence.
Qed.

Lemma root_binds : forall n a b r, List.length a <= n -> all32 a -> all32 b -> a <> [] -> b <> [] ->
  is_merkle_root a r -> is_merkle_root b r ->
  clash a b \/ repeats a b \/ repeats b a \/ deeper a b \/ deeper b a.
Proof.
  induction n as [|n IH]; intros a b r L Ha Hb Na Nb Ra Rb; [destruct a; [congruence|cbn in L; lia]|].
  destruct (le_lt_dec (List.length a) 1) as [La|La]; destruct (le_lt_dec (List.length b) 1) as [Lb|Lb].
  - destruct a as [|x [|]]; cbn [List.length] in La; [congruence| |lia]. destruct b as [|y [|]]; cbn [List.length] in Lb; [congruence| |lia].
    apply root_single in Ra, Rb. subst. right; left. exists []. split; [reflexivity|left; reflexivity].
  - destruct a as [|x [|]]; cbn [List.length] in La; [congruence| |lia]. apply root_single in Ra. subst x.
    right; right; right; left. apply root_deeper; assumption.
  - destruct b as [|x [|]]; cbn [List.length] in Lb; [congruence| |lia]. apply root_single in Rb. subst x.
    right; right; right; right. apply root_deeper; assumption.
  - apply (root_up a r La) in Ra. apply (root_up b r Lb) in Rb.
    assert (Na' : up a <> []). { intros H. apply (f_equal (@List.length _)) in H. rewrite up_length in H. cbn [List.length] in H. lia. }
    assert (Nb' : up b <> []). { intros H. apply (f_equal (@List.length _)) in H. rewrite up_length in H. cbn [List.length] in H. lia. }
    destruct (IH (up a) (up b) r) as [C|[R|[R|[D|D]]]]; [rewrite up_length; lia|apply up_all32|apply up_all32|assumption..| | | | |].
    + left. apply clash_up, C.
    + apply repeats_down in R; [|assumption..]. tauto.
    + apply repeats_down in R; [|assumption..]. destruct R as [C|R]; [left; apply clash_sym, C|tauto].
    + apply deeper_down in D; [|assumption..]. tauto.
    + apply deeper_down in D; [|assumption..]. destruct D as [C|R]; [left; apply clash_sym, C|tauto].
Qed.

Lemma repeats_nodup a b : repeats a b -> NoDup b -> a = b.
Proof.
  intros (s & -> & [->|(c & s' & -> & I)]) N; [rewrite app_nil_r; reflexivity|].
  exfalso. apply NoDup_remove_2 in N. apply N. apply in_or_app. left; exact I.
Qed.

Lemma repeats_length a b : repeats a b -> List.length a = List.length b -> a = b.
Proof.
  intros (s & -> & _) L. rewrite app_length in L. destruct s; [rewrite app_nil_r; reflexivity|cbn in L; lia].
Qed.

(** ** CheckTransaction *)

Lemma is_null_spec o : outpoint_is_null o = true <-> null_outpoint o.
Proof. unfold outpoint_is_null, null_outpoint. rewrite andb_true_iff, bytes_eqb_eq. split; intros [A B]; (split; [exact A|lia]). Qed.

Lemma is_coinbase_spec t : tx_is_coinbase t = true <-> coinbase t.
Proof.
  unfold tx_is_coinbase, coinbase. destruct (t_vin t) as [|i [|j l]].
  - split; [discriminate|]. intros (i & H & _). discriminate.
  - rewrite is_null_spec. split; [intros H; exists i; auto|]. intros (j & H & N). congruence.
  - split; [discriminate|]. intros (k & H & _). discriminate.
Qed.

Lemma MoneyRange_spec n : MoneyRange n = true <-> (0 <= n <= 21000000 * 100000000)%Z.
Proof. unfold MoneyRange, MAX_MONEY, COIN. lia. Qed.

Lemma check_outputs_spec : forall l total, (0 <= total <= 21000000 * 100000000)%Z ->
  (check_outputs total l = Ok tt /\ Forall (fun o => 0 <= o_nValue o)%Z l /\ (total + value_out l <= 21000000 * 100000000)%Z) \/
  (check_outputs total l = Err CheckTransactionError /\ ~ (Forall (fun o => 0 <= o_nValue o)%Z l /\ (total + value_out l <= 21000000 * 100000000)%Z)).
Proof.
  assert (P : forall l, Forall (fun o => 0 <= o_nValue o)%Z l -> (0 <= value_out l)%Z).
  { induction 1; cbn [value_out fold_right]; [lia|]. unfold value_out in *. lia. }
  induction l as [|o l IH]; intros total Ht; cbn [check_outputs].
  - left. split; [reflexivity|]. split; [constructor|]. cbn. lia.
  - change (value_out (o :: l)) with (o_nValue o + value_out l)%Z.
    destruct (o_nValue o <? 0)%Z eqn:E1; [right; split; [reflexivity|]; intros [F _]; inversion F; lia|].
    destruct (MAX_MONEY <? o_nValue o)%Z eqn:E2.
    { right; split; [reflexivity|]. intros [F G]. inversion F as [|? ? F1 F2]; subst. apply P in F2. unfold MAX_MONEY, COIN in E2. lia. }
    destruct (MoneyRange (total + o_nValue o)) eqn:E3; cbn [negb].
    + apply MoneyRange_spec in E3. destruct (IH (total + o_nValue o)%Z E3) as [(H1 & H2 & H3)|(H1 & H2)].
      * left. split; [exact H1|]. split; [constructor; [lia|exact H2]|lia].
      * right. split; [exact H1|]. intros [F G]. apply H2. inversion F; subst. split; [assumption|lia].
    + right. split; [reflexivity|]. intros [F G]. inversion F as [|? ? F1 F2]; subst. apply P in F2.
      assert (MoneyRange (total + o_nValue o) = true); [apply MoneyRange_spec; lia|congruence].
Qed.

Lemma same_outpoint_spec a b : wf_outpoint a -> wf_outpoint b -> (same_outpoint a b = true <-> a = b).
Proof.
  intros Ha Hb. unfold same_outpoint. destruct (outpoint_codec a Ha) as (ea & Ea & _). destruct (outpoint_codec b Hb) as (eb & Eb & _).
  rewrite Ea, Eb, bytes_eqb_eq. split; [intros ->; eapply codec_injective; [exact outpoint_codec| | |exact Ea|exact Eb]; assumption|congruence].
Qed.

Lemma check_inputs_spec : forall l seen, Forall wf_outpoint seen -> Forall wf_txin l ->
  (check_inputs seen l = Ok tt /\ NoDup (map i_prevout l) /\ Forall (fun i => ~ In (i_prevout i) seen) l) \/
  (check_inputs seen l = Err CheckTransactionError /\ ~ (NoDup (map i_prevout l) /\ Forall (fun i => ~ In (i_prevout i) seen) l)).
Proof.
  induction l as [|i l IH]; intros seen Hs Hl; cbn [check_inputs map].
  - left. repeat split; constructor.
  - inversion Hl as [|? ? Hi Hl']; subst. assert (Wi : wf_outpoint (i_prevout i)) by apply Hi.
    assert (X : existsb (same_outpoint (i_prevout i)) seen = true <-> In (i_prevout i) seen).
    { rewrite existsb_exists. rewrite Forall_forall in Hs. split.
      - intros (o & Io & E). apply same_outpoint_spec in E; [congruence|exact Wi|apply Hs, Io].
      - intros I. exists (i_prevout i). split; [exact I|]. apply same_outpoint_spec; auto. }
    destruct (existsb _ seen) eqn:E.
    + right. split; [reflexivity|]. intros [_ F]. inversion F; subst. tauto.
    + assert (Ni : ~ In (i_prevout i) seen) by (intros I; apply X in I; congruence).
      destruct (IH (i_prevout i :: seen)) as [(H1 & H2 & H3)|(H1 & H2)]; [constructor; assumption|assumption| |].
      * left. split; [exact H1|]. split.
        -- constructor; [|exact H2]. intros I. apply in_map_iff in I. destruct I as (j & Ej & Ij). rewrite Forall_forall in H3. apply (H3 j Ij). left. congruence.
        -- constructor; [exact Ni|]. eapply Forall_impl; [|exact H3]. intros j Hj I. apply Hj. right. exact I.
      * right. split; [exact H1|]. intros [N F]. apply H2. inversion N as [|? ? N1 N2]; subst. inversion F as [|? ? F1 F2]; subst. split; [exact N2|].
        rewrite Forall_forall in *. intros j Ij [I|I]; [|exact (F2 j Ij I)]. apply N1. rewrite I. apply in_map. exact Ij.
Qed.

Lemma wf_tx_prevouts t : wf_tx t -> Forall wf_txin (t_vin t).
Proof. intros H. apply H. Qed.

Lemma CheckTransaction_cases t enc : tx_ser t = Ok enc ->
  (CheckTransaction t = Ok tt /\ valid_tx t) \/ (CheckTransaction t = Err CheckTransactionError /\ ~ valid_tx t).
Proof.
  intros S. unfold CheckTransaction. destruct (t_vin t) as [|i0 vin] eqn:Evin.
  { right. split; [reflexivity|]. intros V. apply (vt_inputs _ V). exact Evin. }
  destruct (t_vout t) as [|o0 vout] eqn:Evout.
  { right. split; [reflexivity|]. intros V. apply (vt_outputs _ V). exact Evout. }
  rewrite S. cbn [bind]. rewrite <- Evin, <- Evout in *.
  destruct (MAX_BLOCK_SIZE <? Z.of_N (blen enc))%Z eqn:E1.
  { right. split; [reflexivity|]. intros V. destruct (vt_size _ V) as (e & E & L). unfold MAX_BLOCK_SIZE in E1. assert (e = enc) by congruence. subst. lia. }
  assert (L : (blen enc <= 1000000)%N) by (unfold MAX_BLOCK_SIZE in E1; lia).
  assert (W : wf_tx t). { eapply tx_ser_wf; [exact S|]. unfold MAX_SIZE. lia. }
  destruct (check_outputs_spec (t_vout t) 0 ltac:(lia)) as [(H1 & H2 & H3)|(H1 & H2)]; rewrite H1; cbn [bind].
  2: { right. split; [reflexivity|]. intros V. apply H2. split; [apply (vt_values _ V)|]. pose proof (vt_total _ V). lia. }
  destruct (check_inputs_spec (t_vin t) [] (Forall_nil _) (wf_tx_prevouts t W)) as [(I1 & I2 & _)|(I1 & I2)]; rewrite I1; cbn [bind].
  2: { right. split; [reflexivity|]. intros V. apply I2. split; [apply (vt_distinct _ V)|]. apply Forall_forall. intros j _ []. }
  assert (NV : t_vin t <> []) by congruence. assert (NO : t_vout t <> []) by congruence.
  destruct (tx_is_coinbase t) eqn:Ec.
  - apply is_coinbase_spec in Ec. destruct Ec as (i & Ei & Ni). assert (i0 = i) by congruence. subst i0.
    destruct (_ && _)%N eqn:E2.
    + left. split; [reflexivity|]. constructor; auto.
      * exists enc. auto.
      * intros _ j Ij. rewrite Ei in Ij. destruct Ij as [<-|[]]. unfold blen in E2. lia.
      * intros C. exfalso. apply C. exists i. auto.
    + right. split; [reflexivity|]. intros V. pose proof (vt_coinbase _ V (ex_intro _ i (conj Ei Ni)) i) as H.
      rewrite Ei in H. specialize (H (or_introl eq_refl)). unfold blen in E2. lia.
  - assert (C : ~ coinbase t). { intros C. apply is_coinbase_spec in C. congruence. }
    destruct (existsb _ (t_vin t)) eqn:E2.
    + right. split; [reflexivity|]. intros V. pose proof (vt_spends _ V C) as F. apply existsb_exists in E2. destruct E2 as (i & Ii & Hi).
      rewrite Forall_forall in F. apply (F i Ii). apply is_null_spec, Hi.
    + left. split; [reflexivity|]. constructor; auto.
      * exists enc. auto.
      * intros C'. contradiction.
      * intros _. apply Forall_forall. intros i Ii Hn. apply is_null_spec in Hn.
        assert (existsb (fun i => outpoint_is_null (i_prevout i)) (t_vin t) = true) by (apply existsb_exists; eauto). congruence.
Qed.

Lemma CheckTransaction_iff t : CheckTransaction t = Ok tt <-> valid_tx t.
Proof.
  split.
  - intros H. unfold CheckTransaction in H. destruct (t_vin t) eqn:E1; [discriminate|]. destruct (t_vout t) eqn:E2; [discriminate|].
    destruct (tx_ser t) as [enc|] eqn:S; [|discriminate]. destruct (CheckTransaction_cases t enc S) as [[_ V]|[F _]]; [exact V|].
    unfold CheckTransaction in F. rewrite E1, E2, S in F. cbn [bind] in *. congruence.
  - intros V. destruct (vt_size _ V) as (enc & S & _). destruct (CheckTransaction_cases t enc S) as [[H _]|[_ F]]; [exact H|contradiction].
Qed.

Lemma CheckTransaction_rejects t : wf_tx t -> ~ valid_tx t -> CheckTransaction t = Err CheckTransactionError.
Proof.
  intros W N. destruct (tx_codec t W) as (enc & S & _). destruct (CheckTransaction_cases t enc S) as [[_ F]|[H _]]; [contradiction|exact H].
Qed.

(** ** Proof of work *)

Lemma hash_number_le h : hash_number h = Z.of_N (le_dec h).
Proof. induction h as [|b h IH]; [reflexivity|]. cbn [hash_number fold_right le_dec]. unfold hash_number in IH. rewrite IH. unfold bZ. lia. Qed.

Lemma compact_size c : (0 <= c < 2 ^ 32)%Z -> Z.land (Z.shiftr c 24) 0xff = (c / 2 ^ 24)%Z.
Proof.
  intros H. rewrite Z.shiftr_div_pow2 by lia. change 255%Z with (Z.ones 8). rewrite Z.land_ones by lia. apply Z.mod_small. lia.
Qed.

Lemma CheckProofOfWork_plain limit h c : (0 <= c < 2 ^ 32)%Z -> (3 <= c / 2 ^ 24)%Z -> List.length h = 32 ->
  let target := ((c mod 2 ^ 24) * 256 ^ (c / 2 ^ 24 - 3))%Z in
  (CheckProofOfWork limit h c = Ok tt /\ (0 < target <= limit)%Z /\ (hash_number h <= target)%Z) \/
  (CheckProofOfWork limit h c = Err CheckProofOfWorkError /\ ~ ((0 < target <= limit)%Z /\ (hash_number h <= target)%Z)).
Proof.
  intros Hc Hs Hl target. unfold CheckProofOfWork, uint256_from_compact. rewrite compact_size by exact Hc.
  destruct (8 * (c / 2 ^ 24 - 3) <? 0)%Z eqn:E; [lia|]. cbn [bind].
  assert (T : Z.shiftl (Z.land c 16777215) (8 * (c / 2 ^ 24 - 3)) = target).
  { rewrite Z.shiftl_mul_pow2 by lia. change 16777215%Z with (Z.ones 24). rewrite Z.land_ones by lia. unfold target. f_equal.
    rewrite Z.pow_mul_r by lia. reflexivity. }
  rewrite T. destruct (negb _) eqn:E1.
  - right. split; [reflexivity|]. lia.
  - unfold uint256_from_str. destruct (blen h <? 32)%N eqn:E2; [unfold blen in E2; lia|]. cbn [bind].
    rewrite <- Hl, firstn_all, <- hash_number_le. destruct (target <? hash_number h)%Z eqn:E3; [right|left]; (split; [reflexivity|lia]).
Qed.

Lemma CheckProofOfWork_small limit h c : (0 <= c < 2 ^ 32)%Z -> (c / 2 ^ 24 < 3)%Z -> CheckProofOfWork limit h c = Err ValueError.
Proof.
  intros Hc Hs. unfold CheckProofOfWork, uint256_from_compact. rewrite compact_size by exact Hc.
  destruct (8 * (c / 2 ^ 24 - 3) <? 0)%Z eqn:E; [reflexivity|lia].
Qed.

Lemma compact_value_plain c : (0 <= c < 2 ^ 32)%Z -> (3 <= c / 2 ^ 24)%Z -> Z.testbit c 23 = false ->
  compact_value c = ((c mod 2 ^ 24) * 256 ^ (c / 2 ^ 24 - 3))%Z.
Proof.
  intros Hc Hs Hb. unfold compact_value. rewrite Hb. destruct (c / 2 ^ 24 <? 3)%Z eqn:E; [lia|]. f_equal.
  apply Z.testbit_false in Hb; [|lia]. change (2 ^ 24)%Z with (2 ^ 23 * 2)%Z. rewrite Z.rem_mul_r by lia. lia.
Qed.

Lemma CheckProofOfWork_meaning limit h c : (0 <= c < 2 ^ 32)%Z -> (3 <= c / 2 ^ 24)%Z -> Z.testbit c 23 = false -> List.length h = 32 ->
  (CheckProofOfWork limit h c = Ok tt <-> enough_work limit h c) /\
  (~ enough_work limit h c -> CheckProofOfWork limit h c = Err CheckProofOfWorkError).
Proof.
  intros Hc Hs Hb Hl. unfold enough_work. rewrite compact_value_plain by assumption.
  destruct (CheckProofOfWork_plain limit h c Hc Hs Hl) as [(H1 & H2)|(H1 & H2)]; rewrite H1; split; try split; try tauto; try congruence.
Qed.

(** ** Signature operations *)

Lemma raw_loop_ops : forall fuel i s, Forall (fun x => forall d, snd (fst x) = Some d -> (fst (fst x) <= 0x4e)%N) (fst (raw_iter_loop fuel i s)).
Proof.
  induction fuel as [|fuel IH]; intros i s; [constructor|]. destruct s as [|b s1]; [constructor|]. rewrite raw_loop_S.
  destruct (0x4e <? bN b)%N eqn:E.
  - cbn [fst]. constructor; [cbn; discriminate|apply IH].
  - destruct (push_size (bN b) s1) as [[[l h] s2]|e]; [|constructor].
    destruct (blen s2 <? l)%N; [constructor|]. cbn [fst]. constructor; [cbn; intros; lia|apply IH].
Qed.

Lemma weight_cook x : (forall d, snd (fst x) = Some d -> (fst (fst x) <= 0x4e)%N) -> item_weight (cook x) = sigop_weight (fst (fst x)).
Proof.
  destruct x as [[op [d|]] i]; cbn [fst snd cook]; intros H.
  - specialize (H d eq_refl). cbn [item_weight]. unfold sigop_weight.
    destruct ((op =? 172) || (op =? 173))%N eqn:E1; [lia|]. destruct ((op =? 174) || (op =? 175))%N eqn:E2; [lia|reflexivity].
  - unfold is_small_int, decode_op_n. destruct ((81 <=? op) && (op <=? 96) || (op =? 0))%N eqn:E; [|reflexivity].
    assert (W : sigop_weight op = 0%N). { unfold sigop_weight. destruct ((op =? 172) || (op =? 173))%N eqn:E1; [lia|]. destruct ((op =? 174) || (op =? 175))%N eqn:E2; [lia|reflexivity]. }
    rewrite W. destruct (op =? 0)%N eqn:E0; [reflexivity|]. destruct ((81 <=? op) && (op <=? 96))%N eqn:E3; [reflexivity|lia].
Qed.

Lemma sigop_loop_sum : forall l n last, sigop_loop false n last l = Ok (n + Nsum (map (fun x => sigop_weight (fst (fst x))) l))%N.
Proof.
  induction l as [|[[op d] i] l IH]; intros n last; cbn [sigop_loop map fst snd Nsum fold_right]; [f_equal; lia|].
  unfold sigop_weight at 1. destruct ((op =? 172) || (op =? 173))%N; [|destruct ((op =? 174) || (op =? 175))%N]; cbn [bind andb]; rewrite IH; unfold Nsum; f_equal; lia.
Qed.

Lemma GetSigOpCount_sum s : GetSigOpCount false s = match snd (script_iter s) with None => Ok (sigops s) | Some e => Err e end.
Proof.
  unfold GetSigOpCount, sigops, script_iter. pose proof (raw_loop_ops (S (List.length s)) 0 s) as F. fold (raw_iter s) in F.
  destruct (raw_iter s) as [l e]. cbn [fst snd] in *. rewrite sigop_loop_sum. cbn [bind]. rewrite N.add_0_l.
  rewrite map_map. rewrite (map_ext_in (fun x => item_weight (cook x)) (fun x => sigop_weight (fst (fst x)))).
  2: { intros x I. apply weight_cook. rewrite Forall_forall in F. apply F, I. }
  destruct e; reflexivity.
Qed.

Lemma parses_spec s : parses s <-> snd (script_iter s) = None.
Proof. unfold parses. destruct (script_iter s) as [l e]. cbn [snd]. split; [intros [x H]; congruence|intros ->; eauto]. Qed.

Lemma GetSigOpCount_ok s : parses s -> GetSigOpCount false s = Ok (sigops s).
Proof. intros H. rewrite GetSigOpCount_sum. apply parses_spec in H. rewrite H. reflexivity. Qed.

Lemma sum_sigops_iff : forall l n, sum_sigops l = Ok n <-> Forall parses l /\ n = Nsum (map sigops l).
Proof.
  induction l as [|s l IH]; intros n; cbn [sum_sigops map Nsum fold_right].
  - split; [intros H; split; [constructor|congruence]|intros [_ ->]; reflexivity].
  - rewrite GetSigOpCount_sum. destruct (snd (script_iter s)) eqn:E.
    + split; [discriminate|]. intros [F _]. inversion F as [|? ? P _]; subst. apply parses_spec in P. congruence.
    + cbn [bind]. destruct (sum_sigops l) as [m|] eqn:S; cbn [bind].
      * destruct (proj1 (IH m) eq_refl) as [F ->]. fold (Nsum (map sigops l)). split.
        -- intros H. split; [constructor; [apply parses_spec, E|exact F]|congruence].
        -- intros [_ ->]. reflexivity.
      * split; [discriminate|]. intros [F _]. inversion F; subst. assert (Err e = Ok (Nsum (map sigops l))) by (apply IH; auto). discriminate.
Qed.

Lemma GetLegacy_iff t n : GetLegacySigOpCount t = Ok n <-> Forall parses (tx_scripts t) /\ n = tx_sigops t.
Proof. apply sum_sigops_iff. Qed.

(** ** CheckBlock *)

Lemma mapM_Forall2 {A B} (f : A -> result B) l r : mapM f l = Ok r <-> Forall2 (fun a b => f a = Ok b) l r.
Proof.
  revert r. induction l as [|a l IH]; intros r; cbn [mapM].
  - split; [intros H; inversion H; constructor|intros H; inversion H; reflexivity].
  - destruct (f a) as [b|] eqn:E; cbn [bind].
    + destruct (mapM f l) as [r'|] eqn:M; cbn [bind].
      * split; [intros H; inversion H; subst; constructor; [exact E|apply IH; reflexivity]|].
        intros H. inversion H as [|? b' ? r2 H1 H2]; subst. apply IH in H2. congruence.
      * split; [discriminate|]. intros H. inversion H as [|? b' ? r2 H1 H2]; subst. apply IH in H2. congruence.
    + split; [discriminate|]. intros H. inversion H; congruence.
Qed.

Lemma bytes_in_spec x l : existsb (bytes_eqb x) l = true <-> In x l.
Proof.
  rewrite existsb_exists. split.
  - intros (y & I & E). apply bytes_eqb_eq in E. congruence.
  - intros I. exists x. split; [exact I|apply bytes_eqb_refl].
Qed.

Definition rest_ok (t : tx) : Prop := ~ coinbase t /\ valid_tx t /\ Forall parses (tx_scripts t).

Lemma valid_tx_hash t : valid_tx t -> exists i, tx_GetHash t = Ok i.
Proof. intros V. destruct (vt_size _ V) as (e & E & _). exists (Hash e). unfold tx_GetHash. rewrite E. reflexivity. Qed.

Lemma check_rest_iff : forall l seen n, (n <= 20000)%N ->
  check_rest seen n l = Ok tt <->
  Forall rest_ok l /\ (exists ids, Forall2 (fun t i => tx_GetHash t = Ok i) l ids /\ NoDup ids /\ forall i, In i ids -> ~ In i seen) /\
  (n + Nsum (map tx_sigops l) <= 20000)%N.
Proof.
  induction l as [|t l IH]; intros seen n Hn; cbn [check_rest map Nsum fold_right].
  - split; [intros _|reflexivity]. split; [constructor|]. split; [exists []; repeat split; [constructor|constructor|intros i []]|lia].
  - destruct (tx_is_coinbase t) eqn:Ec.
    { apply is_coinbase_spec in Ec. split; [discriminate|]. intros (F & _). inversion F as [|? ? [C _] _]; subst. contradiction. }
    assert (C : ~ coinbase t). { intros C. apply is_coinbase_spec in C. congruence. }
    destruct (CheckTransaction t) as [[]|] eqn:Ct; cbn [bind].
    2: { split; [discriminate|]. intros (F & _). inversion F as [|? ? (_ & V & _) _]; subst. apply CheckTransaction_iff in V. congruence. }
    apply CheckTransaction_iff in Ct. destruct (valid_tx_hash t Ct) as [i Hi]. rewrite Hi. cbn [bind].
    destruct (existsb (bytes_eqb i) seen) eqn:Es.
    { apply bytes_in_spec in Es. split; [discriminate|]. intros (_ & (ids & F2 & _ & D) & _). inversion F2 as [|? i' ? ids' H1 H2]; subst.
      exfalso. apply (D i'); [left; reflexivity|]. congruence. }
    assert (Ns : ~ In i seen). { intros I. apply bytes_in_spec in I. congruence. }
    destruct (GetLegacySigOpCount t) as [k|] eqn:Eg; cbn [bind].
    2: { split; [discriminate|]. intros (F & _). inversion F as [|? ? (_ & _ & P) _]; subst.
         pose proof (proj2 (GetLegacy_iff t (tx_sigops t)) (conj P eq_refl)). congruence. }
    apply GetLegacy_iff in Eg. destruct Eg as [P ->]. fold (Nsum (map tx_sigops l)).
    destruct (MAX_BLOCK_SIGOPS <? Z.of_N (n + tx_sigops t))%Z eqn:Em; unfold MAX_BLOCK_SIGOPS in Em.
    { split; [discriminate|]. intros (_ & _ & S). lia. }
    rewrite IH by lia. split.
    + intros (F & (ids & F2 & N & D) & S). split; [constructor; [split; [exact C|split; assumption]|exact F]|]. split; [|lia].
      exists (i :: ids). split; [constructor; assumption|]. split.
      * constructor; [|exact N]. intros I. apply (D i I). left; reflexivity.
      * intros j [<-|I]; [exact Ns|]. intros I2. apply (D j I). right; exact I2.
    + intros (F & (ids & F2 & N & D) & S). inversion F as [|? ? _ F']; subst. inversion F2 as [|? i' ? ids' H1 H2]; subst.
      assert (i' = i) by congruence. subst i'. inversion N as [|? ? N1 N2]; subst. split; [exact F'|]. split; [|lia].
      exists ids'. split; [exact H2|]. split; [exact N2|]. intros j I [<-|I2]; [contradiction|]. apply (D j); [right; exact I|exact I2].
Qed.

Lemma calc_root_iff b r : calc_merkle_root b = Ok r <-> b_vtx b <> [] /\ merkle_root_of (b_vtx b) r.
Proof.
  unfold calc_merkle_root, merkle_root_of. destruct (b_vtx b) as [|t0 rest] eqn:E.
  { split; [discriminate|]. intros [N _]. congruence. }
  rewrite <- E. unfold build_merkle_tree_from_txs. destruct (mapM tx_GetHash (b_vtx b)) as [ids|] eqn:M; cbn [bind].
  - pose proof (proj1 (mapM_Forall2 _ _ _) M) as F2.
    assert (Ni : ids <> []). { rewrite E in F2. inversion F2; congruence. }
    destruct (build_merkle_root ids Ni) as (r' & front & E1 & R). rewrite E1, rev_app_distr. cbn [rev app].
    split.
    + intros H. assert (r' = r) by congruence. subst. split; [congruence|]. exists ids. split; assumption.
    + intros (_ & ids' & F2' & R'). apply mapM_Forall2 in F2'. assert (ids' = ids) by congruence. subst. f_equal. eapply merkle_root_unique; eassumption.
  - split; [discriminate|]. intros (_ & ids' & F2' & _). apply mapM_Forall2 in F2'. congruence.
Qed.

Lemma wf_block_root b : wf_block b -> b_vtx b <> [] -> exists r, calc_merkle_root b = Ok r.
Proof.
  intros (_ & F & _) N. destruct (mapM_hash_ok _ F) as [ids M]. apply mapM_Forall2 in M.
  assert (Ni : ids <> []). { intros ->. inversion M. congruence. }
  destruct (build_merkle_root ids Ni) as (r & _ & _ & R). exists r. apply calc_root_iff. split; [exact N|]. exists ids. split; assumption.
Qed.

Lemma CheckBlock_iff limit b pow mr now :
  CheckBlock limit b pow mr now = Ok tt <->
  (pow = true -> exists h, block_GetHash b = Ok h /\ CheckProofOfWork limit h (h_nBits (b_header b)) = Ok tt) /\ checked_block b mr now.
Proof.
  unfold CheckBlock, CheckBlockHeader, block_GetHash, get_header. split.
  - intros H.
    assert (Hp : pow = true -> exists h, header_GetHash (b_header b) = Ok h /\ CheckProofOfWork limit h (h_nBits (b_header b)) = Ok tt).
    { intros ->. destruct (header_GetHash (b_header b)) as [h|]; [|discriminate]. cbn [bind] in H. exists h. split; [reflexivity|].
      destruct (CheckProofOfWork limit h (h_nBits (b_header b))) as [[]|]; [reflexivity|discriminate]. }
    split; [exact Hp|].
    destruct (if pow then _ else _) as [[]|]; [|discriminate]. cbn [bind] in H.
    destruct (now + 2 * 60 * 60 <? h_nTime (b_header b))%Z eqn:Et; [discriminate|]. cbn [bind] in H.
    destruct (b_vtx b) as [|t0 rest] eqn:Ev; [discriminate|].
    destruct (block_ser b) as [enc|] eqn:Es; [|discriminate]. cbn [bind] in H.
    destruct (MAX_BLOCK_SIZE <? Z.of_N (blen enc))%Z eqn:El; [discriminate|].
    destruct (tx_is_coinbase t0) eqn:Ec; [|discriminate]. cbn [negb] in H.
    destruct (check_rest [] 0 rest) as [[]|] eqn:Er; [|discriminate]. cbn [bind] in H.
    apply check_rest_iff in Er; [|lia]. destruct Er as (F & (ids & F2 & N & _) & S).
    constructor.
    + lia.
    + exists enc. split; [exact Es|]. unfold MAX_BLOCK_SIZE in El. lia.
    + exists t0, rest. split; [exact Ev|]. split; [apply is_coinbase_spec, Ec|]. split; [exact F|]. split; [exists ids; split; assumption|lia].
    + intros ->. destruct (calc_merkle_root b) as [r|] eqn:Em; [|discriminate]. cbn [bind] in H.
      destruct (bytes_eqb (h_merkle (b_header b)) r) eqn:Eb; [|discriminate]. apply bytes_eqb_eq in Eb. subst r. apply calc_root_iff, Em.
  - intros (Hp & [Ht (enc & Es & El) (t0 & rest & Ev & Ec & F & (ids & F2 & N) & S) Hm]).
    assert (E1 : (if pow then do x <- header_GetHash (b_header b); CheckProofOfWork limit x (h_nBits (b_header b)) else Ok tt) = Ok tt).
    { destruct pow; [|reflexivity]. destruct (Hp eq_refl) as (h & -> & E). exact E. }
    rewrite E1. cbn [bind]. destruct (now + 2 * 60 * 60 <? h_nTime (b_header b))%Z eqn:Et; [lia|]. cbn [bind].
    rewrite Ev. rewrite Es. cbn [bind]. destruct (MAX_BLOCK_SIZE <? Z.of_N (blen enc))%Z eqn:E2; [unfold MAX_BLOCK_SIZE in E2; lia|].
    apply is_coinbase_spec in Ec. rewrite Ec. cbn [negb].
    assert (Er : check_rest [] 0 rest = Ok tt).
    { apply check_rest_iff; [lia|]. split; [exact F|]. split; [|lia]. exists ids. split; [exact F2|]. split; [exact N|]. intros i _ []. }
    rewrite Er. cbn [bind]. destruct mr; [|reflexivity].
    assert (Em : calc_merkle_root b = Ok (h_merkle (b_header b))). { apply calc_root_iff. split; [congruence|]. apply Hm. reflexivity. }
    rewrite Em. cbn [bind]. rewrite bytes_eqb_refl. reflexivity.
Qed.

(** ** Which exceptions CheckBlock raises *)

Lemma header_hash_wf h : wf_header h -> exists x, header_GetHash h = Ok x /\ List.length x = 32.
Proof. intros W. destruct (header_codec h W) as (e & E & _). exists (Hash e). unfold header_GetHash. rewrite E. split; [reflexivity|apply Hash_length]. Qed.

Lemma check_rest_errors : forall l seen n e, Forall wf_tx l -> Forall (fun t => Forall parses (tx_scripts t)) l ->
  check_rest seen n l = Err e -> validation_error e.
Proof.
  induction l as [|t l IH]; intros seen n e W P H; cbn [check_rest] in H; [discriminate|].
  inversion W as [|? ? Wt Wl]; subst. inversion P as [|? ? Pt Pl]; subst.
  destruct (tx_is_coinbase t); [inversion H; cbn; tauto|].
  destruct (tx_codec t Wt) as (enc & S & _). destruct (CheckTransaction_cases t enc S) as [[E _]|[E _]]; rewrite E in H; cbn [bind] in H.
  2: { inversion H; cbn; tauto. }
  unfold tx_GetHash in H. rewrite S in H. cbn [bind] in H. destruct (existsb _ seen); [inversion H; cbn; tauto|].
  rewrite (proj2 (GetLegacy_iff t (tx_sigops t)) (conj Pt eq_refl)) in H. cbn [bind] in H.
  destruct (_ <? _)%Z; [inversion H; cbn; tauto|]. eapply IH; eassumption.
Qed.

Lemma CheckBlock_errors limit b pow mr now e : wf_block b -> (3 <= h_nBits (b_header b) / 2 ^ 24)%Z ->
  Forall (fun t => Forall parses (tx_scripts t)) (tl (b_vtx b)) ->
  CheckBlock limit b pow mr now = Err e -> validation_error e.
Proof.
  intros W Hb P H. pose proof W as (Wh & Wt & _). unfold CheckBlock, CheckBlockHeader, get_header in H.
  destruct (header_hash_wf _ Wh) as (x & Ex & Lx).
  destruct (if pow then _ else _) as [[]|e'] eqn:Ep; cbn [bind] in H.
  2: { inversion H; subst e'. destruct pow; [|discriminate]. rewrite Ex in Ep. cbn [bind] in Ep.
       destruct (CheckProofOfWork_plain limit x (h_nBits (b_header b)) ltac:(apply Wh) Hb Lx) as [[E _]|[E _]]; rewrite E in Ep; inversion Ep; cbn; tauto. }
  destruct (_ <? _)%Z; cbn [bind] in H; [inversion H; cbn; tauto|].
  destruct (b_vtx b) as [|t0 rest] eqn:Ev; [inversion H; cbn; tauto|].
  destruct (block_codec b W) as (enc & Es & _). rewrite Es in H. cbn [bind] in H.
  destruct (_ <? _)%Z; [inversion H; cbn; tauto|]. destruct (negb _); [inversion H; cbn; tauto|].
  destruct (check_rest [] 0 rest) as [[]|e'] eqn:Er; cbn [bind] in H.
  2: { inversion H; subst e'. inversion Wt; subst. eapply check_rest_errors; [| |exact Er]; assumption. }
  destruct mr; [|discriminate]. destruct (wf_block_root b W ltac:(congruence)) as [r Em]. rewrite Em in H. cbn [bind] in H.
  destruct (bytes_eqb _ _); inversion H; cbn; tauto.
Qed.

(** ** The block hash commits to the block *)

Lemma checked_wf b mr now : checked_block b mr now -> wf_block b.
Proof. intros [_ (enc & E & L) _ _]. eapply block_ser_wf; [exact E|]. unfold MAX_SIZE. lia. Qed.

Lemma ids_all32 l ids : Forall2 (fun t i => tx_GetHash t = Ok i) l ids -> all32 ids.
Proof.
  induction 1 as [|t i l ids H _ IH]; constructor; [|exact IH]. unfold tx_GetHash in H. destruct (tx_ser t) as [e|]; [|discriminate].
  cbn [bind] in H. assert (i = Hash e) by congruence. subst. apply Hash_length.
Qed.

Lemma same_id t u i : wf_tx t -> wf_tx u -> tx_GetHash t = Ok i -> tx_GetHash u = Ok i ->
  t = u \/ exists x y, tx_ser t = Ok x /\ tx_ser u = Ok y /\ collide x y.
Proof.
  intros Wt Wu Ht Hu. destruct (tx_hash_binds t u i Wt Wu Ht Hu) as [E|(x & y & X & Y & C)]; [left; exact E|right].
  exists x, y. repeat split; try assumption; apply C.
Qed.

(** The ids of a checked block are distinct, or two of its transactions collide. *)
Lemma checked_ids b mr now ids : checked_block b mr now -> Forall2 (fun t i => tx_GetHash t = Ok i) (b_vtx b) ids ->
  NoDup ids \/ exists x y, block_hashed b x /\ block_hashed b y /\ collide x y.
Proof.
  intros CB F2. pose proof (checked_wf _ _ _ CB) as (_ & W & _). destruct CB as [_ _ (t0 & rest & Ev & Ec & F & (ids' & F2' & N) & _) _].
  assert (Hh : forall t, In t (b_vtx b) -> forall x, tx_ser t = Ok x -> block_hashed b x) by (intros t I x X; right; left; eauto).
  rewrite Ev in *. inversion F2 as [|? i0 ? ids2 H0 H2]; subst. apply mapM_Forall2 in H2, F2'. assert (ids2 = ids') by congruence. subst ids2.
  apply mapM_Forall2 in H2.
  destruct (in_dec bytes_eq_dec i0 ids') as [I|I]; [|left; constructor; assumption].
  assert (T : exists t, In t rest /\ tx_GetHash t = Ok i0).
  { clear - H2 I. induction H2 as [|t i l ids E _ IH]; [contradiction|]. destruct I as [<-|I]; [exists t; split; [left; reflexivity|exact E]|].
    destruct (IH I) as (u & Iu & Eu). exists u. split; [right; exact Iu|exact Eu]. }
  destruct T as (t & It & Et). rewrite Forall_forall in W. 
  destruct (same_id t0 t i0 (W _ (or_introl eq_refl)) (W _ (or_intror It)) H0 Et) as [->|(x & y & X & Y & C)].
  - exfalso. rewrite Forall_forall in F. destruct (F t It) as [C _]. contradiction.
  - right. exists x, y. split; [eapply Hh; [left; reflexivity|exact X]|]. split; [eapply Hh; [right; exact It|exact Y]|exact C].
Qed.

Lemma same_ids : forall l1 l2 ids, Forall wf_tx l1 -> Forall wf_tx l2 ->
  Forall2 (fun t i => tx_GetHash t = Ok i) l1 ids -> Forall2 (fun t i => tx_GetHash t = Ok i) l2 ids ->
  l1 = l2 \/ exists t u x y, In t l1 /\ In u l2 /\ tx_ser t = Ok x /\ tx_ser u = Ok y /\ collide x y.
Proof.
  induction l1 as [|t l1 IH]; intros [|u l2] ids W1 W2 F1 F2; try (left; reflexivity).
  - inversion F1; subst. inversion F2.
  - inversion F2; subst. inversion F1.
  - inversion F1 as [|? i ? ids1 E1 F1']; subst. inversion F2 as [|? i' ? ids2 E2 F2']; subst.
    inversion W1; subst. inversion W2; subst.
    destruct (same_id t u i) as [->|(x & y & X & Y & C)]; try assumption.
    + destruct (IH l2 ids1) as [->|(t' & u' & x & y & I1 & I2 & X & Y & C)]; try assumption; [left; reflexivity|].
      right. exists t', u', x, y. split; [right; exact I1|]. split; [right; exact I2|]. auto.
    + right. exists t, u, x, y. split; [left; reflexivity|]. split; [left; reflexivity|]. auto.
Qed.

(** The first id of a block being an inner node of another one. *)
Lemma deeper_64 b1 b2 ids1 ids2 : Forall2 (fun t i => tx_GetHash t = Ok i) (b_vtx b1) ids1 -> Forall2 (fun t i => tx_GetHash t = Ok i) (b_vtx b2) ids2 ->
  deeper ids1 ids2 -> (exists x y, block_hashed b1 x /\ block_hashed b2 y /\ collide x y) \/
  exists t rest x, b_vtx b1 = t :: rest /\ tx_ser t = Ok x /\ List.length x = 64.
Proof.
  intros F1 F2 (k & x & rest & a0 & a' & -> & L & J & ->). inversion F1 as [|t ? vtx ? E1 F1' E0]; subst.
  unfold tx_GetHash in E1. destruct (tx_ser t) as [y|] eqn:Y; [|discriminate]. cbn [bind] in E1. assert (Hy : Hash y = Hash x) by congruence.
  destruct (bytes_eq_dec y x) as [->|N].
  - right. exists t, vtx, x. split; [first [reflexivity|symmetry; assumption|assumption]|]. split; [exact Y|].
    assert (A : all32 (level k ids2)). { destruct k; [exact (ids_all32 _ _ F2)|]. rewrite level_S_out. apply up_all32. }
    destruct (joined_cons _ L) as (w0 & w1 & wl & r & Ew & Jw). rewrite Ew in A. inversion A as [|? ? A0 A1]; subst. inversion A1 as [|? ? A2 _]; subst.
    assert (x = w0 ++ w1) by congruence. subst x. rewrite app_length. lia.
  - left. exists y, x. split; [right; left; exists t; split; [rewrite <- E0; left; reflexivity|exact Y]|]. split.
    + right; right. exists ids2. split; [exact F2|]. exists k. split; [exact L|]. rewrite J. left; reflexivity.
    + split; assumption.
Qed.

Lemma block_hash_binds l1 l2 b1 b2 p1 p2 n1 n2 h :
  CheckBlock l1 b1 p1 true n1 = Ok tt -> CheckBlock l2 b2 p2 true n2 = Ok tt ->
  block_GetHash b1 = Ok h -> block_GetHash b2 = Ok h ->
  b1 = b2 \/ any_clash b1 b2 \/
  exists b t rest x, (b = b1 \/ b = b2) /\ b_vtx b = t :: rest /\ tx_ser t = Ok x /\ List.length x = 64.
Proof.
  intros C1 C2 H1 H2. apply CheckBlock_iff in C1, C2. destruct C1 as [_ C1], C2 as [_ C2].
  pose proof (checked_wf _ _ _ C1) as W1. pose proof (checked_wf _ _ _ C2) as W2.
  unfold block_GetHash, header_GetHash, get_header in *.
  destruct (header_ser (b_header b1)) as [e1|] eqn:E1; [|discriminate]. destruct (header_ser (b_header b2)) as [e2|] eqn:E2; [|discriminate].
  cbn [bind] in *. destruct (bytes_eq_dec e1 e2) as [->|N].
  2: { right; left. exists e1, e2. split; [left; left; exact E1|]. split; [right; left; exact E2|]. split; [exact N|congruence]. }
  assert (EH : b_header b1 = b_header b2). { eapply codec_injective; [exact header_codec|apply W1|apply W2|exact E1|exact E2]. }
  destruct (cb_merkle _ _ _ C1 eq_refl) as (ids1 & F1 & R1). destruct (cb_merkle _ _ _ C2 eq_refl) as (ids2 & F2 & R2).
  rewrite EH in R1.
  assert (N1 : ids1 <> []). { destruct (cb_txs _ _ _ C1) as (t & r & Ev & _). rewrite Ev in F1. inversion F1; congruence. }
  assert (N2 : ids2 <> []). { destruct (cb_txs _ _ _ C2) as (t & r & Ev & _). rewrite Ev in F2. inversion F2; congruence. }
  assert (Same : ids1 = ids2 -> b1 = b2 \/ any_clash b1 b2).
  { intros <-. destruct (same_ids (b_vtx b1) (b_vtx b2) ids1) as [E|(t & u & x & y & I1 & I2 & X & Y & C)]; try assumption; [apply W1|apply W2| |].
    - left. destruct b1, b2; cbn in *; congruence.
    - right. exists x, y. split; [left; right; left; eauto|]. split; [right; right; left; eauto|exact C]. }
  assert (D1 := checked_ids _ _ _ _ C1 F1). assert (D2 := checked_ids _ _ _ _ C2 F2).
  destruct D1 as [D1|(x & y & X & Y & C)]; [|right; left; exists x, y; auto].
  destruct D2 as [D2|(x & y & X & Y & C)]; [|right; left; exists x, y; auto].
  destruct (root_binds (List.length ids1) ids1 ids2 (h_merkle (b_header b2)) (le_n _) (ids_all32 _ _ F1) (ids_all32 _ _ F2) N1 N2 R1 R2)
    as [(x & y & X & Y & C)|[R|[R|[D|D]]]].
  - right; left. exists x, y. split; [left; right; right; eauto|]. split; [right; right; right; eauto|exact C].
  - apply repeats_nodup in R; [|exact D2]. destruct (Same R); tauto.
  - apply repeats_nodup in R; [|exact D1]. destruct (Same (eq_sym R)); tauto.
  - destruct (deeper_64 _ _ _ _ F1 F2 D) as [(x & y & X & Y & C)|(t & r & x & Ev & X & L)].
    + right; left. exists x, y. auto.
    + right; right. exists b1, t, r, x. auto.
  - destruct (deeper_64 _ _ _ _ F2 F1 D) as [(x & y & X & Y & C)|(t & r & x & Ev & X & L)].
    + right; left. exists x, y. auto.
    + right; right. exists b2, t, r, x. auto.
Qed.

(** ** Merkle roots of arbitrary lists *)

Lemma build_root l front r : l <> [] -> build_merkle_tree l = front ++ [r] -> is_merkle_root l r.
Proof.
  intros N H. destruct (build_merkle_root l N) as (r' & f' & E & R). rewrite H in E. apply app_inj_tail in E. destruct E as [_ ->]. exact R.
Qed.

Lemma build_nil front r : build_merkle_tree [] <> front ++ [r].
Proof. cbn. destruct front; discriminate. Qed.

Lemma root_binds_len : forall n a b r, List.length a <= n -> List.length a = List.length b -> all32 a -> all32 b -> a <> [] ->
  is_merkle_root a r -> is_merkle_root b r -> clash a b \/ a = b.
Proof.
  induction n as [|n IH]; intros a b r L E Ha Hb Na Ra Rb; [destruct a; [congruence|cbn in L; lia]|].
  destruct (le_lt_dec (List.length a) 1) as [La|La].
  - destruct a as [|x [|]]; cbn [List.length] in La, E; [congruence| |lia]. destruct b as [|y [|]]; cbn [List.length] in E; try lia.
    apply root_single in Ra, Rb. right. congruence.
  - assert (Lb : 1 < List.length b) by lia.
    apply (root_up a r La) in Ra. apply (root_up b r Lb) in Rb.
    assert (Na' : up a <> []). { intros H. apply (f_equal (@List.length _)) in H. rewrite up_length in H. cbn [List.length] in H. lia. }
    destruct (IH (up a) (up b) r) as [C|R]; [rewrite up_length; lia|rewrite !up_length; congruence|apply up_all32|apply up_all32|assumption..| |].
    + left. apply clash_up, C.
    + destruct (repeats_down a b La Lb Ha Hb) as [C|[R'|R']].
      * exists []. rewrite app_nil_r. split; [congruence|left; reflexivity].
      * left; exact C.
      * right. apply repeats_length; assumption.
      * right. symmetry. apply repeats_length; [assumption|congruence].
Qed.

Lemma merkle_same_length l1 l2 f1 f2 r : all32 l1 -> all32 l2 -> List.length l1 = List.length l2 ->
  build_merkle_tree l1 = f1 ++ [r] -> build_merkle_tree l2 = f2 ++ [r] -> l1 = l2 \/ clash l1 l2.
Proof.
  intros A1 A2 L H1 H2. destruct (list_eq_dec bytes_eq_dec l1 []) as [->|N1]; [exfalso; eapply build_nil; eassumption|].
  assert (N2 : l2 <> []) by (intros ->; destruct l1; [congruence|discriminate]).
  apply build_root in H1, H2; try assumption.
  destruct (root_binds_len (List.length l1) l1 l2 r (le_n _) L A1 A2 N1 H1 H2); tauto.
Qed.

Lemma deeper_spec a b : deeper a b -> exists x, hd_error a = Some (Hash x) /\ merkle_hashed b x.
Proof.
  intros (k & x & rest & a0 & a' & -> & L & J & ->). exists x. split; [reflexivity|]. exists k. split; [exact L|]. rewrite J. left; reflexivity.
Qed.

Lemma merkle_distinct l1 l2 f1 f2 r : all32 l1 -> all32 l2 -> NoDup l1 -> NoDup l2 ->
  build_merkle_tree l1 = f1 ++ [r] -> build_merkle_tree l2 = f2 ++ [r] ->
  l1 = l2 \/ clash l1 l2 \/
  exists x, (hd_error l1 = Some (Hash x) /\ merkle_hashed l2 x) \/ (hd_error l2 = Some (Hash x) /\ merkle_hashed l1 x).
Proof.
  intros A1 A2 D1 D2 H1 H2. destruct (list_eq_dec bytes_eq_dec l1 []) as [->|N1]; [exfalso; eapply build_nil; eassumption|].
  destruct (list_eq_dec bytes_eq_dec l2 []) as [->|N2]; [exfalso; eapply build_nil; eassumption|].
  apply build_root in H1, H2; try assumption.
  destruct (root_binds (List.length l1) l1 l2 r (le_n _) A1 A2 N1 N2 H1 H2) as [C|[R|[R|[D|D]]]].
  - tauto.
  - left. apply repeats_nodup; assumption.
  - left. symmetry. apply repeats_nodup; assumption.
  - apply deeper_spec in D. destruct D as (x & D). right; right. exists x. tauto.
  - apply deeper_spec in D. destruct D as (x & D). right; right. exists x. tauto.
Qed.

(** CVE-2012-2459: repeating the last of three ids changes nothing above. *)
Lemma merkle_hashed_dup a b c x : merkle_hashed [a; b; c; c] x <-> merkle_hashed [a; b; c] x.
Proof.
  split; intros ([|k] & L & I).
  - exists 0. split; [cbn; lia|exact I].
  - exists (S k). split; assumption.
  - exists 0. split; [cbn; lia|exact I].
  - exists (S k). split; assumption.
Qed.

Lemma merkle_hashed_three a b c x : merkle_hashed [a; b; c] x ->
  x = a ++ b \/ x = c ++ c \/ x = Hash (a ++ b) ++ Hash (c ++ c).
Proof.
  intros ([|[|k]] & L & I).
  - cbn in I. intuition congruence.
  - cbn [level joined map] in I. destruct I as [I|[]]. right; right. symmetry. exact I.
  - exfalso. clear I. cbn [level joined map] in L. revert L. generalize (Hash (Hash (a ++ b) ++ Hash (c ++ c))) as y.
    induction k as [|k IH]; intros y L; [cbn in L; lia|]. cbn [level joined map] in L. apply (IH _ L).
Qed.

Lemma merkle_dup_root a b c : exists f1 f2 r, build_merkle_tree [a; b; c] = f1 ++ [r] /\ build_merkle_tree [a; b; c; c] = f2 ++ [r].
Proof.
  exists [a; b; c; Hash (a ++ b); Hash (c ++ c)], [a; b; c; c; Hash (a ++ b); Hash (c ++ c)], (Hash (Hash (a ++ b) ++ Hash (c ++ c))).
  split; reflexivity.
Qed.

(** ** Accurate counting *)

Definition small_op (op : N) : bool := ((0x51 <=? op) && (op <=? 0x60))%N.
Definition multi_op (op : N) : bool := ((op =? 0xae) || (op =? 0xaf))%N.

Definition item_shape (x : N * option bytes * nat) : Prop :=
  match snd (fst x) with Some _ => (fst (fst x) <= 0x4e)%N | None => (0x4e < fst (fst x))%N end.

Lemma raw_loop_shape : forall fuel i s, Forall item_shape (fst (raw_iter_loop fuel i s)).
Proof.
  induction fuel as [|fuel IH]; intros i s; [constructor|]. destruct s as [|b s1]; [constructor|]. rewrite raw_loop_S.
  destruct (0x4e <? bN b)%N eqn:E.
  - cbn [fst]. constructor; [unfold item_shape; cbn; lia|apply IH].
  - destruct (push_size (bN b) s1) as [[[l h] s2]|e]; [|constructor].
    destruct (blen s2 <? l)%N; [constructor|]. cbn [fst]. constructor; [unfold item_shape; cbn; lia|apply IH].
Qed.

Lemma cook_small x : item_shape x -> small_op (fst (fst x)) = true -> exists n, cook x = CInt n.
Proof.
  destruct x as [[op [d|]] i]; unfold item_shape, small_op; cbn [fst snd cook]; intros H S; [lia|].
  unfold is_small_int. rewrite S. cbn [orb]. unfold decode_op_n. destruct (op =? 0)%N eqn:E; [lia|]. rewrite S. eauto.
Qed.

Lemma cook_other x : item_shape x -> small_op (fst (fst x)) = false -> (exists d, cook x = CData d /\ multi_op (fst (fst x)) = false /\ sigop_weight (fst (fst x)) = 0%N) \/ cook x = COp (fst (fst x)).
Proof.
  destruct x as [[op [d|]] i]; unfold item_shape, small_op; cbn [fst snd cook]; intros H S.
  - left. exists d. split; [reflexivity|]. unfold multi_op, sigop_weight.
    destruct ((op =? 172) || (op =? 173))%N eqn:E1; [lia|]. destruct ((op =? 174) || (op =? 175))%N eqn:E2; [lia|]. split; reflexivity.
  - right. unfold is_small_int. rewrite S. cbn [orb]. destruct (op =? 0)%N eqn:E; [lia|]. reflexivity.
Qed.

Lemma numbered_cons x y l : numbered_multisig (x :: y :: l) <->
  ((exists n op, x = CInt n /\ y = COp op /\ multi_op op = true) \/ numbered_multisig (y :: l)).
Proof.
  unfold numbered_multisig, multi_op. split.
  - intros ([|z l1] & l2 & n & op & E & H); cbn [app] in E.
    + left. exists n, op. repeat split; try congruence. lia.
    + right. exists l1, l2, n, op. split; [congruence|exact H].
  - intros [(n & op & -> & -> & H)|(l1 & l2 & n & op & E & H)].
    + exists [], l, n, op. split; [reflexivity|lia].
    + exists (x :: l1), l2, n, op. split; [cbn [app]; congruence|exact H].
Qed.

Lemma numbered_one x : ~ numbered_multisig [x].
Proof. intros ([|? [|? l1]] & l2 & n & op & E & _); discriminate. Qed.

Lemma accurate_step n last prev x l : item_shape x -> (small_op last = true <-> exists z, prev = CInt z) ->
  (exists z, prev = CInt z) /\ multi_op (fst (fst x)) = true /\ cook x = COp (fst (fst x)) /\ sigop_loop true n last (x :: l) = Err AttributeError \/
  (~ exists z op, prev = CInt z /\ cook x = COp op /\ multi_op op = true) /\
  sigop_loop true n last (x :: l) = sigop_loop true (n + accurate_from prev [cook x]) (fst (fst x)) l.
Proof.
  intros Sx R. destruct (small_op (fst (fst x))) eqn:So.
  - right. destruct (cook_small x Sx So) as [z Ez]. rewrite Ez. split; [intros (? & ? & _ & ? & _); discriminate|].
    destruct x as [[op d] i]. cbn [fst snd sigop_loop] in *. unfold small_op in So.
    destruct ((op =? 172) || (op =? 173))%N eqn:E1; [lia|]. destruct ((op =? 174) || (op =? 175))%N eqn:E2; [lia|]. cbn [bind].
    f_equal. cbn [accurate_from item_weight]. lia.
  - destruct (cook_other x Sx So) as [(d & Ed & M & W)|Eo].
    + right. rewrite Ed. split; [intros (? & ? & _ & ? & _); discriminate|].
      destruct x as [[op d'] i]. cbn [fst snd sigop_loop] in *. unfold multi_op in M. rewrite M. unfold sigop_weight in W. rewrite M in W.
      destruct ((op =? 172) || (op =? 173))%N eqn:E1; [discriminate|]. cbn [bind]. f_equal. cbn [accurate_from item_weight]. lia.
    + destruct x as [[op d'] i]. cbn [fst snd sigop_loop] in *. rewrite Eo. fold (multi_op op). fold (small_op last).
      destruct (small_op last) eqn:Sl; [destruct (multi_op op) eqn:M|].
      * left. split; [apply R; reflexivity|]. split; [reflexivity|]. split; [reflexivity|].
        unfold multi_op in M. destruct ((op =? 172) || (op =? 173))%N eqn:E1; [lia|]. reflexivity.
      * right. split; [intros (? & op' & _ & E & M'); congruence|]. destruct (proj1 R eq_refl) as [z ->].
        cbn [accurate_from]. fold (multi_op op). rewrite M. unfold sigop_weight. fold (multi_op op). rewrite M.
        destruct ((op =? 172) || (op =? 173))%N; cbn [bind]; f_equal; lia.
      * right. assert (NP : ~ exists z, prev = CInt z) by (intros H; apply R in H; congruence).
        split; [intros (z & op' & E & _); apply NP; eauto|].
        assert (A : accurate_from prev [COp op] = sigop_weight op).
        { cbn [accurate_from]. destruct prev as [|z|]; [cbn [item_weight]; lia|exfalso; apply NP; eauto|cbn [item_weight]; lia]. }
        rewrite A. unfold sigop_weight. fold (multi_op op). rewrite andb_false_r.
        destruct ((op =? 172) || (op =? 173))%N; [|destruct (multi_op op)]; cbn [bind]; f_equal; lia.
Qed.

Lemma accurate_app prev x l : (accurate_from prev (x :: l) = accurate_from prev [x] + accurate_from x l)%N.
Proof. cbn [accurate_from]. lia. Qed.

Lemma cook_rel x : item_shape x -> (small_op (fst (fst x)) = true <-> exists z, cook x = CInt z).
Proof.
  intros Sx. split; [apply cook_small, Sx|]. intros [z E]. destruct (small_op (fst (fst x))) eqn:So; [reflexivity|].
  destruct (cook_other x Sx So) as [(d & Ed & _)|Eo]; congruence.
Qed.

Lemma accurate_loop : forall l n last prev, Forall item_shape l -> (small_op last = true <-> exists z, prev = CInt z) ->
  (numbered_multisig (prev :: map cook l) /\ sigop_loop true n last l = Err AttributeError) \/
  (~ numbered_multisig (prev :: map cook l) /\ sigop_loop true n last l = Ok (n + accurate_from prev (map cook l))%N).
Proof.
  induction l as [|x l IH]; intros n last prev F R.
  - right. split; [apply numbered_one|]. cbn [map accurate_from sigop_loop]. f_equal. lia.
  - inversion F as [|? ? Fx Fl]; subst. cbn [map]. rewrite numbered_cons.
    destruct (accurate_step n last prev x l Fx R) as [((z & Hz) & M & C & E)|(NN & E)]; rewrite E.
    + left. split; [left; exists z, (fst (fst x)); auto|reflexivity].
    + destruct (IH (n + accurate_from prev [cook x])%N (fst (fst x)) (cook x) Fl (cook_rel x Fx)) as [(N & E')|(N & E')].
      * left. split; [right; exact N|exact E'].
      * right. split; [intros [H|H]; tauto|]. rewrite E', (accurate_app prev (cook x) (map cook l)). f_equal. lia.
Qed.

Lemma accurate_count s items : script_iter s = (items, None) ->
  (numbered_multisig items -> GetSigOpCount true s = Err AttributeError) /\
  (~ numbered_multisig items -> GetSigOpCount true s = Ok (accurate_sigops items)).
Proof.
  unfold script_iter, GetSigOpCount. pose proof (raw_loop_shape (S (List.length s)) 0 s) as F. fold (raw_iter s) in F.
  destruct (raw_iter s) as [l e]. cbn [fst] in F. intros H. assert (map cook l = items /\ e = None) as [<- ->] by (split; congruence).
  assert (NC : numbered_multisig (COp 255 :: map cook l) <-> numbered_multisig (map cook l)).
  { destruct (map cook l) as [|y r].
    - split; intros N; exfalso; [exact (numbered_one _ N)|]. destruct N as ([|? ?] & ? & ? & ? & E & _); discriminate.
    - rewrite numbered_cons. split; [intros [(? & ? & E & _)|N]; [discriminate|exact N]|tauto]. }
  assert (R0 : small_op 255 = true <-> exists z, COp 255 = CInt z) by (split; [discriminate|intros [? ?]; discriminate]).
  destruct (accurate_loop l 0 255 (COp 255) F R0) as [(N & E)|(N & E)]; rewrite E; cbn [bind].
  - split; [reflexivity|]. intros N'. apply NC in N. contradiction.
  - split; [intros N'; apply NC in N'; contradiction|]. intros _. unfold accurate_sigops. f_equal.
Qed.
