(** Proofs about methods on pruned copies of MMRs. *)
From Verif Require Import Base PySlice Sha256 Serialize_Model Serialize_Proofs Proof_Model Proof_Spec Proof_Proofs Mmr_Model Mmr_Spec Mmr_Proofs MmrView_Model.
From Coq Require Import ZifyBool ZifyNat ZifyN.
Local Open Scope Z_scope.

Lemma varuint_short k : forall v, 0 <= v < 2 ^ (7 * Z.of_nat (S k)) -> (List.length (write_varuint v) <= S k)%nat.
Proof.
  induction k as [|k IH]; intros v H; rewrite write_varuint_unfold by lia.
  - destruct (Z.ltb_spec v 128); [cbn; lia|]. change (2 ^ (7 * Z.of_nat 1)) with 128 in H. lia.
  - destruct (Z.ltb_spec v 128); [cbn; lia|]. cbn [List.length]. apply le_n_S, IH. split; [apply Z.div_pos; lia|]. apply Z.div_lt_upper_bound; [lia|].
    replace (128 * 2 ^ (7 * Z.of_nat (S k))) with (2 ^ (7 * Z.of_nat (S (S k)))); [lia|]. change 128 with (2 ^ 7). rewrite <- Z.pow_add_r by lia. f_equal. lia.
Qed.
Lemma length_short n : 0 <= n < 2 ^ 63 -> (List.length (write_varuint n) <= 9)%nat.
Proof. apply (varuint_short 8). Qed.

Section V.
Context (ct : ctable) (M : mmr_classes) (sr : ser) (W : wf_table ct) (I : is_mmr ct M sr).
Notation attrs := [("left"%string, SerProof (m_base M)); ("right"%string, SerProof (m_base M)); ("length"%string, SerPrim UInt64)].

Lemma vbind_ok {A B} (m : vmeth A) (f : A -> vmeth B) s a s' : m s = (Ok a, s') -> vbind m f s = f a s'.
Proof. intros E. unfold vbind. rewrite E. reflexivity. Qed.

(** ** Hashes of nodes *)
Lemma mmr_tagged c : In c [m_base M; m_empty M; m_leaf M; m_inner M] -> exists tg, c_hash (ct c) = HTag tg.
Proof.
  intros H. destruct (c_hash (ct c)) as [tg|] eqn:E; [eauto|]. destruct (wf_tx_class ct W c E) as (K & _). rewrite (mm_kinds _ _ _ I c H) in K. discriminate.
Qed.
Lemma node_dhash vs t h : documented vs t -> phash ct (node M t) = Ok h -> exists d, data_hash ct (node M t) = Ok d /\ List.length d = 32%nat.
Proof.
  intros D H. unfold phash, data_hash in *.
  assert (G : forall c fs, In c [m_base M; m_empty M; m_leaf M; m_inner M] -> snd (hashes ct (PFull c fs)) = Ok h -> exists d, fst (hashes ct (PFull c fs)) = Ok d /\ List.length d = 32%nat).
  { intros c fs Hc E. destruct (mmr_tagged c Hc) as (tg & Et). cbn [hashes fst snd] in *. rewrite Et in E. unfold tagged in E.
    match goal with |- exists d, bind ?x _ = Ok d /\ _ => destruct x as [m|]; [|discriminate] end. cbn [bind] in *. eexists. split; [reflexivity|apply sha256_length]. }
  inversion D; subst; cbn [node] in *; apply G; cbn; auto.
Qed.
Lemma node_children l r n h : phash ct (node M (Inner l r n)) = Ok h -> (exists hl, phash ct (node M l) = Ok hl) /\ exists hr, phash ct (node M r) = Ok hr.
Proof.
  unfold phash. cbn [node hashes snd]. destruct (mmr_tagged (m_inner M)) as (tg & Et); [cbn; auto|]. rewrite Et. unfold tagged. rewrite (mm_inner _ _ _ I).
  destruct (snd (hashes ct (node M l))) as [hl|]; [|discriminate]. cbn [bind]. destruct (snd (hashes ct (node M r))) as [hr|]; [|discriminate]. eauto.
Qed.

(** ** Views of nodes *)
Definition view (l r : mmr) (n : Z) (a b c : option val) : val := PView (m_inner M) (node M (Inner l r n)) [a; b; c].
Definition fresh (t : mmr) : val := prune ct (node M t).
Definition touched (t : mmr) : val := match t with Inner l r n => view l r n None None (Some (VPrim (PyInt n))) | _ => fresh t end.
Lemma fresh_inner l r n : fresh (Inner l r n) = view l r n None None None.
Proof. unfold fresh, prune. cbn [node class_of]. rewrite (mm_inner _ _ _ I). reflexivity. Qed.
Notation full n := (Some (VPrim (PyInt n))).
Lemma read_length l r n a b c : c = None \/ c = full n -> vattr ct "length" (view l r n a b c) = (Ok (VPrim (PyInt n)), view l r n a b (full n)).
Proof. intros [-> | ->]; unfold vattr, view; cbn [get node]; rewrite (mm_inner _ _ _ I); cbn; rewrite ?(mm_inner _ _ _ I); reflexivity. Qed.
Definition child (t : mmr) (a : option val) : val := match a with Some x => x | None => fresh t end.
Lemma in_left {A} (m : vmeth A) l r n a b c res x : m (child l a) = (res, x) -> vin ct "left" m (view l r n a b c) = (res, view l r n (Some x) b c).
Proof.
  intros E. unfold vin, view. cbn [get node]. rewrite (mm_inner _ _ _ I). cbn [attr_index]. change (String.eqb "left" "left") with true. cbn [nth_error].
  destruct a as [y|]; cbn [child] in E.
  - rewrite E. cbn [put_back]. rewrite (mm_inner _ _ _ I). reflexivity.
  - unfold bind. cbn iota beta. unfold fresh in E. rewrite E. cbn [put_back]. rewrite (mm_inner _ _ _ I). reflexivity.
Qed.
Lemma in_right {A} (m : vmeth A) l r n a b c res x : m (child r b) = (res, x) -> vin ct "right" m (view l r n a b c) = (res, view l r n a (Some x) c).
Proof.
  intros E. unfold vin, view. cbn [get node]. rewrite (mm_inner _ _ _ I). cbn [attr_index]. change (String.eqb "left" "right") with false. change (String.eqb "right" "right") with true. cbn [option_map nth_error].
  destruct b as [y|]; cbn [child] in E.
  - rewrite E. cbn [put_back]. rewrite (mm_inner _ _ _ I). reflexivity.
  - unfold bind. cbn iota beta. unfold fresh in E. rewrite E. cbn [put_back]. rewrite (mm_inner _ _ _ I). reflexivity.
Qed.
Lemma view_len vs t self : documented vs t -> fine (List.length vs) -> self = fresh t \/ self = touched t -> vlen ct t self = (Ok (Z.of_nat (List.length vs)), touched t).
Proof.
  intros D F H. destruct t as [|v|l r n|k dh]; inversion D; subst.
  - destruct H as [-> | ->]; reflexivity.
  - destruct H as [-> | ->]; reflexivity.
  - rewrite fresh_inner in H. cbn [touched] in H. cbn [vlen]. unfold vbind. destruct H as [-> | ->]; rewrite read_length by auto; unfold fine in F; rewrite py_len_ok by lia; reflexivity.
Qed.

(** ** Serialized views *)
Lemma variant_byte v c : class_of v = Some c -> In c [m_empty M; m_leaf M; m_inner M] -> exists x, ser_variant ct v = Ok [x].
Proof.
  intros E H. unfold ser_variant. rewrite E, (mm_kinds _ _ _ I c) by (cbn in *; tauto).
  assert (X : exists i, union_index ct [m_empty M; m_leaf M; m_inner M] v = Some i /\ (i < 3)%nat).
  { assert (S : isinst ct v c = true). { unfold isinst. rewrite E. apply existsb_exists. exists c. split; [apply (wf_self ct W c)|apply Nat.eqb_refl]. }
    cbn [union_index]. destruct (isinst ct v (m_empty M)) eqn:E1; [exists 0%nat; auto with arith|]. destruct (isinst ct v (m_leaf M)) eqn:E2; [exists 1%nat; auto with arith|].
    destruct (isinst ct v (m_inner M)) eqn:E3; [exists 2%nat; auto with arith|]. exfalso. destruct H as [H|[H|[H|[]]]]; rewrite <- H in S; congruence. }
  destruct X as (i & -> & Li). destruct i as [|[|[|i]]]; [eexists; reflexivity..|lia].
Qed.
Definition hidden (t : mmr) (a : option val) : result bytes := match a with Some x => ser_proof ct x | None => do d <- data_hash ct (node M t); Ok (xff :: d) end.
Lemma class_is_proof t c : class_of (node M t) = Some c -> is_proof (node M t) = true.
Proof. intros E. unfold is_proof. rewrite E. reflexivity. Qed.
Lemma class_node t : exists c, class_of (node M t) = Some c.
Proof. destruct t; cbn; eauto. Qed.
Lemma prune_node t : is_proof (prune ct (node M t)) = true /\ data_hash ct (prune ct (node M t)) = data_hash ct (node M t).
Proof. destruct (class_node t) as (c & E). unfold prune. rewrite E. split; reflexivity. Qed.
Lemma ser_view l r n a b x y : hidden l a = Ok x -> hidden r b = Ok y -> 0 <= n < 2 ^ 63 ->
  exists e, ser_proof ct (view l r n a b (full n)) = Ok e /\ (List.length e <= 11 + List.length x + List.length y)%nat.
Proof.
  intros X Y B. destruct (variant_byte (view l r n a b (full n)) (m_inner M) eq_refl ltac:(cbn; auto)) as (v & Ev).
  assert (E : ser_proof ct (view l r n a b (full n)) = Ok (x00 :: [v] ++ x ++ y ++ write_varuint n ++ [])).
  { unfold view in *. cbn [ser_proof]. assert (forallb is_none [a; b; full n] = false) as -> by (cbn [forallb is_none]; rewrite ?andb_false_r; reflexivity).
    rewrite Ev, (mm_inner _ _ _ I). cbn [bind].
    assert (L : match a with Some f => ser_proof ct f | None => do f <- peek ct (node M (Inner l r n)) "left"; (if is_proof f then do dh <- data_hash ct f; Ok (xff :: dh) else Err AttributeError) end = Ok x).
    { destruct a; [exact X|]. unfold peek. cbn [get node]. rewrite (mm_inner _ _ _ I). cbn. destruct (class_node l) as (cl & El). rewrite (class_is_proof l cl El). exact X. }
    assert (R : match b with Some f => ser_proof ct f | None => do f <- peek ct (node M (Inner l r n)) "right"; (if is_proof f then do dh <- data_hash ct f; Ok (xff :: dh) else Err AttributeError) end = Ok y).
    { destruct b; [exact Y|]. unfold peek. cbn [get node]. rewrite (mm_inner _ _ _ I). cbn. destruct (class_node r) as (cr & Er). rewrite (class_is_proof r cr Er). exact Y. }
    pose (K := fun z1 z2 : result bytes => do body <- (do x0 <- z1; do r0 <- (do x1 <- z2; do r0 <- (do x2 <- ser_leaf (SerPrim UInt64) (VPrim (PyInt n)); Ok (x2 ++ [])); Ok (x1 ++ r0)); Ok (x0 ++ r0)); Ok (x00 :: [v] ++ body)).
    refine (eq_trans (f_equal2 K L R) _). reflexivity. }
  eexists. split; [exact E|]. pose proof (length_short n B). cbn [List.length app]. rewrite !app_length. cbn [List.length]. lia.
Qed.
Lemma hidden_none vs t h : documented vs t -> phash ct (node M t) = Ok h -> exists x, hidden t None = Ok x /\ List.length x = 33%nat.
Proof. intros D H. destruct (node_dhash vs t h D H) as (d & E & L). unfold hidden. rewrite E. eexists. split; [reflexivity|]. cbn [List.length]. lia. Qed.
Lemma ser_fresh t : ser_proof ct (fresh t) = hidden t None.
Proof.
  destruct (class_node t) as (c & E). unfold fresh, prune. rewrite E. cbn [ser_proof hidden]. assert (forallb is_none (repeat (@None val) (List.length (c_attrs (ct c)))) = true) as ->; [|reflexivity].
  induction (List.length (c_attrs (ct c))); [reflexivity|assumption].
Qed.
Lemma ser_touched vs t h : documented vs t -> fine (List.length vs) -> phash ct (node M t) = Ok h -> exists x, ser_proof ct (touched t) = Ok x /\ (List.length x <= 77)%nat.
Proof.
  intros D F H. destruct (hidden_none vs t h D H) as (x & E & L). destruct t as [|v|l r n|k dh]; cbn [touched].
  - exists x. rewrite ser_fresh. split; [exact E|lia].
  - exists x. rewrite ser_fresh. split; [exact E|lia].
  - destruct (doc_inv _ _ _ _ D) as (a & b & -> & En & Hn & _ & Da & Db). destruct (node_children l r n h H) as ((hl & Hl) & hr & Hr).
    destruct (hidden_none a l hl Da Hl) as (xl & Exl & Ll). destruct (hidden_none b r hr Db Hr) as (xr & Exr & Lr). unfold fine in F.
    destruct (ser_view l r n None None xl xr Exl Exr ltac:(lia)) as (e & Ee & Le). exists e. split; [exact Ee|lia].
  - inversion D.
Qed.

(** ** Depth *)
Lemma odd_part n : 0 < n -> exists q j, 0 <= j /\ Z.odd q = true /\ 0 < q /\ n = q * 2 ^ j.
Proof.
  intros H. destruct n as [|p|p]; try lia. clear H. induction p as [p IH|p IH|].
  - exists (Z.pos p~1), 0. rewrite Z.pow_0_r. split; [lia|]. split; [reflexivity|]. lia.
  - destruct IH as (q & j & J & O & Q & E). exists q, (Z.succ j). split; [lia|]. split; [exact O|]. split; [exact Q|]. rewrite Z.pow_succ_r by exact J. change (Z.pos p~0) with (2 * Z.pos p). rewrite E. ring.
  - exists 1, 0. rewrite Z.pow_0_r. split; [lia|]. split; [reflexivity|]. lia.
Qed.
(** How a MMR splits: the right side is perfect. *)
Lemma split_shape n k : 1 < n -> split_at n k -> exists e, 0 <= e /\ k = 2 ^ e /\ (exists p, 0 < p /\ n - k = p * 2 ^ e /\ (n - k = 2 ^ e \/ exists p', 0 < p' /\ n - k = p' * 2 ^ (e + 1))) /\ e < Z.log2 n /\
  (forall q j, 0 <= j -> n = q * 2 ^ j -> j <= e \/ (n - k = k /\ j <= e + 1)).
Proof.
  intros Hn Hs. destruct (odd_part n ltac:(lia)) as (q & j & J & O & Q & E).
  assert (Dv : forall q' j', 0 <= j' -> n = q' * 2 ^ j' -> j' <= j).
  { intros q' j' J' E'. destruct (Z.le_gt_cases j' j) as [|G]; [assumption|exfalso].
    assert (Z.testbit n j = true) by (rewrite E; rewrite odd_multiple_bit by exact J; exact O). rewrite E', multiple_bit in H by lia. discriminate. }
  pose proof (pow2_pos j J) as Pj. destruct (Z.eq_dec q 1) as [->|Nq].
  - (* a power of two *)
    assert (1 <= j). { destruct (Z.eq_dec j 0) as [->|]; [rewrite Z.pow_0_r in E; lia|lia]. }
    assert (E2 : n = 2 * 2 ^ (j - 1)). { rewrite <- Z.pow_succ_r by lia. replace (Z.succ (j - 1)) with j by lia. lia. }
    assert (k = 2 ^ (j - 1)) as ->. { rewrite E2 in Hs. eapply split_unique; [exact Hs|apply split_two; lia]. }
    exists (j - 1). split; [lia|]. split; [reflexivity|]. split; [exists 1; split; [lia|]; split; [lia|left; lia]|]. split.
    + replace n with (2 ^ j) by lia. rewrite Z.log2_pow2 by lia. lia.
    + intros q' j' J' E'. right. split; [lia|]. specialize (Dv q' j' J' E'). lia.
  - assert (k = 2 ^ j) as ->. { rewrite E in Hs. eapply split_unique; [exact Hs|apply split_odd; [exact J|lia|exact O]]. }
    exists j. split; [exact J|]. split; [reflexivity|]. split; [|split].
    + exists (q - 1). split; [lia|]. split; [rewrite E; ring|]. right. exists (q / 2). rewrite Zodd_bool_iff, Zodd_ex_iff in O. destruct O as (m & ->).
      replace ((2 * m + 1) / 2) with m by (rewrite Z.add_comm, Z.mul_comm, Z.div_add by lia; reflexivity). split; [lia|]. rewrite E, Z.pow_add_r by lia. ring.
    + assert (2 ^ (j + 1) <= n). { rewrite E, Z.pow_add_r by lia. change (2 ^ 1) with 2. rewrite Zodd_bool_iff, Zodd_ex_iff in O. destruct O as (m & ->). nia. }
      pose proof (Z.log2_le_mono _ _ H). rewrite Z.log2_pow2 in H0 by lia. lia.
    + intros q' j' J' E'. left. exact (Dv q' j' J' E').
Qed.
Lemma depth_left n k e p' : 1 < n -> k = 2 ^ e -> 0 <= e -> 0 < p' -> n - k = p' * 2 ^ (e + 1) -> Z.log2 (n - k) = Z.log2 n.
Proof.
  intros Hn -> He Hp E. pose proof (pow2_pos e He). set (g := Z.log2 (n - 2 ^ e)).
  assert (G : 2 ^ g <= n - 2 ^ e < 2 ^ (Z.succ g)) by (apply Z.log2_spec; rewrite E, Z.pow_add_r by lia; nia).
  assert (e + 1 <= g). { apply Z.log2_le_pow2; [rewrite E, Z.pow_add_r by lia; nia|]. rewrite E. pose proof (pow2_pos (e + 1) ltac:(lia)). nia. }
  symmetry. apply Z.log2_unique; [lia|]. split; [lia|].
  assert (X : exists s, 2 ^ Z.succ g = s * 2 ^ (e + 1)). { exists (2 ^ (g - e)). rewrite <- Z.pow_add_r by lia. f_equal. lia. }
  destruct X as (s & X). rewrite Z.pow_add_r in * by lia. change (2 ^ 1) with 2 in *. rewrite E, X in G. set (E2 := 2 ^ e) in *. clearbody E2. assert (p' < s) by nia. rewrite X. assert (n = p' * (E2 * 2) + E2) as -> by lia. assert ((p' + 1) * (E2 * 2) <= s * (E2 * 2)) by nia. lia.
Qed.

(** ** One item *)
Lemma item_view : forall t vs h, documented vs t -> fine (List.length vs) -> phash ct (node M t) = Ok h ->
  forall self, self = fresh t \/ self = touched t -> forall i v vb, 0 <= i -> znth vs i = Some v -> ser_val ct sr (prune ct v) = Ok vb ->
  exists w b, vgetitem ct t i self = (Ok (prune ct v), w) /\ ser_proof ct w = Ok b /\
    forall q j, 0 <= j -> Z.of_nat (List.length vs) = q * 2 ^ j -> Z.of_nat (List.length b) <= 2 + Z.of_nat (List.length vb) + 88 * (2 * Z.log2 (Z.of_nat (List.length vs)) - j).
Proof.
  induction t as [|v0|l IHl r IHr n|k dh]; intros vs h D F H self Hs i v vb Hi Ev Es.
  - inversion D; subst. rewrite znth_out in Ev by (cbn; lia). discriminate.
  - inversion D; subst. assert (i = 0) as ->. { destruct (Z.eq_dec i 0); [assumption|]. rewrite znth_out in Ev by (cbn; lia). discriminate. } cbn in Ev. injection Ev as ->.
    assert (self = PView (m_leaf M) (PFull (m_leaf M) [v]) [None]) as ->. { cbn [touched] in Hs. unfold fresh, prune in Hs. cbn [node class_of] in Hs. rewrite (mm_leaf _ _ _ I) in Hs. destruct Hs; assumption. }
    cbn [vgetitem orb Z.eqb]. unfold vattr. cbn [get]. rewrite (mm_leaf _ _ _ I). cbn [attr_index]. change (String.eqb "value" "value") with true. cbn [nth_error]. unfold bind. cbn iota beta. cbn [set_nth].
    destruct (variant_byte (PView (m_leaf M) (PFull (m_leaf M) [v]) [Some (prune ct v)]) (m_leaf M) eq_refl ltac:(cbn; auto)) as (x & Ex).
    eexists _, (x00 :: [x] ++ vb ++ []). split; [reflexivity|]. split.
    + cbn [ser_proof forallb is_none andb]. rewrite Ex, (mm_leaf _ _ _ I). cbn [bind]. unfold ser_val in Es. rewrite Es. reflexivity.
    + intros q j J E. cbn [List.length] in E. pose proof (pow2_pos j J). assert (j = 0) as ->. { destruct (Z.eq_dec j 0); [assumption|]. replace j with (Z.succ (j - 1)) in E by lia. rewrite Z.pow_succ_r in E by lia. lia. }
      cbn [List.length app]. rewrite app_nil_r. change (Z.log2 (Z.of_nat 1)) with 0. lia.
  - destruct (doc_inv _ _ _ _ D) as (a & b & -> & En & Hn & Hsp & Da & Db). destruct (node_children l r n h H) as ((hl & Hl) & hr & Hr).
    assert (Fa : fine (List.length a)) by (unfold fine in *; rewrite app_length in F; lia). assert (Fb : fine (List.length b)) by (unfold fine in *; rewrite app_length in F; lia).
    assert (Bn : 0 <= n < 2 ^ 63) by (unfold fine in F; lia).
    assert (Lt : i < Z.of_nat (List.length (a ++ b))). { destruct (Z.lt_ge_cases i (Z.of_nat (List.length (a ++ b)))); [assumption|]. rewrite znth_out in Ev by lia. discriminate. }
    rewrite <- En. pose proof Lt as Lt0. rewrite <- En in Lt0.
    destruct (split_shape n _ Hn Hsp) as (e & He & Ek & (p & Hp & Ep & Epp) & Hl2 & Hdiv).
    assert (Ela : n - Z.of_nat (List.length b) = Z.of_nat (List.length a)) by (rewrite En, app_length; lia). rewrite Ela in *.
    pose proof (view_len _ _ _ D F Hs) as Vn. rewrite <- En in Vn. cbn [touched] in Vn.
    pose proof (view_len a l (fresh l) Da Fa (or_introl eq_refl)) as Vl. pose proof (view_len a l (touched l) Da Fa (or_intror eq_refl)) as Vl'.
    pose proof (view_len b r (fresh r) Db Fb (or_introl eq_refl)) as Vr.
    cbn [vgetitem]. destruct (Z.ltb_spec i 0); [lia|]. rewrite (vbind_ok _ _ _ i self eq_refl), (vbind_ok _ _ _ _ _ Vn). destruct (Z.leb_spec 0 i); [|lia]. destruct (Z.ltb_spec i n); [|lia]. cbn [andb negb].
    rewrite (vbind_ok _ _ _ _ _ (in_left _ _ _ _ None _ _ _ _ Vl)). destruct (Z.ltb_spec i (Z.of_nat (List.length a))) as [Li|Li].
    + rewrite znth_app_l in Ev by exact Li. destruct (IHl a hl Da Fa Hl (touched l) (or_intror eq_refl) i v vb Hi Ev Es) as (w & eb & Ew & Eb & Bd).
      destruct (hidden_none b r hr Db Hr) as (y & Ey & Ly). destruct (ser_view l r n (Some w) None eb y Eb Ey Bn) as (enc & Ee & Le).
      eexists _, enc. split; [apply (in_left _ l r n (Some (touched l)) None _ _ _ Ew)|]. split; [exact Ee|]. intros q j J Eq.
      destruct Epp as [Ep1|(p' & Hp' & Ep')].
      * (* a power of two *) specialize (Bd 1 e He ltac:(lia)).
        assert (En2 : n = 2 ^ (e + 1)) by (rewrite Z.pow_add_r by lia; lia). rewrite Ep1, Z.log2_pow2 in Bd by lia. rewrite En2, Z.log2_pow2 by lia.
        destruct (Hdiv q j J Eq) as [|(_ & ?)]; lia.
      * specialize (Bd p' (e + 1) ltac:(lia) Ep'). rewrite <- Ela in Bd. rewrite (depth_left n _ e p' Hn Ek He Hp' ltac:(lia)) in Bd.
        destruct (Hdiv q j J Eq) as [|(Eh & ?)]; [lia|]. exfalso. assert (Ex : 2 ^ e = p' * 2 ^ (e + 1)) by lia. rewrite Z.pow_add_r in Ex by lia. change (2 ^ 1) with 2 in Ex. pose proof (pow2_pos e He). nia.
    + rewrite znth_app_r in Ev by exact Li.
      unfold vbind at 1. rewrite (in_left _ _ _ _ (Some (touched l)) _ _ _ _ Vl'). destruct (Z.leb_spec (Z.of_nat (List.length a)) i); [|lia]. cbn [negb].
      unfold vbind at 1. rewrite (in_left _ _ _ _ (Some (touched l)) _ _ _ _ Vl'). rewrite (vbind_ok _ _ _ _ _ (in_right _ _ _ _ _ None _ _ _ Vr)).
      destruct (Z.ltb_spec i (Z.of_nat (List.length a) + Z.of_nat (List.length b))); [|rewrite app_length in Lt; lia].
      unfold vbind at 1. rewrite (in_left _ _ _ _ (Some (touched l)) _ _ _ _ Vl').
      destruct (IHr b hr Db Fb Hr (touched r) (or_intror eq_refl) (i - Z.of_nat (List.length a)) v vb ltac:(lia) Ev Es) as (w & eb & Ew & Eb & Bd).
      destruct (ser_touched a l hl Da Fa Hl) as (x & Ex & Lx). destruct (ser_view l r n (Some (touched l)) (Some w) x eb Ex Eb Bn) as (enc & Ee & Le).
      eexists _, enc. split; [apply (in_right _ l r n _ (Some (touched r)) _ _ _ Ew)|]. split; [exact Ee|]. intros q j J Eq.
      specialize (Bd 1 e He ltac:(lia)). rewrite Ek, Z.log2_pow2 in Bd by lia. destruct (Hdiv q j J Eq) as [|(Eh & ?)]; [lia|].
      assert (En2 : n = 2 ^ (e + 1)) by (rewrite Z.pow_add_r by lia; lia). rewrite En2, Z.log2_pow2 by lia. lia.
  - inversion D.
Qed.

(** Negative indices. *)
Lemma item_any vs t h i v vb : documented vs t -> fine (List.length vs) -> phash ct (node M t) = Ok h -> py_index vs i = Ok v -> ser_val ct sr (prune ct v) = Ok vb ->
  exists w b, vgetitem ct t i (fresh t) = (Ok (prune ct v), w) /\ ser_proof ct w = Ok b /\
    Z.of_nat (List.length b) <= 2 + Z.of_nat (List.length vb) + 176 * Z.log2 (Z.of_nat (List.length vs)).
Proof.
  intros D F H Ei Es. unfold py_index in Ei. destruct (Z.ltb_spec i 0) as [Li|Li].
  - destruct (znth vs (i + Z.of_nat (List.length vs))) as [v'|] eqn:Ev; [|discriminate]. injection Ei as ->.
    assert (Hj : 0 <= i + Z.of_nat (List.length vs)). { destruct (Z.lt_ge_cases (i + Z.of_nat (List.length vs)) 0); [|lia]. rewrite znth_out in Ev by lia. discriminate. }
    destruct t as [|v0|l r n|k dh].
    + inversion D; subst. cbn in Hj. lia.
    + inversion D; subst. cbn [List.length] in *. assert (i = -1) as -> by lia.
      destruct (item_view _ _ h D F H _ (or_introl eq_refl) 0 v vb ltac:(lia) Ev Es) as (w & b & Ew & Eb & Bd). exists w, b. split; [exact Ew|]. split; [exact Eb|]. specialize (Bd 1 0 ltac:(lia) eq_refl). cbn [List.length] in *. lia.
    + assert (En : n = Z.of_nat (List.length vs)) by (inversion D; subst; reflexivity).
      destruct (item_view _ _ h D F H _ (or_intror eq_refl) _ v vb Hj Ev Es) as (w & b & Ew & Eb & Bd). exists w, b. split; [|split; [exact Eb|specialize (Bd (Z.of_nat (List.length vs)) 0 ltac:(lia) ltac:(rewrite Z.pow_0_r; lia)); lia]].
      pose proof (view_len _ _ _ D F (or_introl eq_refl)) as Vn. cbn [vgetitem] in *. destruct (Z.ltb_spec i 0); [|lia]. destruct (Z.ltb_spec (i + Z.of_nat (List.length vs)) 0); [lia|].
      assert (V2 : (let* n0 := vlen ct (Inner l r n) in vret (n0 + i)) (fresh (Inner l r n)) = (Ok (i + Z.of_nat (List.length vs)), touched (Inner l r n))).
      { rewrite (vbind_ok _ _ _ _ _ Vn). unfold vret. rewrite Z.add_comm. reflexivity. }
      rewrite (vbind_ok _ _ _ _ _ V2). rewrite (vbind_ok _ _ _ (i + Z.of_nat (List.length vs)) (touched (Inner l r n)) eq_refl) in Ew. exact Ew.
    + inversion D.
  - destruct (znth vs i) as [v'|] eqn:Ev; [|discriminate]. injection Ei as ->.
    destruct (item_view _ _ h D F H _ (or_introl eq_refl) i v vb Li Ev Es) as (w & b & Ew & Eb & Bd). exists w, b. split; [exact Ew|]. split; [exact Eb|]. specialize (Bd (Z.of_nat (List.length vs)) 0 ltac:(lia) ltac:(rewrite Z.pow_0_r; lia)). lia.
Qed.
Lemma item_none vs t h i : documented vs t -> fine (List.length vs) -> phash ct (node M t) = Ok h -> py_index vs i = Err IndexError ->
  exists w b, vgetitem ct t i (fresh t) = (Err IndexError, w) /\ ser_proof ct w = Ok b /\ (List.length b <= 77)%nat.
Proof.
  intros D F H Ei. destruct (ser_touched vs t h D F H) as (b & Eb & Lb). exists (touched t), b. split; [|auto]. apply index_bounds in Ei. destruct t as [|v0|l r n|k dh].
  - reflexivity.
  - inversion D; subst. cbn [List.length] in Ei. cbn [vgetitem]. destruct (Z.eqb_spec i 0); [lia|]. destruct (Z.eqb_spec i (-1)); [lia|]. reflexivity.
  - assert (En : n = Z.of_nat (List.length vs)) by (inversion D; subst; reflexivity).
    pose proof (view_len _ _ _ D F (or_introl eq_refl)) as Vn. pose proof (view_len _ _ _ D F (or_intror eq_refl)) as Vn'. cbn [vgetitem]. destruct (Z.ltb_spec i 0).
    + assert (V2 : (let* n0 := vlen ct (Inner l r n) in vret (n0 + i)) (fresh (Inner l r n)) = (Ok (Z.of_nat (List.length vs) + i), touched (Inner l r n))).
      { rewrite (vbind_ok _ _ _ _ _ Vn). reflexivity. }
      rewrite (vbind_ok _ _ _ _ _ V2), (vbind_ok _ _ _ _ _ Vn'). destruct (Z.leb_spec 0 (Z.of_nat (List.length vs) + i)); [lia|]. reflexivity.
    + rewrite (vbind_ok _ _ _ i (fresh (Inner l r n)) eq_refl), (vbind_ok _ _ _ _ _ Vn). destruct (Z.ltb_spec i (Z.of_nat (List.length vs))); [lia|]. rewrite andb_false_r. reflexivity.
  - inversion D.
Qed.
Lemma length_view vs t h : documented vs t -> fine (List.length vs) -> phash ct (node M t) = Ok h ->
  exists w b, vlen ct t (fresh t) = (Ok (Z.of_nat (List.length vs)), w) /\ ser_proof ct w = Ok b /\ (List.length b <= 77)%nat.
Proof.
  intros D F H. destruct (ser_touched vs t h D F H) as (b & Eb & Lb). exists (touched t), b. split; [|auto]. apply view_len; auto.
Qed.
End V.
