(** Proofs about lookups in pruned copies of merbinner trees. *)
From Verif Require Import Base Sha256 Bits_Model Bits_Spec Bits_Proofs Serialize_Model Serialize_Proofs Proof_Model Proof_Spec Proof_Proofs
  Merbinner_Model Merbinner_Spec Merbinner_Proofs MmrView_Model MmrView_Proofs MbtView_Model.
From Coq Require Import ZifyBool ZifyNat ZifyN.

(** An attribute that was not read is sent like the pruned copy of its value. *)
Lemma sent_unread ct sr f : (match sr with
    | SerProof _ => if is_proof f then do dh <- data_hash ct f; Ok (xff :: dh) else Err AttributeError
    | SerUnion cs => ser_union ct cs f (if is_proof f then do dh <- data_hash ct f; Ok (xff :: dh) else Err AttributeError)
    | _ => ser_leaf sr f end) = ser_val ct sr (prune ct f).
Proof.
  destruct (is_proof f) eqn:P.
  - unfold is_proof in P. destruct (class_of f) as [c|] eqn:C; [|discriminate]. unfold prune. rewrite C.
    assert (N : forallb is_none (repeat (@None val) (List.length (c_attrs (ct c)))) = true) by (induction (List.length (c_attrs (ct c))); [reflexivity|assumption]).
    unfold ser_val. cbn [ser_proof]. rewrite N. destruct sr; try reflexivity; try (destruct f; try discriminate C; reflexivity).
    unfold ser_union. assert (U : union_index ct cs f = union_index ct cs (PView c f (repeat None (List.length (c_attrs (ct c)))))).
    { induction cs as [|x cs IH]; [reflexivity|]. cbn [union_index]. unfold isinst. rewrite C. cbn [class_of]. rewrite IH. reflexivity. }
    rewrite U. reflexivity.
  - unfold prune. unfold is_proof in P. destruct (class_of f) eqn:C; [discriminate|]. unfold ser_val. destruct sr, f; try discriminate C; reflexivity.
Qed.

Lemma eq_pruned ct a b : py_eq ct (prune ct a) b = py_eq ct a b.
Proof.
  unfold prune. destruct (class_of a) as [c|] eqn:C; [|reflexivity]. destruct a; try discriminate C; destruct b; reflexivity.
Qed.

Lemma bits_short p : (Z.of_nat (List.length p) < 2 ^ 63)%Z -> exists e, ser_leaf SerBits (VBits p) = Ok e /\ List.length e <= 10 + List.length p / 8.
Proof.
  intros L. cbn [ser_leaf]. destruct (bits_new_spec p) as (b & -> & O & E). cbn [bind]. destruct (bits_ser_spec b O) as (q & S & SL & _).
  exists (write_varuint (Z.of_nat (b_len b)) ++ q). split; [exact S|].
  assert (B : b_len b = List.length p) by (rewrite <- E; symmetry; apply (bits_of_length b O)).
  rewrite app_length, SL, B. pose proof (length_short (Z.of_nat (List.length p)) ltac:(lia)). set (q8 := List.length p / 8) in *. clearbody q8. destruct (List.length p mod 8 =? 0); lia.
Qed.

Section V.
Context (ct : ctable) (M : mbt_classes) (ks vs : ser) (k2p : val -> list bool) (K : val -> Prop) (n : nat).
Context (W : wf_table ct) (I : is_mbt ct M ks vs) (G : good_keys ct k2p K n) (Ln : (Z.of_nat n < 2 ^ 63)%Z).

Lemma mbt_tagged c : In c [b_base M; b_empty M; b_leaf M; b_inner M] -> exists tg, c_hash (ct c) = HTag tg.
Proof.
  intros H. destruct (c_hash (ct c)) as [tg|] eqn:E; [eauto|]. destruct (wf_tx_class ct W c E) as (Kd & _). rewrite (mb_kinds _ _ _ _ I c H) in Kd. discriminate.
Qed.
Definition fresh (t : mbt) : val := prune ct (bnode M t).
Lemma class_bnode t : exists c, class_of (bnode M t) = Some c /\ In c [b_base M; b_empty M; b_leaf M; b_inner M].
Proof. destruct t as [| | |k dh]; cbn; [eauto 9..|]. destruct k; cbn; eauto 9. Qed.
Definition hidden (t : mbt) : result bytes := do d <- data_hash ct (bnode M t); Ok (xff :: d).
Lemma ser_fresh t : ser_proof ct (fresh t) = hidden t.
Proof.
  destruct (class_bnode t) as (c & E & _). unfold fresh, prune. rewrite E. cbn [ser_proof]. assert (forallb is_none (repeat (@None val) (List.length (c_attrs (ct c)))) = true) as ->; [|reflexivity].
  induction (List.length (c_attrs (ct c))); [reflexivity|assumption].
Qed.
Lemma hidden_short t h : (forall k dh, t <> TPruned k dh) -> phash ct (bnode M t) = Ok h -> exists x, hidden t = Ok x /\ List.length x = 33.
Proof.
  intros NP H. assert (exists d, data_hash ct (bnode M t) = Ok d /\ List.length d = 32) as (d & E & L).
  { unfold phash, data_hash in *.
    assert (Q : forall c fs, In c [b_base M; b_empty M; b_leaf M; b_inner M] -> snd (hashes ct (PFull c fs)) = Ok h -> exists d, fst (hashes ct (PFull c fs)) = Ok d /\ List.length d = 32).
    { intros c fs Hc E. destruct (mbt_tagged c Hc) as (tg & Et). cbn [hashes fst snd] in *. rewrite Et in E. unfold tagged in E.
      match goal with |- exists d, bind ?x _ = Ok d /\ _ => destruct x as [m|]; [|discriminate] end. cbn [bind] in *. eexists. split; [reflexivity|apply sha256_length]. }
    destruct t; cbn [bnode] in *; try (apply Q; cbn; auto). exfalso. eapply NP. reflexivity. }
  unfold hidden. rewrite E. eexists. split; [reflexivity|]. cbn [List.length]. lia.
Qed.
Lemma node_children p l r h : phash ct (bnode M (TInner p l r)) = Ok h -> (exists hl, phash ct (bnode M l) = Ok hl) /\ exists hr, phash ct (bnode M r) = Ok hr.
Proof.
  unfold phash. cbn [bnode hashes snd]. destruct (mbt_tagged (b_inner M)) as (tg & Et); [cbn; auto|]. rewrite Et. unfold tagged. rewrite (mb_inner _ _ _ _ I).
  destruct (ser_leaf SerBits (VBits p)) as [x|]; [|discriminate]. cbn [bind].
  destruct (snd (hashes ct (bnode M l))) as [hl|]; [|discriminate]. cbn [bind]. destruct (snd (hashes ct (bnode M r))) as [hr|]; [|discriminate]. eauto.
Qed.
Lemma variant_byte v c : class_of v = Some c -> In c [b_empty M; b_leaf M; b_inner M] -> exists x, ser_variant ct v = Ok [x].
Proof.
  intros E H. unfold ser_variant. rewrite E, (mb_kinds _ _ _ _ I c) by (cbn in *; tauto).
  assert (X : exists i, union_index ct [b_empty M; b_leaf M; b_inner M] v = Some i /\ i < 3).
  { assert (S : isinst ct v c = true). { unfold isinst. rewrite E. apply existsb_exists. exists c. split; [apply (wf_self ct W c)|apply Nat.eqb_refl]. }
    cbn [union_index]. destruct (isinst ct v (b_empty M)) eqn:E1; [exists 0; auto with arith|]. destruct (isinst ct v (b_leaf M)) eqn:E2; [exists 1; auto with arith|].
    destruct (isinst ct v (b_inner M)) eqn:E3; [exists 2; auto with arith|]. exfalso. destruct H as [H|[H|[H|[]]]]; rewrite <- H in S; congruence. }
  destruct X as (i & -> & Li). destruct i as [|[|[|i]]]; [eexists; reflexivity..|lia].
Qed.

(** ** Views of nodes *)
Definition view (p : list bool) (l r : mbt) (a b c : option val) : val := PView (b_inner M) (bnode M (TInner p l r)) [a; b; c].
Definition leaf_view (k v : val) (a b : option val) : val := PView (b_leaf M) (bnode M (TLeaf k v)) [a; b].
Lemma fresh_inner p l r : fresh (TInner p l r) = view p l r None None None.
Proof. unfold fresh, prune. cbn [bnode class_of]. rewrite (mb_inner _ _ _ _ I). reflexivity. Qed.
Lemma fresh_leaf k v : fresh (TLeaf k v) = leaf_view k v None None.
Proof. unfold fresh, prune. cbn [bnode class_of]. rewrite (mb_leaf _ _ _ _ I). reflexivity. Qed.
Lemma read_prefix p l r : vattr ct "prefix" (view p l r None None None) = (Ok (VBits p), view p l r (Some (VBits p)) None None).
Proof. unfold vattr, view. cbn [get bnode]. rewrite (mb_inner _ _ _ _ I). cbn. reflexivity. Qed.
Lemma read_left p l r a c : vattr ct "left" (view p l r a None c) = (Ok (fresh l), view p l r a (Some (fresh l)) c).
Proof. unfold vattr, view. cbn [get bnode]. rewrite (mb_inner _ _ _ _ I). cbn. reflexivity. Qed.
Lemma read_right p l r a b : vattr ct "right" (view p l r a b None) = (Ok (fresh r), view p l r a b (Some (fresh r))).
Proof. unfold vattr, view. cbn [get bnode]. rewrite (mb_inner _ _ _ _ I). cbn. reflexivity. Qed.
Lemma in_left {A} (m : vmeth A) p l r a c res x : m (fresh l) = (res, x) -> vin ct "left" m (view p l r a None c) = (res, view p l r a (Some x) c).
Proof.
  intros E. unfold vin, view. cbn [get bnode]. rewrite (mb_inner _ _ _ _ I). cbn [attr_index]. change (String.eqb "prefix" "left") with false. change (String.eqb "left" "left") with true. cbn [option_map nth_error].
  unfold bind. cbn iota beta. unfold fresh in E. rewrite E. cbn [put_back]. rewrite (mb_inner _ _ _ _ I). reflexivity.
Qed.
Lemma in_right {A} (m : vmeth A) p l r a b res x : m (fresh r) = (res, x) -> vin ct "right" m (view p l r a b None) = (res, view p l r a b (Some x)).
Proof.
  intros E. unfold vin, view. cbn [get bnode]. rewrite (mb_inner _ _ _ _ I). cbn [attr_index]. change (String.eqb "prefix" "right") with false. change (String.eqb "left" "right") with false. change (String.eqb "right" "right") with true. cbn [option_map nth_error].
  unfold bind. cbn iota beta. unfold fresh in E. rewrite E. cbn [put_back]. rewrite (mb_inner _ _ _ _ I). reflexivity.
Qed.
Lemma read_no_key p l r a b c : vattr ct "key" (view p l r a b c) = (Err AttributeError, view p l r a b c).
Proof. unfold vattr, view. cbn [get]. rewrite (mb_inner _ _ _ _ I). reflexivity. Qed.
Lemma read_key k v : vattr ct "key" (leaf_view k v None None) = (Ok (prune ct k), leaf_view k v (Some (prune ct k)) None).
Proof. unfold vattr, leaf_view. cbn [get bnode]. rewrite (mb_leaf _ _ _ _ I). cbn. reflexivity. Qed.
Lemma read_value k v a : vattr ct "value" (leaf_view k v a None) = (Ok (prune ct v), leaf_view k v a (Some (prune ct v))).
Proof. unfold vattr, leaf_view. cbn [get bnode]. rewrite (mb_leaf _ _ _ _ I). cbn. reflexivity. Qed.

(** ** Serialized views *)
Definition child (t : mbt) (a : option val) : result bytes := match a with Some x => ser_proof ct x | None => hidden t end.
Lemma ser_inner p l r b c x y : child l b = Ok x -> child r c = Ok y -> (Z.of_nat (List.length p) < 2 ^ 63)%Z ->
  exists e, ser_proof ct (view p l r (Some (VBits p)) b c) = Ok e /\ List.length e <= 12 + List.length p / 8 + List.length x + List.length y.
Proof.
  intros X Y B. destruct (bits_short p B) as (q & Eq & Lq). destruct (variant_byte (view p l r (Some (VBits p)) b c) (b_inner M) eq_refl ltac:(cbn; auto)) as (v & Ev).
  assert (E : ser_proof ct (view p l r (Some (VBits p)) b c) = Ok (x00 :: [v] ++ q ++ x ++ y ++ [])).
  { unfold view in *. cbn [ser_proof forallb is_none andb]. rewrite Ev, (mb_inner _ _ _ _ I). cbn [bind]. rewrite Eq. cbn [bind].
    assert (L : match b with Some f => ser_proof ct f | None => do f <- peek ct (bnode M (TInner p l r)) "left"; (if is_proof f then do dh <- data_hash ct f; Ok (xff :: dh) else Err AttributeError) end = Ok x).
    { destruct b; [exact X|]. unfold peek. cbn [get bnode]. rewrite (mb_inner _ _ _ _ I). cbn. destruct (class_bnode l) as (cl & El & _). unfold is_proof. rewrite El. exact X. }
    assert (R : match c with Some f => ser_proof ct f | None => do f <- peek ct (bnode M (TInner p l r)) "right"; (if is_proof f then do dh <- data_hash ct f; Ok (xff :: dh) else Err AttributeError) end = Ok y).
    { destruct c; [exact Y|]. unfold peek. cbn [get bnode]. rewrite (mb_inner _ _ _ _ I). cbn. destruct (class_bnode r) as (cr & Er & _). unfold is_proof. rewrite Er. exact Y. }
    pose (Kk := fun z1 z2 : result bytes => do body <- (do r0 <- (do x0 <- z1; do r0 <- (do x1 <- z2; do r0 <- Ok []; Ok (x1 ++ r0)); Ok (x0 ++ r0)); Ok (q ++ r0)); Ok (x00 :: [v] ++ body)).
    refine (eq_trans (f_equal2 Kk L R) _). reflexivity. }
  eexists. split; [exact E|]. cbn [List.length app]. rewrite !app_length. cbn [List.length]. lia.
Qed.
Lemma ser_leaf_view k v b kb vb : b = None \/ b = Some (prune ct v) -> ser_val ct ks (prune ct k) = Ok kb -> ser_val ct vs (prune ct v) = Ok vb ->
  exists e, ser_proof ct (leaf_view k v (Some (prune ct k)) b) = Ok e /\ List.length e = 2 + List.length kb + List.length vb.
Proof.
  intros Hb Ek Ev. destruct (variant_byte (leaf_view k v (Some (prune ct k)) b) (b_leaf M) eq_refl ltac:(cbn; auto)) as (x & Ex).
  assert (E : ser_proof ct (leaf_view k v (Some (prune ct k)) b) = Ok (x00 :: [x] ++ kb ++ vb ++ [])).
  { unfold leaf_view in *. cbn [ser_proof forallb is_none andb]. rewrite Ex, (mb_leaf _ _ _ _ I). cbn [bind].
    assert (V : match b with
                | Some f => match vs with SerProof _ => ser_proof ct f | SerUnion cs => ser_union ct cs f (ser_proof ct f) | _ => ser_leaf vs f end
                | None => do f <- peek ct (bnode M (TLeaf k v)) "value";
                          let b := if is_proof f then do dh <- data_hash ct f; Ok (xff :: dh) else Err AttributeError in
                          match vs with SerProof _ => b | SerUnion cs => ser_union ct cs f b | _ => ser_leaf vs f end
                end = Ok vb).
    { destruct Hb as [-> | ->]; [|exact Ev]. unfold peek. cbn [get bnode]. rewrite (mb_leaf _ _ _ _ I). cbn. rewrite <- Ev. apply sent_unread. }
    pose (Kk := fun z1 z2 : result bytes => do body <- (do x0 <- z1; do r0 <- (do x1 <- z2; do r0 <- Ok []; Ok (x1 ++ r0)); Ok (x0 ++ r0)); Ok (x00 :: [x] ++ body)).
    refine (eq_trans (f_equal2 Kk Ek V) _). reflexivity. }
  eexists. split; [exact E|]. cbn [List.length app]. rewrite !app_length. cbn [List.length]. lia.
Qed.

(** ** Lookups *)

(** What is sent of an entry takes at most [m] bytes. *)
Definition sent_within (m : nat) (e : val * val) : Prop :=
  exists kb vb, ser_val ct ks (prune ct (fst e)) = Ok kb /\ ser_val ct vs (prune ct (snd e)) = Ok vb /\ List.length kb + List.length vb <= m.
(** What a lookup of [k] is to give. *)
Definition found (D : list (val * val)) (k : val) (res : result val) : Prop :=
  (exists v, In (k, v) D /\ res = Ok (prune ct v)) \/ (~ In k (map fst D) /\ res = Err KeyError).

Lemma lookup_radix k d m : K k -> forall t h, radix k2p K t -> phash ct (bnode M t) = Ok h -> Forall (sent_within m) (entries t) ->
  (forall k' v, In (k', v) (entries t) -> k' <> k -> List.length (common_prefix (k2p k') (k2p k)) < d) ->
  exists res w b, vlookup ct k2p t k (fresh t) = (res, w) /\ found (entries t) k res /\ ser_proof ct w = Ok b /\
    (List.length b <= 78 + n / 8 + m + (45 + n / 8) * (d - List.length (pre k2p t)))%nat.
Proof.
  intros Kk. unfold vlookup. induction t as [|k' v'|p l IHl r IHr|kd dh]; intros h R H F Hd; try (inversion R; fail).
  - inversion R as [? ? Kk'|]; subst. cbn [vdescend]. unfold vclosest. rewrite fresh_leaf.
    rewrite (vbind_ok _ _ _ _ _ (read_key k' v')). rewrite eq_pruned. cbn [entries] in *. inversion F as [|? ? (kb & vb & Ek & Ev & Lm) _]; subst. cbn [fst snd] in *.
    destruct (gk_eq _ _ _ _ G k' k Kk' Kk) as (e & -> & Ee). destruct e.
    + assert (k' = k) as -> by (apply Ee; reflexivity). rewrite (vbind_ok _ _ _ _ _ (read_value k v' _)). cbn [vret].
      destruct (ser_leaf_view k v' _ kb vb (or_intror eq_refl) Ek Ev) as (b & Eb & Lb). eexists _, _, b. split; [reflexivity|].
      split; [left; exists v'; split; [left; reflexivity|reflexivity]|]. split; [exact Eb|]. eapply Nat.le_trans; [|apply Nat.le_add_r]. lia.
    + cbn [vret]. destruct (ser_leaf_view k' v' _ kb vb (or_introl eq_refl) Ek Ev) as (b & Eb & Lb). eexists _, _, b. split; [reflexivity|].
      split; [right; split; [|reflexivity]|]. 2: { split; [exact Eb|]. eapply Nat.le_trans; [|apply Nat.le_add_r]. lia. }
      cbn [map fst In]. intros [X|[]]. apply Ee in X. discriminate.
  - pose proof (inner_short ct k2p K n G _ _ _ R) as Lp. inversion R as [|? ? ? Rl Rr Hl Hr]; subst. destruct (node_children p l r h H) as ((hl & Hhl) & hr & Hhr).
    assert (NPl : forall k dh, l <> TPruned k dh) by (intros ? ? ->; inversion Rl). assert (NPr : forall k dh, r <> TPruned k dh) by (intros ? ? ->; inversion Rr).
    destruct (hidden_short l hl NPl Hhl) as (xl & Exl & Lxl). destruct (hidden_short r hr NPr Hhr) as (xr & Exr & Lxr).
    assert (Bp : (Z.of_nat (List.length p) < 2 ^ 63)%Z) by lia. assert (Dv : List.length p / 8 <= n / 8) by (apply Nat.div_le_mono; lia).
    cbn [entries] in F, Hd. apply Forall_app in F as (Fl & Fr). cbn [vdescend]. rewrite fresh_inner. rewrite (vbind_ok _ _ _ _ _ (read_prefix p l r)).
    pose proof (gk_len _ _ _ _ G k Kk) as Lk. assert ((List.length p <=? List.length (k2p k)) = true) as -> by lia. cbn [andb]. cbn [pre].
    assert (NS : forall (b : bool) (D : list (val * val)) k0, In k0 (map fst D) -> (forall k v, In (k, v) D -> starts (p ++ [b]) (k2p k)) -> starts (p ++ [b]) (k2p k0)).
    { intros b D k0 Hk0 HD. apply in_map_iff in Hk0 as ((a, v) & <- & X). exact (HD a v X). }
    assert (CH : forall b t', radix k2p K t' -> (forall k v, In (k, v) (entries t') -> starts (p ++ [b]) (k2p k)) -> S (List.length p) <= List.length (pre k2p t')).
    { intros b t' R' HD. pose proof (radix_longest k2p K t' (p ++ [b]) R' HD) as X. apply starts_len in X. rewrite app_length in X. cbn in X. lia. }
    assert (CD : forall b s t', radix k2p K t' -> (forall k v, In (k, v) (entries t') -> starts (p ++ [negb b]) (k2p k)) -> k2p k = p ++ b :: s ->
                 (forall k' v, In (k', v) (entries t') -> k' <> k -> List.length (common_prefix (k2p k') (k2p k)) < d) -> List.length p < d).
    { intros b s t' R' HD Ek Hd'. destruct (radix_some k2p K t' R') as (k' & v' & I'). pose proof (HD _ _ I') as X. apply starts_bit in X as (s' & X).
      assert (k' <> k) by (intros ->; rewrite Ek in X; apply app_inv_head in X; inversion X; destruct b; discriminate).
      specialize (Hd' _ _ I' H0). rewrite X, Ek in Hd'. rewrite common_prefix_app in Hd' by (destruct b; discriminate). exact Hd'. }
    destruct (startswith (k2p k) p) eqn:S.
    + apply startswith_spec in S as (rest & E). destruct rest as [|b s]; [rewrite E, app_length in Lk; cbn in Lk; lia|].
      assert (bit (k2p k) (List.length p) = Ok b) as -> by (rewrite E; apply bit_app). destruct b.
      * assert (Lpd : List.length p < d) by (apply (CD true s l Rl Hl E); intros k' v' X; apply (Hd k' v'); apply in_or_app; left; exact X).
        rewrite (vbind_ok _ _ _ _ _ (read_left p l r _ None)).
        destruct (IHr hr Rr Hhr Fr) as (res & w & b & Ew & Fd & Eb & Lb). { intros k' v' X. apply (Hd k' v'). apply in_or_app. right. exact X. }
        destruct (ser_inner p l r (Some (fresh l)) (Some w) xl b ltac:(cbn [child]; rewrite ser_fresh; exact Exl) Eb Bp) as (e & Ee & Le).
        eexists res, _, e. split; [exact (in_right _ p l r _ _ _ _ Ew)|]. split; [|split; [exact Ee|]].
        { destruct Fd as [(v & Iv & ->)|(Nv & ->)]; [left; exists v; split; [cbn [entries]; apply in_or_app; right; exact Iv|reflexivity]|right; split; [|reflexivity]].
          cbn [entries]. rewrite map_app, in_app_iff. intros [X|X]; [|exact (Nv X)]. pose proof (NS false (entries l) k X Hl) as Y. apply starts_bit in Y as (s' & Y). rewrite E in Y. apply app_inv_head in Y. discriminate. }
        pose proof (CH true r Rr Hr) as Cr. pose proof (Nat.mul_le_mono_l (d - List.length (pre k2p r)) (d - S (List.length p)) (45 + n / 8) ltac:(lia)).
        replace (d - List.length p) with (S (d - S (List.length p))) by lia. rewrite Nat.mul_succ_r. set (n8 := n / 8) in *. set (p8 := List.length p / 8) in *. clearbody n8 p8. set (X1 := (45 + n8) * (d - S (List.length p))) in *. clearbody X1. lia.
      * assert (Lpd : List.length p < d) by (apply (CD false s r Rr Hr E); intros k' v' X; apply (Hd k' v'); apply in_or_app; right; exact X).
        rewrite (vbind_ok _ _ _ _ _ (read_right p l r _ None)).
        destruct (IHl hl Rl Hhl Fl) as (res & w & b & Ew & Fd & Eb & Lb). { intros k' v' X. apply (Hd k' v'). apply in_or_app. left. exact X. }
        destruct (ser_inner p l r (Some w) (Some (fresh r)) b xr Eb ltac:(cbn [child]; rewrite ser_fresh; exact Exr) Bp) as (e & Ee & Le).
        eexists res, _, e. split; [exact (in_left _ p l r _ _ _ _ Ew)|]. split; [|split; [exact Ee|]].
        { destruct Fd as [(v & Iv & ->)|(Nv & ->)]; [left; exists v; split; [cbn [entries]; apply in_or_app; left; exact Iv|reflexivity]|right; split; [|reflexivity]].
          cbn [entries]. rewrite map_app, in_app_iff. intros [X|X]; [exact (Nv X)|]. pose proof (NS true (entries r) k X Hr) as Y. apply starts_bit in Y as (s' & Y). rewrite E in Y. apply app_inv_head in Y. discriminate. }
        pose proof (CH false l Rl Hl) as Cr. pose proof (Nat.mul_le_mono_l (d - List.length (pre k2p l)) (d - S (List.length p)) (45 + n / 8) ltac:(lia)).
        replace (d - List.length p) with (S (d - S (List.length p))) by lia. rewrite Nat.mul_succ_r. set (n8 := n / 8) in *. set (p8 := List.length p / 8) in *. clearbody n8 p8. set (X1 := (45 + n8) * (d - S (List.length p))) in *. clearbody X1. lia.
    + destruct (ser_inner p l r None None xl xr Exl Exr Bp) as (e & Ee & Le). eexists (Err KeyError), _, e.
      split; [unfold vclosest, vbind; rewrite read_no_key; reflexivity|]. split; [right; split; [|reflexivity]|split; [exact Ee|eapply Nat.le_trans; [|apply Nat.le_add_r]; lia]].
      cbn [entries]. rewrite map_app, in_app_iff. intros X.
      assert (starts p (k2p k)) as Y by (destruct X as [X|X]; [pose proof (NS false _ k X Hl) as Y|pose proof (NS true _ k X Hr) as Y]; (eapply starts_trans; [apply starts_app|exact Y])).
      apply startswith_spec in Y. congruence.
Qed.
Lemma lookup_tree k d m t h : K k -> tree k2p K t -> phash ct (bnode M t) = Ok h -> Forall (sent_within m) (entries t) ->
  (forall k' v, In (k', v) (entries t) -> k' <> k -> List.length (common_prefix (k2p k') (k2p k)) < d) ->
  exists res w b, vlookup ct k2p t k (fresh t) = (res, w) /\ found (entries t) k res /\ ser_proof ct w = Ok b /\
    List.length b <= 78 + n / 8 + m + (45 + n / 8) * d.
Proof.
  intros Kk [-> |R] H F Hd.
  - destruct (hidden_short TEmpty h ltac:(discriminate) H) as (x & Ex & Lx). exists (Err KeyError), (fresh TEmpty), x. split; [|split; [right; split; [intros []|reflexivity]|split; [rewrite ser_fresh; exact Ex|lia]]].
    unfold vlookup, vclosest, vbind, vattr, fresh, prune. cbn [vdescend bnode class_of get]. rewrite (mb_empty _ _ _ _ I). reflexivity.
  - destruct (lookup_radix k d m Kk t h R H F Hd) as (res & w & b & E1 & E2 & E3 & E4). exists res, w, b. split; [exact E1|]. split; [exact E2|]. split; [exact E3|].
    pose proof (Nat.mul_le_mono_l (d - List.length (pre k2p t)) d (45 + n / 8) ltac:(lia)) as X. eapply Nat.le_trans; [exact E4|]. apply Nat.add_le_mono_l. exact X.
Qed.
End V.
