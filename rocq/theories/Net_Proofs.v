From Verif Require Import Base PySlice PySlice_Proofs Sha256 Tx_Model Tx_Spec Tx_Proofs Block_Model Block_Spec Block_Proofs Net_Model
  Grammar_Spec Grammar_Proofs Wire_Proofs Net_Spec.
From Coq Require Import ZifyBool ZifyNat ZifyN DecimalString.
Local Open Scope string_scope.
Local Open Scope list_scope.

(** ** Reading the parts *)

Lemma read_fixed n s b r : (n <= 64)%N -> (ser_read n s = Ok (b, r) <-> s = b ++ r /\ List.length b = N.to_nat n).
Proof. exact (ser_read_le4 n s b r). Qed.

Lemma varstring_reads : reads varstring_de script_text.
Proof. exact script_reads. Qed.

Lemma hash_reads : reads (ser_read 32) hash_bytes.
Proof.
  intros s a r. rewrite read_fixed by lia. unfold hash_bytes. split.
  - intros [-> L]. exists a. auto.
  - intros (b & -> & -> & L). auto.
Qed.
Lemma hash_nonempty h : ~ hash_bytes h [].
Proof. intros [<- L]. discriminate L. Qed.
Lemma hashes_reads : reads uint256s_de (counted hash_bytes).
Proof. exact (counted_reads _ _ hash_reads hash_nonempty). Qed.

Ltac bind_ok H := match type of H with
  | bind ?r _ = Ok _ => let E := fresh "E" in destruct r as [[? ?]|?] eqn:E; cbn [bind] in H; [|discriminate H]
  end.
(** Take the next fixed-size piece, from hypothesis [H]. *)
Ltac take H x E := let r := fresh "r" in match type of H with bind (ser_read _ _) _ = Ok _ =>
  match type of H with bind ?t _ = Ok _ => destruct t as [[x r]|?] eqn:E; cbn [bind] in H; [|discriminate H]; apply read_fixed in E; [|lia]; destruct E as [-> E]; cbn [N.to_nat Pos.to_nat Pos.iter_op Nat.add] in E end end.
Ltac give := match goal with |- context [ser_read ?n (?b ++ ?r)] => assert (ser_read n (b ++ r) = Ok (b, r)) as -> by (apply read_fixed; [lia|]; split; [reflexivity|]; cbn [N.to_nat Pos.to_nat Pos.iter_op Nat.add]; assumption || (match goal with L : le _ _ b |- _ => exact (proj1 L) end) || (match goal with L : le_signed _ _ b |- _ => exact (proj1 (proj1 L)) end)) end; cbn [bind].

Lemma le_of k b : List.length b = k -> le k (Z.of_N (le_dec b)) b.
Proof. intros L. split; [exact L|apply little_dec]. Qed.
Lemma of_le k v b : le k v b -> Z.of_N (le_dec b) = v.
Proof. intros [_ V]. rewrite <- little_dec. exact V. Qed.
Lemma les_of k b : 0 < k -> List.length b = k -> le_signed k (unpack_s k b) b.
Proof. intros K L. apply le_signed_iff; auto. Qed.
Lemma of_les k v b : 0 < k -> le_signed k v b -> unpack_s k b = v.
Proof. intros K L. apply le_signed_iff in L; [tauto|exact K]. Qed.

Lemma inv_reads : reads inv_de inv_bytes.
Proof.
  intros s v r. unfold inv_de. split.
  - intros H. take H b T. take H b1 T0. inversion H; subst. exists (b ++ b1). rewrite <- app_assoc. split; [reflexivity|].
    apply (inv_bytes_intro (mkInv _ b1)); cbn [v_type v_hash]; [apply les_of; [lia|exact T]|exact T0].
  - intros (b & -> & [t L H]). rewrite <- app_assoc. give. give. rewrite (of_les 4 _ _ ltac:(lia) L). destruct v; reflexivity.
Qed.
Lemma inv_nonempty v : ~ inv_bytes v [].
Proof. intros H. inversion H as [t L N E]. destruct t; [|discriminate]. destruct L as [[L _] _]. discriminate L. Qed.

Lemma locator_reads : reads locator_de locator_bytes.
Proof.
  intros s v r. unfold locator_de. split.
  - intros H. take H b T. bind_ok H. inversion H; subst. apply hashes_reads in E. destruct E as (h & -> & C). exists (b ++ h). rewrite <- app_assoc. split; [reflexivity|].
    apply (locator_bytes_intro (mkLocator _ _)); cbn [l_nVersion l_vHave]; [apply les_of; [lia|exact T]|exact C].
  - intros (b & -> & [t h L C]). rewrite <- app_assoc. give. assert (uint256s_de (h ++ r) = Ok (l_vHave v, r)) as -> by (apply hashes_reads; eauto). cbn [bind].
    rewrite (of_les 4 _ _ ltac:(lia) L). destruct v; reflexivity.
Qed.

Lemma locate_reads : reads locate_de (fun p => locate_bytes (fst p) (snd p)).
Proof.
  intros s [l h] r. unfold locate_de. cbn [fst snd]. split.
  - intros H. bind_ok H. apply locator_reads in E. destruct E as (x & -> & L). take H y T. inversion H; subst. exists (x ++ h). rewrite <- app_assoc. split; [reflexivity|]. constructor; assumption.
  - intros (b & -> & [x L H]). rewrite <- app_assoc. assert (locator_de (x ++ h ++ r) = Ok (l, h ++ r)) as -> by (apply locator_reads; eauto). cbn [bind]. give. reflexivity.
Qed.

Lemma alert_reads : reads alert_de alert_bytes.
Proof.
  intros s v r. unfold alert_de. split.
  - intros H. bind_ok H. bind_ok H. inversion H; subst. apply varstring_reads in E, E0. destruct E as (m & -> & M), E0 as (g & -> & G).
    exists (m ++ g). rewrite <- app_assoc. split; [reflexivity|]. constructor; assumption.
  - intros (b & -> & [m g M G]). rewrite <- app_assoc. assert (varstring_de (m ++ g ++ r) = Ok (al_vchMsg v, g ++ r)) as -> by (apply varstring_reads; eauto). cbn [bind].
    assert (varstring_de (g ++ r) = Ok (al_vchSig v, r)) as -> by (apply varstring_reads; eauto). cbn [bind]. destruct v; reflexivity.
Qed.

Lemma nonce_reads : reads nonce_de (le 8).
Proof.
  intros s v r. unfold nonce_de. split.
  - intros H. take H b T. inversion H; subst. exists b. split; [reflexivity|]. apply le_of, T.
  - intros (b & -> & L). give. rewrite (of_le _ _ _ L). reflexivity.
Qed.

Lemma header_reads : reads header_de header_bytes.
Proof.
  intros s v r. unfold header_de, header_new. split.
  - intros H. take H b T. take H b1 T0. take H b3 T1. take H b5 T2. take H b7 T3. take H b9 T4. unfold assert, blen in H. rewrite T0, T1 in H. cbn in H. inversion H; subst.
    exists (b ++ b1 ++ b3 ++ b5 ++ b7 ++ b9). rewrite <- !app_assoc. split; [reflexivity|].
    apply (header_bytes_intro (mkHeader _ b1 b3 _ _ _)); cbn [h_nVersion h_prev h_merkle h_nTime h_nBits h_nNonce]; auto using le_of. apply les_of; [lia|exact T].
  - intros (b & -> & X). destruct X as [x t k n L P M Lt Lb Ln]. rewrite <- !app_assoc. give. give. give. give. give. give. unfold assert, blen. rewrite P, M. cbn [N.of_nat Pos.of_succ_nat Pos.succ N.eqb Pos.eqb bind].
    rewrite (of_les 4 _ _ ltac:(lia) L), (of_le _ _ _ Lt), (of_le _ _ _ Lb), (of_le _ _ _ Ln). destruct v; reflexivity.
Qed.
Lemma tx_nonempty t : ~ tx_text t [].
Proof. intros H. inversion H as [v i o l L Hi Ho Hl E]. destruct v; [|discriminate]. destruct L as [[L _] _]. discriminate L. Qed.

Lemma txs_hash s l r : vector_de tx_de s = Ok (l, r) -> exists t, build_merkle_tree_from_txs l = Ok t.
Proof. intros H. apply (vector_de_wf _ _ tx_de_wf) in H. destruct H as [H _]. destruct (mapM_hash_ok l H) as [ids I]. unfold build_merkle_tree_from_txs. rewrite I. eexists. reflexivity. Qed.

Lemma block_reads : reads block_de block_bytes.
Proof.
  pose proof (counted_reads _ _ tx_reads tx_nonempty) as RT. intros s v r. unfold block_de. split.
  - intros H. bind_ok H. bind_ok H. destruct (txs_hash _ _ _ E0) as [t M]. rewrite M in H. cbn [bind] in H. inversion H; subst.
    apply header_reads in E. apply RT in E0. destruct E as (x & -> & X), E0 as (y & -> & Y). exists (x ++ y). rewrite <- app_assoc. split; [reflexivity|]. constructor; assumption.
  - intros (b & -> & [x y X Y]). rewrite <- app_assoc. assert (header_de (x ++ y ++ r) = Ok (b_header v, y ++ r)) as -> by (apply header_reads; eauto). cbn [bind].
    assert (E : vector_de tx_de (y ++ r) = Ok (b_vtx v, r)) by (apply RT; eauto). rewrite E. cbn [bind]. destruct (txs_hash _ _ _ E) as [t M]. rewrite M. cbn [bind]. destruct v; reflexivity.
Qed.
Lemma block_nonempty b : ~ block_bytes b [].
Proof. intros H. inversion H as [h t X Y E]. destruct h; [|discriminate]. inversion X as [v t1 t2 t3 L Q1 Q2 Q3 Q4 Q5 E2]. destruct v; [|discriminate]. destruct L as [[L _] _]. discriminate L. Qed.

(** ** IP addresses *)

Lemma byte_ok b : In b all_bytes.
Proof. unfold all_bytes. apply in_map_iff. exists (N.to_nat (bN b)). rewrite N2Nat.id, Nb_bN. split; [reflexivity|]. apply in_seq. pose proof (bN_lt b). lia. Qed.

Lemma dec_decimal b : dec (bN b) = decimal (bN b).
Proof.
  apply String.eqb_eq. assert (forallb (fun b => String.eqb (dec (bN b)) (decimal (bN b))) all_bytes = true) as F by (vm_compute; reflexivity).
  rewrite forallb_forall in F. apply F, byte_ok.
Qed.

Lemma ntoa_quad i s : inet_ntoa i = Ok s <-> quad s i.
Proof.
  split.
  - intros H. destruct i as [|w [|x [|y [|z [|]]]]]; try discriminate H. cbn [inet_ntoa] in H. rewrite !dec_decimal in H. inversion H. constructor.
  - intros H. destruct H. cbn [inet_ntoa]. rewrite !dec_decimal. reflexivity.
Qed.
Lemma quad_len s i : quad s i -> List.length i = 4.
Proof. intros []. reflexivity. Qed.
Lemma ntoa_ok i : List.length i = 4 -> exists s, inet_ntoa i = Ok s.
Proof. intros H. destruct i as [|w [|x [|y [|z [|]]]]]; try discriminate H. eexists. reflexivity. Qed.

Fixpoint no_dot (s : string) : bool := match s with "" => true | String c s' => negb (Ascii.eqb c ".") && no_dot s' end.
Lemma until_dot_app a s : no_dot a = true -> until_dot (a ++ "." ++ s)%string = (a, Some s).
Proof.
  induction a as [|c a IH]; intros H; [reflexivity|]. cbn in H. apply andb_prop in H. destruct H as [N H]. change (until_dot (String c a ++ "." ++ s)%string) with (if Ascii.eqb c "." then ("", Some (a ++ "." ++ s)%string) else let (x, r) := until_dot (a ++ "." ++ s)%string in (String c x, r)).
  destruct (Ascii.eqb c "."); [discriminate|]. rewrite (IH H). reflexivity.
Qed.
Lemma until_dot_end a : no_dot a = true -> until_dot a = (a, None).
Proof.
  induction a as [|c a IH]; intros H; [reflexivity|]. cbn in H. apply andb_prop in H. destruct H as [N H]. cbn [until_dot].
  destruct (Ascii.eqb c "."); [discriminate|]. rewrite (IH H). reflexivity.
Qed.
Lemma dec_no_dot b : no_dot (dec (bN b)) = true.
Proof.
  assert (forallb (fun b => no_dot (dec (bN b))) all_bytes = true) as F by (vm_compute; reflexivity).
  rewrite forallb_forall in F. apply F, byte_ok.
Qed.
Lemma dec_inj a b : dec (bN a) = dec (bN b) -> a = b.
Proof.
  assert (forallb (fun a => forallb (fun b => implb (String.eqb (dec (bN a)) (dec (bN b))) (Byte.eqb a b)) all_bytes) all_bytes = true) as F by (vm_compute; reflexivity).
  rewrite forallb_forall in F. specialize (F a (byte_ok a)). cbv beta in F. rewrite forallb_forall in F. specialize (F b (byte_ok b)). cbv beta in F. intros E.
  rewrite E, String.eqb_refl in F. cbn [implb] in F. apply Byte.byte_dec_bl. exact F.
Qed.
Lemma byte_of_dec b : byte_of (dec (bN b)) = Some b.
Proof.
  unfold byte_of. fold all_bytes. destruct (find _ all_bytes) as [x|] eqn:E.
  - apply find_some in E. destruct E as [_ E]. apply String.eqb_eq in E. apply dec_inj in E. congruence.
  - apply (find_none _ _) with (x := b) in E; [|apply byte_ok]. rewrite String.eqb_refl in E. discriminate.
Qed.
Lemma aton_quad other s i : quad s i -> inet_aton other s = Ok i.
Proof.
  intros []. unfold inet_aton, dotted. rewrite <- !dec_decimal. rewrite (until_dot_app (dec (bN w)) _ (dec_no_dot w)). cbn beta iota.
  rewrite (until_dot_app (dec (bN x)) _ (dec_no_dot x)). cbn beta iota. rewrite (until_dot_app (dec (bN y)) _ (dec_no_dot y)). cbn beta iota.
  rewrite (until_dot_end _ (dec_no_dot z)). rewrite !byte_of_dec. reflexivity.
Qed.

(** ** Addresses *)

Lemma address_reads timed : reads (address_de (negb timed)) (address_bytes timed).
Proof.
  intros s v r. unfold address_de. cbn [address_new a_protover a_nTime].
  replace ((CADDR_TIME_VERSION <=? PROTO_VERSION)%Z && negb (negb timed)) with timed by (destruct timed; reflexivity). split.
  - intros H. destruct timed.
    + bind_ok H. take E b1 T. inversion E; subst. take H b0 T0. take H b2 T1. take H b4 T2. destruct (inet_ntoa b4) as [ip|] eqn:I; [|discriminate]. cbn [bind] in H. take H b6 T3. inversion H; subst.
      exists (b1 ++ b0 ++ b2 ++ b4 ++ b6). rewrite <- !app_assoc. split; [reflexivity|]. split; [split; [reflexivity|]; split; [discriminate|exact T1]|].
      apply (address_text_intro true (mkAddress _ _ _ b2 _ _)); cbn [a_nTime a_nServices a_pchReserved a_ip a_port]; auto using le_of.
      * apply ntoa_quad, I.
      * apply le_of. rewrite rev_length. exact T3.
    + cbn [bind] in H. take H b T. take H b1 T0. take H b3 T1. destruct (inet_ntoa b3) as [ip|] eqn:I; [|discriminate]. cbn [bind] in H. take H b5 T2. inversion H; subst.
      exists (b ++ b1 ++ b3 ++ b5). rewrite <- !app_assoc. split; [reflexivity|]. split; [split; [reflexivity|]; split; [reflexivity|exact T0]|].
      apply (address_text_intro false (mkAddress _ _ _ b1 _ _) []); cbn [a_nTime a_nServices a_pchReserved a_ip a_port]; auto using le_of.
      * apply ntoa_quad, I.
      * apply le_of. rewrite rev_length. exact T2.
  - intros (b & -> & (P & Z0 & R) & [t w i p Lt Lw Q Lp]). rewrite <- !app_assoc.
    assert (Lp' : List.length p = 2) by (rewrite <- rev_length; exact (proj1 Lp)). pose proof (quad_len _ _ Q) as Li. apply ntoa_quad in Q.
    destruct timed.
    + give. give. give. give. rewrite Q. cbn [bind]. give. rewrite (of_le _ _ _ Lt), (of_le _ _ _ Lw), (of_le _ _ _ Lp).
      destruct v as [pv nt ns re ip po]; cbn [a_protover a_nTime a_nServices a_pchReserved a_ip a_port] in *. rewrite P. reflexivity.
    + subst t. cbn [app bind]. give. give. give. rewrite Q. cbn [bind]. give. rewrite (of_le _ _ _ Lw), (of_le _ _ _ Lp).
      destruct v as [pv nt ns re ip po]; cbn [a_protover a_nTime a_nServices a_pchReserved a_ip a_port] in *. rewrite P, (Z0 eq_refl). reflexivity.
Qed.
Lemma address_nonempty timed a : ~ address_bytes timed a [].
Proof.
  intros [_ H]. inversion H as [t s i p Q1 L Q2 Q3 E]. apply app_eq_nil in E. destruct E as [_ E]. destruct s; [|discriminate]. destruct L as [L _]. discriminate L.
Qed.

(** ** Version messages *)

Lemma announces_iff n0 n : announces n0 n <-> n = (if (n0 =? 10300)%Z then 300%Z else n0).
Proof. unfold announces. destruct (n0 =? 10300)%Z eqn:E; lia. Qed.

Lemma version_reads : reads version_de version_bytes.
Proof.
  pose proof (address_reads false) as RA. cbn [negb] in RA. intros s v r. unfold version_de. split.
  - intros H. take H n T. take H w T0. take H t T1. bind_ok H. rename a into a0. apply RA in E. destruct E as (a & -> & A).
    set (n1 := if (unpack_s 4 n =? 10300)%Z then 300%Z else unpack_s 4 n) in *.
    assert (N : announces (unpack_s 4 n) n1) by (apply announces_iff; reflexivity).
    assert (Ln : le_signed 4 (unpack_s 4 n) n) by (apply les_of; [lia|exact T]).
    assert (Lt : le_signed 8 (unpack_s 8 t) t) by (apply les_of; [lia|exact T1]).
    destruct (106 <=? n1)%Z eqn:V1.
    + bind_ok H. rename a1 into f0. apply RA in E. destruct E as (f & -> & F). take H c T2. bind_ok H. apply varstring_reads in E. destruct E as (u & -> & U). destruct (209 <=? n1)%Z eqn:V2.
      * take H h T3. inversion H; subst. exists (n ++ w ++ t ++ a ++ f ++ c ++ u ++ h). rewrite <- !app_assoc. split; [reflexivity|].
        eapply version_new; cbn [n_nVersion n_nServices n_nTime n_addrTo n_addrFrom n_nNonce n_strSubVer n_nStartingHeight]; try reflexivity; try eassumption; auto using le_of; [lia|].
        apply les_of; [lia|exact T3].
      * inversion H; subst. exists (n ++ w ++ t ++ a ++ f ++ c ++ u). rewrite <- !app_assoc. split; [reflexivity|].
        eapply version_mid; cbn [n_nVersion n_nServices n_nTime n_addrTo n_addrFrom n_nNonce n_strSubVer n_nStartingHeight]; try reflexivity; try eassumption; auto using le_of; lia.
    + inversion H; subst. exists (n ++ w ++ t ++ a). rewrite <- !app_assoc. split; [reflexivity|].
      eapply version_old; cbn [n_nVersion n_nServices n_nTime n_addrTo n_addrFrom n_nNonce n_strSubVer n_nStartingHeight]; try reflexivity; try eassumption; auto using le_of; lia.
  - intros (b & -> & X). destruct v as [ver ns nt at_ af nn sv sh].
    destruct X as [n n0 w t a N V Ln Lw Lt A|n n0 w t a f fb c cb u ub N V Ln Lw Lt A ? F ? Lc ? U|n n0 w t a f fb c cb u ub h hb N V Ln Lw Lt A ? F ? Lc ? U ? Lh];
      cbn [n_nVersion n_nServices n_nTime n_addrTo n_addrFrom n_nNonce n_strSubVer n_nStartingHeight] in *; subst; rewrite <- !app_assoc; give; give; give;
      rewrite (of_les 4 _ _ ltac:(lia) Ln), (of_les 8 _ _ ltac:(lia) Lt), (of_le _ _ _ Lw); apply announces_iff in N; rewrite <- N.
    + assert (address_de true (a ++ r) = Ok (at_, r)) as -> by (apply RA; eauto). cbn [bind]. destruct (106 <=? ver)%Z eqn:Q; [lia|]. reflexivity.
    + assert (address_de true (a ++ fb ++ cb ++ ub ++ r) = Ok (at_, fb ++ cb ++ ub ++ r)) as -> by (apply RA; eauto). cbn [bind]. destruct (106 <=? ver)%Z eqn:Q; [|lia].
      assert (address_de true (fb ++ cb ++ ub ++ r) = Ok (f, cb ++ ub ++ r)) as -> by (apply RA; eauto). cbn [bind]. give. rewrite (of_le _ _ _ Lc).
      assert (varstring_de (ub ++ r) = Ok (u, r)) as -> by (apply varstring_reads; eauto). cbn [bind]. destruct (209 <=? ver)%Z eqn:Q2; [lia|]. reflexivity.
    + assert (address_de true (a ++ fb ++ cb ++ ub ++ hb ++ r) = Ok (at_, fb ++ cb ++ ub ++ hb ++ r)) as -> by (apply RA; eauto). cbn [bind]. destruct (106 <=? ver)%Z eqn:Q; [|lia].
      assert (address_de true (fb ++ cb ++ ub ++ hb ++ r) = Ok (f, cb ++ ub ++ hb ++ r)) as -> by (apply RA; eauto). cbn [bind]. give. rewrite (of_le _ _ _ Lc).
      assert (varstring_de (ub ++ hb ++ r) = Ok (u, hb ++ r)) as -> by (apply varstring_reads; eauto). cbn [bind]. destruct (209 <=? ver)%Z eqn:Q2; [|lia].
      give. rewrite (of_les 4 _ _ ltac:(lia) Lh). reflexivity.
Qed.

(** ** Writing: [ser] writes a text of [g], and no text of [g] is shorter *)

Definition writes {A} (ser : A -> result bytes) (g : A -> bytes -> Prop) (ok : A -> Prop) : Prop :=
  (forall a b, ok a -> ser a = Ok b -> (blen b <= MAX_SIZE)%N -> g a b) /\
  (forall a b', ok a -> g a b' -> exists b, ser a = Ok b /\ List.length b <= List.length b').
Definition any {A} (_ : A) : Prop := True.

Lemma writes_weaken {A} (ser : A -> result bytes) g (ok ok' : A -> Prop) : (forall a, ok' a -> ok a) -> writes ser g ok -> writes ser g ok'.
Proof. intros I [S T]. split; intros; eauto. Qed.

Lemma u_writes k : writes (pack_u k) (le k) any.
Proof. split; intros a b _ H; [intros _; apply pack_le, H|]. exists b. split; [apply pack_le, H|lia]. Qed.
Lemma s_writes k : 0 < k -> writes (pack_s k) (le_signed k) any.
Proof. intros K. split; intros a b _ H; [intros _; apply pack_le_signed; assumption|]. exists b. split; [apply pack_le_signed; assumption|lia]. Qed.

Lemma count_written n c : count n c -> exists b, varint_ser n = Ok b /\ List.length b <= List.length c.
Proof.
  intros C. assert (exists b, varint_ser n = Ok b) as [b B].
  { apply varint_ok. destruct C as [x X L|d D|d D|d D]; [pose proof (bN_lt x); lia|..]; apply le_bound in D; lia. }
  exists b. split; [exact B|]. eapply varint_shortest; eassumption.
Qed.

Lemma script_writes : writes bytes_ser script_text any.
Proof.
  split.
  - intros a b _ H L. unfold bytes_ser in H. destruct (varint_ser _) as [h|] eqn:E; [|discriminate]. cbn [bind] in H. inversion H; subst.
    constructor; [apply varint_count, E|]. rewrite blen_app in L. unfold MAX_SIZE in L. lia.
  - intros a b' _ [h C L]. destruct (count_written _ _ C) as (b & B & Lb). exists (b ++ a). unfold bytes_ser. rewrite B. split; [reflexivity|]. rewrite !app_length. lia.
Qed.
Lemma varstring_writes : writes varstring_ser script_text any.
Proof. exact script_writes. Qed.

Lemma vector_writes {A} (ser : A -> result bytes) g ok : writes ser g ok -> writes (vector_ser ser) (counted g) (Forall ok).
Proof.
  intros [S T]. split.
  - intros l b F H L. unfold vector_ser in H. destruct (varint_ser _) as [h|] eqn:E; [|discriminate]. cbn [bind] in H.
    destruct (objs_ser ser l) as [r|] eqn:O; [|discriminate]. cbn [bind] in H. inversion H; subst. constructor; [apply varint_count, E|].
    rewrite blen_app in L. assert (L' : (blen r <= MAX_SIZE)%N) by lia. clear L H E h. revert r O L'.
    induction F as [|a l Ha F IH]; intros r O L; cbn [objs_ser] in O; [inversion O; constructor|].
    destruct (ser a) as [x|] eqn:X; [|discriminate]. cbn [bind] in O. destruct (objs_ser ser l) as [y|] eqn:Y; [|discriminate]. cbn [bind] in O. inversion O; subst.
    rewrite blen_app in L. constructor; [apply S; [exact Ha|exact X|lia]|apply IH; [reflexivity|lia]].
  - intros l b F [h r C E]. destruct (count_written _ _ C) as (x & X & Lx). assert (exists y, objs_ser ser l = Ok y /\ List.length y <= List.length r) as (y & Y & Ly).
    { clear h C x X Lx. revert F. induction E as [|a l b' bs G E IH]; intros F; [exists []; split; [reflexivity|cbn; lia]|]. inversion F; subst.
      destruct (T a b' H1 G) as (x & X & Lx). destruct (IH H2) as (y & Y & Ly). exists (x ++ y). cbn [objs_ser]. rewrite X. cbn [bind]. rewrite Y. split; [reflexivity|]. rewrite !app_length. lia. }
    exists (x ++ y). unfold vector_ser. rewrite X. cbn [bind]. rewrite Y. split; [reflexivity|]. rewrite !app_length. lia.
Qed.

(** Take the next written piece, from hypothesis [H]. *)
Ltac wrote H x E := match type of H with bind ?t _ = Ok _ => destruct t as [x|?] eqn:E; cbn [bind] in H; [|discriminate H] end.
Ltac small := repeat match goal with L : context [blen (_ ++ _)] |- _ => rewrite blen_app in L end; lia.
Ltac lens := rewrite ?app_length; lia.

Lemma outpoint_writes' : writes outpoint_ser outpoint_text any.
Proof. split; intros a b _ H; [intros _; apply outpoint_writes, H|]. exists b. split; [apply outpoint_writes, H|lia]. Qed.

Lemma txin_writes : writes txin_ser txin_text any.
Proof.
  destruct outpoint_writes' as [S1 T1], script_writes as [S2 T2], (u_writes 4) as [S3 T3]. split.
  - intros a b _ H L. unfold txin_ser in H. wrote H p P. wrote H s Q. wrote H q R. inversion H; subst. constructor; [apply S1|apply S2|apply S3]; try exact I; try assumption; small.
  - intros a b' _ [p s q P Q R]. destruct (T1 _ _ I P) as (x & X & Lx), (T2 _ _ I Q) as (y & Y & Ly), (T3 _ _ I R) as (z & Z & Lz).
    exists (x ++ y ++ z). unfold txin_ser. rewrite X. cbn [bind]. rewrite Y. cbn [bind]. rewrite Z. split; [reflexivity|lens].
Qed.
Lemma txout_writes : writes txout_ser txout_text any.
Proof.
  destruct (s_writes 8 ltac:(lia)) as [S1 T1], script_writes as [S2 T2]. split.
  - intros a b _ H L. unfold txout_ser in H. wrote H p P. wrote H s Q. inversion H; subst. constructor; [apply S1|apply S2]; try exact I; try assumption; small.
  - intros a b' _ [p s P Q]. destruct (T1 _ _ I P) as (x & X & Lx), (T2 _ _ I Q) as (y & Y & Ly).
    exists (x ++ y). unfold txout_ser. rewrite X. cbn [bind]. rewrite Y. split; [reflexivity|lens].
Qed.
Lemma all_any {A} (l : list A) : Forall any l.
Proof. apply Forall_forall. intros. exact I. Qed.
Lemma tx_writes : writes tx_ser tx_text any.
Proof.
  destruct (s_writes 4 ltac:(lia)) as [S1 T1], (vector_writes _ _ _ txin_writes) as [S2 T2], (vector_writes _ _ _ txout_writes) as [S3 T3], (u_writes 4) as [S4 T4]. split.
  - intros a b _ H L. unfold tx_ser in H. wrote H p P. wrote H s Q. wrote H q R. wrote H r U. inversion H; subst.
    constructor; [apply S1|apply S2|apply S3|apply S4]; try exact I; try apply all_any; try assumption; small.
  - intros a b' _ [p s q r P Q R U]. destruct (T1 _ _ I P) as (x & X & Lx), (T2 _ _ (all_any _) Q) as (y & Y & Ly), (T3 _ _ (all_any _) R) as (z & Z & Lz), (T4 _ _ I U) as (w & W & Lw).
    exists (x ++ y ++ z ++ w). unfold tx_ser. rewrite X. cbn [bind]. rewrite Y. cbn [bind]. rewrite Z. cbn [bind]. rewrite W. split; [reflexivity|lens].
Qed.
Lemma header_writes : writes header_ser header_bytes any.
Proof.
  destruct (s_writes 4 ltac:(lia)) as [S1 T1], (u_writes 4) as [S4 T4]. split.
  - intros a b _ H L. unfold header_ser, assert in H. wrote H p P. destruct (blen (h_prev a) =? 32)%N eqn:Q1; [|discriminate]. cbn [bind] in H. destruct (blen (h_merkle a) =? 32)%N eqn:Q2; [|discriminate]. cbn [bind] in H.
    wrote H t T. wrote H k K. wrote H n Nn. inversion H; subst. unfold blen in Q1, Q2. constructor; try lia; try apply S1; try apply S4; try exact I; try assumption; small.
  - intros a b' _ X. destruct X as [v t k n P Q1 Q2 T K N]. destruct (T1 _ _ I P) as (x & X & Lx), (T4 _ _ I T) as (y & Y & Ly), (T4 _ _ I K) as (z & Z & Lz), (T4 _ _ I N) as (w & W & Lw).
    exists (x ++ h_prev a ++ h_merkle a ++ y ++ z ++ w). unfold header_ser, assert, blen. rewrite X, Q1, Q2. cbn [bind N.of_nat Pos.of_succ_nat Pos.succ N.eqb Pos.eqb]. rewrite Y. cbn [bind]. rewrite Z. cbn [bind]. rewrite W. split; [reflexivity|lens].
Qed.
Lemma block_writes : writes block_ser block_bytes any.
Proof.
  destruct header_writes as [S1 T1], (vector_writes _ _ _ tx_writes) as [S2 T2]. split.
  - intros a b _ H L. unfold block_ser in H. wrote H p P. wrote H s Q. inversion H; subst. constructor; [apply S1|apply S2]; try exact I; try apply all_any; try assumption; small.
  - intros a b' _ [p s P Q]. destruct (T1 _ _ I P) as (x & X & Lx), (T2 _ _ (all_any _) Q) as (y & Y & Ly).
    exists (x ++ y). unfold block_ser. rewrite X. cbn [bind]. rewrite Y. split; [reflexivity|lens].
Qed.

Definition ok_address (timed : bool) (a : address) : Prop := standard timed a /\ exists i, quad (a_ip a) i.

Lemma address_writes other timed : writes (address_ser other (negb timed)) (address_bytes timed) (ok_address timed).
Proof.
  destruct (u_writes 4) as [S1 T1], (u_writes 8) as [S2 T2], (u_writes 2) as [S3 T3]. unfold address_ser. split.
  - intros a b [St [i Q]] H L. split; [exact St|]. replace ((CADDR_TIME_VERSION <=? a_protover a)%Z && negb (negb timed)) with timed in H.
    2: { destruct St as [-> _]. destruct timed; reflexivity. }
    wrote H t T. wrote H s Sv. rewrite (aton_quad other _ _ Q) in H. cbn [bind] in H. wrote H p P. inversion H; subst. unfold pack_be16 in P. wrote P q R. inversion P; subst.
    constructor; [|apply pack_le, Sv|exact Q|rewrite rev_involutive; apply pack_le, R].
    destruct timed; [apply pack_le, T|inversion T; reflexivity].
  - intros a b' [St _] [_ [t s i p T S Q P]]. replace ((CADDR_TIME_VERSION <=? a_protover a)%Z && negb (negb timed)) with timed.
    2: { destruct St as [-> _]. destruct timed; reflexivity. }
    exists (t ++ s ++ a_pchReserved a ++ i ++ p). split; [|lia]. assert ((if timed then pack_u 4 (a_nTime a) else Ok []) = Ok t) as ->.
    { destruct timed; [apply pack_le, T|subst; reflexivity]. }
    cbn [bind]. apply pack_le in S, P. rewrite S. cbn [bind]. rewrite (aton_quad other _ _ Q). cbn [bind]. unfold pack_be16. rewrite P. cbn [bind]. rewrite rev_involutive. reflexivity.
Qed.

Definition ok_inv (v : inv) : Prop := List.length (v_hash v) = 32.
Lemma inv_writes : writes inv_ser inv_bytes ok_inv.
Proof.
  unfold inv_ser. split.
  - intros a b O H L. wrote H t T. inversion H; subst. constructor; [apply pack_le_signed; [lia|exact T]|exact O].
  - intros a b' O [t T Lh]. exists (t ++ v_hash a). apply pack_le_signed in T; [|lia]. rewrite T. split; [reflexivity|lia].
Qed.
Lemma hash_writes : writes uint256_ser hash_bytes any.
Proof.
  unfold uint256_ser, hash_bytes, assert, blen. split.
  - intros a b _ H _. destruct (_ =? 32)%N eqn:Q; [|discriminate]. inversion H; subst. split; [reflexivity|lia].
  - intros a b' _ [-> L]. exists a. rewrite L. split; [reflexivity|lia].
Qed.
Lemma hashes_writes : writes uint256s_ser (counted hash_bytes) any.
Proof. eapply writes_weaken; [|exact (vector_writes _ _ _ hash_writes)]. intros l _. apply all_any. Qed.
Lemma locator_writes : writes locator_ser locator_bytes any.
Proof.
  destruct (s_writes 4 ltac:(lia)) as [S1 T1], hashes_writes as [S2 T2]. unfold locator_ser. split.
  - intros a b _ H L. wrote H p P. wrote H s Q. inversion H; subst. constructor; [apply S1|apply S2]; try exact I; try assumption; small.
  - intros a b' _ [p s P Q]. destruct (T1 _ _ I P) as (x & X & Lx), (T2 _ _ I Q) as (y & Y & Ly).
    exists (x ++ y). rewrite X. cbn [bind]. rewrite Y. split; [reflexivity|lens].
Qed.
Lemma locate_writes : writes (fun p => locate_ser (fst p) (snd p)) (fun p => locate_bytes (fst p) (snd p)) (fun p => List.length (snd p) = 32).
Proof.
  destruct locator_writes as [S1 T1]. unfold locate_ser. split.
  - intros [l h] b O H L. cbn [fst snd] in *. wrote H p P. inversion H; subst. constructor; [apply S1; [exact I|exact P|small]|exact O].
  - intros [l h] b' O [p P Q]. cbn [fst snd] in *. destruct (T1 _ _ I P) as (x & X & Lx). exists (x ++ h). rewrite X. split; [reflexivity|lens].
Qed.
Lemma alert_writes : writes alert_ser alert_bytes any.
Proof.
  destruct varstring_writes as [S1 T1]. unfold alert_ser. split.
  - intros a b _ H L. wrote H p P. wrote H s Q. inversion H; subst. constructor; apply S1; try exact I; try assumption; small.
  - intros a b' _ [p s P Q]. destruct (T1 _ _ I P) as (x & X & Lx), (T1 _ _ I Q) as (y & Y & Ly).
    exists (x ++ y). rewrite X. cbn [bind]. rewrite Y. split; [reflexivity|lens].
Qed.

Definition ok_version (v : version) : Prop :=
  (209 <= n_nVersion v)%Z /\ n_nVersion v <> 10300%Z /\ ok_address false (n_addrTo v) /\ exists f, n_addrFrom v = Some f /\ ok_address false f.

Lemma version_writes other : writes (version_ser other) version_bytes ok_version.
Proof.
  destruct (s_writes 4 ltac:(lia)) as [S1 T1], (s_writes 8 ltac:(lia)) as [S2 T2], (u_writes 8) as [S3 T3], varstring_writes as [S4 T4], (address_writes other false) as [S5 T5].
  cbn [negb] in *. unfold version_ser. split.
  - intros v b (V & N & A & f & F & Af) H L. rewrite F in H. wrote H n Hn. wrote H s Hs. wrote H t Ht. wrote H a Ha. wrote H g Hg.
    destruct (n_nNonce v) as [c|] eqn:C; [|discriminate]. wrote H cb Hc. destruct (n_strSubVer v) as [u|] eqn:U; [|discriminate]. wrote H ub Hu.
    destruct (n_nStartingHeight v) as [h|] eqn:Hh; [|discriminate]. wrote H hb Hhb. inversion H; subst.
    apply (version_new v n (n_nVersion v) s t a f g c cb u ub h hb); try assumption.
    + right. auto.
    + apply S1; [exact I|exact Hn|small].
    + apply S3; [exact I|exact Hs|small].
    + apply S2; [exact I|exact Ht|small].
    + apply S5; [exact A|exact Ha|small].
    + apply S5; [exact Af|exact Hg|small].
    + apply S3; [exact I|exact Hc|small].
    + apply S4; [exact I|exact Hu|small].
    + apply S1; [exact I|exact Hhb|small].
  - intros v b' (V & N & A & f & F & Af) X. destruct X as [|? ? ? ? ? ? ? ? ? ? ? ? ?|n n0 s t a f' fb c cb u ub h hb An _ Hn Hs Ht Ha F' Hf C Hc U Hu Hh Hhb]; [lia|lia|].
    assert (f' = f) by congruence. subst f'. 
    assert (exists n', pack_s 4 (n_nVersion v) = Ok n' /\ List.length n' = List.length n) as (n' & Hn' & Ln).
    { destruct An as [[-> E]|[_ ->]].
      - rewrite E. eexists. split; [reflexivity|]. destruct Hn as [[Hn _] _]. rewrite Hn. reflexivity.
      - exists n. split; [apply pack_le_signed; [lia|exact Hn]|reflexivity]. }
    destruct (T3 _ _ I Hs) as (x1 & X1 & L1), (T2 _ _ I Ht) as (x2 & X2 & L2), (T5 _ _ A Ha) as (x3 & X3 & L3), (T5 _ _ Af Hf) as (x4 & X4 & L4),
      (T3 _ _ I Hc) as (x5 & X5 & L5), (T4 _ _ I Hu) as (x6 & X6 & L6), (T1 _ _ I Hhb) as (x7 & X7 & L7).
    exists (n' ++ x1 ++ x2 ++ x3 ++ x4 ++ x5 ++ x6 ++ x7). rewrite F, C, U, Hh, Hn'. cbn [bind]. rewrite X1. cbn [bind]. rewrite X2. cbn [bind]. rewrite X3. cbn [bind]. rewrite X4. cbn [bind].
    rewrite X5. cbn [bind]. rewrite X6. cbn [bind]. rewrite X7. split; [reflexivity|lens].
Qed.

(** ** Bodies *)

Lemma faithful_version v : faithful (MVersion v) <-> ok_version v.
Proof. unfold faithful, ok_version, ok_address. split; [intros (A & B & C & D & f & F & G & K)|intros (A & B & [C D] & f & F & G & K)]; eauto 10. Qed.

Lemma body_writes other : writes (msg_ser other) body_bytes faithful.
Proof.
  assert (WT : writes tx_ser tx_text any) by exact tx_writes. destruct WT as [St Tt], block_writes as [Sb Tb], (vector_writes _ _ _ block_writes) as [Sh Th],
    (vector_writes _ _ _ inv_writes) as [Si Ti], (vector_writes _ _ _ (address_writes other true)) as [Sa Ta], alert_writes as [Sl Tl], locate_writes as [So To],
    (version_writes other) as [Sv Tv], (u_writes 8) as [Sn Tn].
  split.
  - intros m b F H L. destruct m; cbn [msg_ser body_bytes] in *.
    + apply Sv; [apply faithful_version, F|exact H|exact L].
    + inversion H; reflexivity.
    + apply Sa; [exact F|exact H|exact L].
    + apply Sl; [exact I|exact H|exact L].
    + apply Si; [exact F|exact H|exact L].
    + apply Si; [exact F|exact H|exact L].
    + exact (So (l, hashstop) _ F H L).
    + exact (So (l, hashstop) _ F H L).
    + apply Sh; [apply all_any|exact H|exact L].
    + apply St; [exact I|exact H|exact L].
    + apply Sb; [exact I|exact H|exact L].
    + inversion H; reflexivity.
    + apply Sn; [exact I|exact H|exact L].
    + apply Sn; [exact I|exact H|exact L].
    + inversion H; reflexivity.
  - intros m b F H. destruct m; cbn [msg_ser body_bytes] in *.
    + apply Tv; [apply faithful_version, F|exact H].
    + subst. exists []. split; [reflexivity|cbn; lia].
    + apply Ta; [exact F|exact H].
    + apply Tl; [exact I|exact H].
    + apply Ti; [exact F|exact H].
    + apply Ti; [exact F|exact H].
    + exact (To (l, hashstop) _ F H).
    + exact (To (l, hashstop) _ F H).
    + apply Th; [apply all_any|exact H].
    + apply Tt; [exact I|exact H].
    + apply Tb; [exact I|exact H].
    + subst. exists []. split; [reflexivity|cbn; lia].
    + apply Tn; [exact I|exact H].
    + apply Tn; [exact I|exact H].
    + subst. exists []. split; [reflexivity|cbn; lia].
Qed.

(** Everything that is read is faithful, but for old version messages. *)

Lemma each_Forall {A} (g : A -> bytes -> Prop) (P : A -> Prop) : (forall a b, g a b -> P a) -> forall l b, each g l b -> Forall P l.
Proof. intros H l b E. induction E; constructor; eauto. Qed.
Lemma counted_Forall {A} (g : A -> bytes -> Prop) (P : A -> Prop) : (forall a b, g a b -> P a) -> forall l b, counted g l b -> Forall P l.
Proof. intros H l b [h x _ E]. eapply each_Forall; eassumption. Qed.
Lemma address_ok timed a b : address_bytes timed a b -> ok_address timed a.
Proof. intros [S [t s i p _ _ Q _]]. split; eauto. Qed.

Lemma version_not_10300 v b : version_bytes v b -> n_nVersion v <> 10300%Z.
Proof. intros X. destruct X as [? ? ? ? ? A|? ? ? ? ? ? ? ? ? ? ? A|? ? ? ? ? ? ? ? ? ? ? ? ? A]; destruct A as [[_ ->]|[N ->]]; lia. Qed.

Lemma body_faithful m b : body_bytes m b -> (faithful m <-> current m).
Proof.
  destruct m; cbn [body_bytes current]; try (intros _; cbn [faithful]; tauto).
  - intros X. rewrite faithful_version. split; [intros (V & _); exact V|]. intros V. pose proof (version_not_10300 _ _ X).
    destruct X as [|? ? ? ? ? ? ? ? ? ? ? ? ?|n n0 s t a f' fb c cb u ub h hb An _ Hn Hs Ht Ha F' Hf C Hc U Hu Hh Hhb]; [lia|lia|].
    split; [exact V|]. split; [assumption|]. split; [eapply address_ok, Ha|]. exists f'. split; [exact F'|]. eapply address_ok, Hf.
  - intros C. split; [auto|]. intros _. eapply counted_Forall in C; [exact C|]. intros a b' B. exact (address_ok _ _ _ B).
  - intros C. split; [auto|]. intros _. eapply counted_Forall in C; [exact C|]. intros a b' [t _ L]. exact L.
  - intros C. split; [auto|]. intros _. eapply counted_Forall in C; [exact C|]. intros a b' [t _ L]. exact L.
  - intros [x _ L]. split; [auto|]. intros _. exact L.
  - intros [x _ L]. split; [auto|]. intros _. exact L.
Qed.
