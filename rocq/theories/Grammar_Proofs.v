From Verif Require Import Base Bits_Model Bits_Spec Bits_Proofs Serialize_Model Serialize_Spec Serialize_Proofs
  Tx_Model Tx_Spec Tx_Proofs Proof_Model Proof_Spec Proof_Proofs ProofArrive_Proofs Grammar_Spec.
From Coq Require Import ZifyBool ZifyNat ZifyN.
Ltac Zify.zify_post_hook ::= Z.div_mod_to_equations.

Scheme spells_mut := Minimality for spells Sort Prop
  with spells_all_mut := Minimality for spells_all Sort Prop.

Lemma uint_read n h rest : uint n h -> read_varuint (h ++ rest) = Ok (n, rest).
Proof. intros [F V]. apply read_varuint_iff. exists h. auto. Qed.
Lemma read_uint s n rest : read_varuint s = Ok (n, rest) -> exists h, s = h ++ rest /\ uint n h.
Proof. intros H. apply read_varuint_iff in H. destruct H as (h & A & B & C). exists h. unfold uint. auto. Qed.

(** ** Transactions *)

(** [f] reads exactly the texts of [g]. *)
Definition reads {A} (f : bytes -> result (A * bytes)) (g : A -> bytes -> Prop) : Prop :=
  forall s a r, f s = Ok (a, r) <-> exists b, s = b ++ r /\ g a b.

Lemma little_dec b : little b = Z.of_N (le_dec b).
Proof. induction b as [|x b IH]; cbn [little le_dec]; [reflexivity|]. rewrite IH. lia. Qed.

Lemma ser_read_le4 n s b r : (n <= 64)%N -> (ser_read n s = Ok (b, r) <-> s = b ++ r /\ List.length b = N.to_nat n).
Proof.
  intros N. split.
  - intros H. apply ser_read_inv in H. destruct H as (-> & L & _). split; [reflexivity|]. unfold blen in L. lia.
  - intros [-> L]. apply ser_read_small; [unfold blen; lia|exact N].
Qed.

Lemma read_le k n s b r : (n <= 64)%N -> k = N.to_nat n -> ser_read n s = Ok (b, r) -> s = b ++ r /\ le k (Z.of_N (le_dec b)) b.
Proof. intros N -> H. apply ser_read_le4 in H; [|exact N]. destruct H as [-> L]. split; [reflexivity|]. split; [exact L|apply little_dec]. Qed.

Lemma le_read k n v b r : (n <= 64)%N -> k = N.to_nat n -> le k v b -> ser_read n (b ++ r) = Ok (b, r) /\ Z.of_N (le_dec b) = v.
Proof. intros N -> [L V]. split; [apply ser_read_le4; auto|]. rewrite <- little_dec. exact V. Qed.

Lemma le_bound k v b : le k v b -> (0 <= v < 2 ^ (8 * Z.of_nat k))%Z.
Proof.
  intros [L V]. rewrite little_dec in V. pose proof (le_dec_lt b) as B. unfold blen in B. rewrite L, pow_256 in B.
  assert (0 < 2 ^ (8 * Z.of_nat k))%Z by (apply Z.pow_pos_nonneg; lia). lia.
Qed.

Lemma le_signed_iff k v b : 0 < k -> (le_signed k v b <-> List.length b = k /\ unpack_s k b = v).
Proof.
  intros K. unfold le_signed. assert (E : (2 ^ (8 * Z.of_nat k) = 2 * 2 ^ (8 * Z.of_nat k - 1))%Z) by (rewrite <- Z.pow_succ_r by lia; f_equal; lia).
  assert (P : (0 < 2 ^ (8 * Z.of_nat k - 1))%Z) by (apply Z.pow_pos_nonneg; lia). rewrite E. set (h := (2 ^ (8 * Z.of_nat k - 1))%Z) in *. split.
  - intros [L B]. pose proof (le_bound _ _ _ L) as R. destruct L as [L V]. split; [exact L|]. rewrite little_dec in V. unfold unpack_s. fold h. rewrite V.
    destruct (Z_lt_le_dec v 0).
    + assert (v mod (2 * h) = v + 2 * h)%Z as -> by (symmetry; apply Z.mod_unique with (-1)%Z; lia). destruct (h <=? _)%Z eqn:Q; lia.
    + rewrite Z.mod_small by lia. destruct (h <=? _)%Z eqn:Q; lia.
  - intros [L U]. assert (Lb : le k (Z.of_N (le_dec b)) b) by (split; [exact L|apply little_dec]). pose proof (le_bound _ _ _ Lb) as R. rewrite E in R.
    unfold unpack_s in U. fold h in U. destruct (h <=? _)%Z eqn:Q.
    + assert (v mod (2 * h) = Z.of_N (le_dec b))%Z as -> by (symmetry; apply Z.mod_unique with (-1)%Z; lia). split; [exact Lb|lia].
    + rewrite Z.mod_small by lia. subst v. split; [exact Lb|lia].
Qed.

Lemma varint_reads : reads varint_de (fun n b => count (Z.of_N n) b).
Proof.
  intros s a r. unfold varint_de. split.
  - intros H. bind_ok H. apply ser_read_le4 in E; [|lia]. destruct E as [-> L]. destruct b as [|x [|]]; try discriminate L. cbn [le_dec] in H.
    replace (bN x + 256 * 0)%N with (bN x) in H by lia. pose proof (bN_lt x).
    destruct (bN x <? 0xfd)%N eqn:E1; [|destruct (bN x =? 0xfd)%N eqn:E2; [|destruct (bN x =? 0xfe)%N eqn:E3]].
    + inversion H; subst. exists [x]. split; [reflexivity|]. constructor; lia.
    + bind_ok H. inversion H; subst. apply (read_le 2) in E; [|lia|reflexivity]. destruct E as [-> E]. exists (x :: b). split; [reflexivity|].
      replace x with xfd by (apply bN_inj; cbn; lia). constructor. exact E.
    + bind_ok H. inversion H; subst. apply (read_le 4) in E; [|lia|reflexivity]. destruct E as [-> E]. exists (x :: b). split; [reflexivity|].
      replace x with xfe by (apply bN_inj; cbn; lia). constructor. exact E.
    + bind_ok H. inversion H; subst. apply (read_le 8) in E; [|lia|reflexivity]. destruct E as [-> E]. exists (x :: b). split; [reflexivity|].
      replace x with xff by (apply bN_inj; cbn; lia). constructor. exact E.
  - intros (b & -> & C). inversion C as [x X L|w L|w L|w L]; subst b.
    + assert (ser_read 1 ([x] ++ r) = Ok ([x], r)) as -> by (apply ser_read_le4; [lia|auto]). cbn [bind le_dec]. replace (bN x + 256 * 0)%N with a by lia.
      destruct (a <? 0xfd)%N eqn:E1; [reflexivity|lia].
    + assert (ser_read 1 ((xfd :: w) ++ r) = Ok ([xfd], w ++ r)) as -> by (apply ser_read_le4; [lia|auto]). cbn [bind le_dec]. change (bN xfd + 256 * 0)%N with 0xfd%N.
      change (0xfd <? 0xfd)%N with false. change (0xfd =? 0xfd)%N with true. cbv iota. destruct (le_read 2 2 _ w r ltac:(lia) eq_refl L) as [-> E]. cbn [bind]. do 2 f_equal. lia.
    + assert (ser_read 1 ((xfe :: w) ++ r) = Ok ([xfe], w ++ r)) as -> by (apply ser_read_le4; [lia|auto]). cbn [bind le_dec]. change (bN xfe + 256 * 0)%N with 0xfe%N.
      change (0xfe <? 0xfd)%N with false. change (0xfe =? 0xfd)%N with false. change (0xfe =? 0xfe)%N with true. cbv iota.
      destruct (le_read 4 4 _ w r ltac:(lia) eq_refl L) as [-> E]. cbn [bind]. do 2 f_equal. lia.
    + assert (ser_read 1 ((xff :: w) ++ r) = Ok ([xff], w ++ r)) as -> by (apply ser_read_le4; [lia|auto]). cbn [bind le_dec]. change (bN xff + 256 * 0)%N with 0xff%N.
      change (0xff <? 0xfd)%N with false. change (0xff =? 0xfd)%N with false. change (0xff =? 0xfe)%N with false. cbv iota.
      destruct (le_read 8 8 _ w r ltac:(lia) eq_refl L) as [-> E]. cbn [bind]. do 2 f_equal. lia.
Qed.

Lemma script_reads : reads bytes_de script_text.
Proof.
  intros s a r. unfold bytes_de. split.
  - intros H. bind_ok H. apply varint_reads in E. destruct E as (h & -> & C). apply ser_read_inv in H. destruct H as (-> & L & M).
    exists (h ++ a). rewrite app_assoc. split; [reflexivity|]. constructor; [rewrite L; exact C|]. unfold MAX_SIZE in M. lia.
  - intros (b & -> & T). destruct T as [h C M]. rewrite <- app_assoc. assert (varint_de (h ++ a ++ r) = Ok (blen a, a ++ r)) as ->.
    { apply varint_reads. eauto. } cbn [bind]. apply ser_read_app; [reflexivity|exact M].
Qed.

Lemma each_reads {A} f (g : A -> bytes -> Prop) : reads f g -> forall l b, each g l b -> forall fuel r, List.length l <= fuel ->
  objs_de f fuel (N.of_nat (List.length l)) (b ++ r) = Ok (l, r).
Proof.
  intros R l b E. induction E as [|a l b bs G E IH]; intros fuel r F.
  - destruct fuel; reflexivity.
  - destruct fuel as [|fuel]; [cbn in F; lia|]. cbn [objs_de List.length]. destruct (_ =? 0)%N eqn:Q; [lia|]. rewrite <- app_assoc.
    assert (f (b ++ bs ++ r) = Ok (a, bs ++ r)) as -> by (apply R; eauto). cbn [bind]. replace (N.of_nat (S (List.length l)) - 1)%N with (N.of_nat (List.length l)) by lia.
    rewrite IH by (cbn in F; lia). reflexivity.
Qed.

Lemma reads_each {A} f (g : A -> bytes -> Prop) : reads f g -> forall fuel n s l r, objs_de f fuel n s = Ok (l, r) ->
  N.of_nat (List.length l) = n /\ exists b, s = b ++ r /\ each g l b.
Proof.
  intros R. induction fuel as [|fuel IH]; intros n s l r H; cbn [objs_de] in H; destruct (n =? 0)%N eqn:Q; try discriminate H.
  - inversion H; subst. split; [cbn; lia|]. exists []. split; [reflexivity|constructor].
  - inversion H; subst. split; [cbn; lia|]. exists []. split; [reflexivity|constructor].
  - bind_ok H. bind_ok H. inversion H; subst. apply R in E. destruct E as (b' & -> & G). destruct (IH _ _ _ _ E0) as (L & bs & -> & Es).
    split; [cbn [List.length]; lia|]. exists (b' ++ bs). rewrite app_assoc. split; [reflexivity|]. constructor; assumption.
Qed.

Lemma each_len {A} (g : A -> bytes -> Prop) : (forall a, ~ g a []) -> forall l b, each g l b -> List.length l <= List.length b.
Proof.
  intros N l b E. induction E as [|a l b bs G E IH]; cbn [List.length]; [lia|]. rewrite app_length. destruct b; [exfalso; eapply N, G|]. cbn. lia.
Qed.

Lemma counted_reads {A} f (g : A -> bytes -> Prop) : reads f g -> (forall a, ~ g a []) -> reads (vector_de f) (counted g).
Proof.
  intros R NE s l r. unfold vector_de. split.
  - intros H. bind_ok H. apply varint_reads in E. destruct E as (h & -> & C). destruct (reads_each _ _ R _ _ _ _ _ H) as (L & b1 & -> & E).
    exists (h ++ b1). rewrite app_assoc. split; [reflexivity|]. constructor; [|exact E]. replace (Z.of_nat (List.length l)) with (Z.of_N n) by lia. exact C.
  - intros (b & -> & T). destruct T as [h b C E]. rewrite <- app_assoc. assert (varint_de (h ++ b ++ r) = Ok (N.of_nat (List.length l), b ++ r)) as ->.
    { apply varint_reads. exists h. split; [reflexivity|]. replace (Z.of_N (N.of_nat (List.length l))) with (Z.of_nat (List.length l)) by lia. exact C. }
    cbn [bind]. apply (each_reads f g R _ _ E). pose proof (each_len g NE _ _ E). rewrite app_length. lia.
Qed.

Lemma outpoint_reads : reads outpoint_de outpoint_text.
Proof.
  intros s o r. unfold outpoint_de. split.
  - intros H. bind_ok H. bind_ok H. apply ser_read_le4 in E; [|lia]. destruct E as [-> L]. apply (read_le 4) in E0; [|lia|reflexivity]. destruct E0 as [-> E0].
    unfold outpoint_new in H. destruct (negb _); [discriminate|]. destruct (negb _); [discriminate|]. cbn [bind] in H. inversion H; subst.
    exists (b ++ b1). rewrite <- app_assoc. split; [reflexivity|]. apply (outpoint_text_intro (mkOutPoint b _)); cbn [o_hash o_n]; assumption.
  - intros (b & -> & T). destruct T as [n L E]. rewrite <- app_assoc. assert (ser_read 32 (o_hash o ++ n ++ r) = Ok (o_hash o, n ++ r)) as -> by (apply ser_read_le4; [lia|auto]).
    cbn [bind]. destruct (le_read 4 4 _ n r ltac:(lia) eq_refl E) as [-> V]. cbn [bind]. rewrite V. pose proof (le_bound _ _ _ E) as B. change (2 ^ (8 * Z.of_nat 4))%Z with 0x100000000%Z in B.
    unfold outpoint_new. destruct (blen (o_hash o) =? 32)%N eqn:Q; [|unfold blen in Q; lia]. cbn [negb].
    destruct ((0 <=? o_n o) && (o_n o <=? 0xffffffff))%Z eqn:Q2; [|lia]. cbn [negb bind]. destruct o; reflexivity.
Qed.

Lemma txin_reads : reads txin_de txin_text.
Proof.
  intros s i r. unfold txin_de. split.
  - intros H. bind_ok H. bind_ok H. bind_ok H. apply outpoint_reads in E. destruct E as (p & -> & P). apply script_reads in E0. destruct E0 as (sc & -> & S).
    apply (read_le 4) in E1; [|lia|reflexivity]. destruct E1 as [-> E1]. unfold txin_new in H. destruct (negb _); [discriminate|]. cbn [bind] in H. inversion H; subst.
    exists (p ++ sc ++ b2). rewrite <- !app_assoc. split; [reflexivity|]. constructor; assumption.
  - intros (b & -> & T). destruct T as [p sc q P S Q]. rewrite <- !app_assoc. assert (outpoint_de (p ++ sc ++ q ++ r) = Ok (i_prevout i, sc ++ q ++ r)) as -> by (apply outpoint_reads; eauto).
    cbn [bind]. assert (bytes_de (sc ++ q ++ r) = Ok (i_scriptSig i, q ++ r)) as -> by (apply script_reads; eauto). cbn [bind].
    destruct (le_read 4 4 _ q r ltac:(lia) eq_refl Q) as [-> V]. cbn [bind]. rewrite V. pose proof (le_bound _ _ _ Q) as B. change (2 ^ (8 * Z.of_nat 4))%Z with 0x100000000%Z in B.
    unfold txin_new. destruct ((0 <=? i_nSequence i) && _)%Z eqn:Q2; [|lia]. cbn [negb bind]. destruct i; reflexivity.
Qed.

Lemma txout_reads : reads txout_de txout_text.
Proof.
  intros s o r. unfold txout_de. split.
  - intros H. bind_ok H. bind_ok H. inversion H; subst. apply ser_read_le4 in E; [|lia]. destruct E as [-> L]. apply script_reads in E0. destruct E0 as (sc & -> & S).
    exists (b ++ sc). rewrite <- app_assoc. split; [reflexivity|]. constructor; [|exact S]. apply le_signed_iff; [lia|]. split; [exact L|reflexivity].
  - intros (b & -> & T). destruct T as [v sc V S]. apply le_signed_iff in V; [|lia]. destruct V as [L V]. rewrite <- app_assoc.
    assert (ser_read 8 (v ++ sc ++ r) = Ok (v, sc ++ r)) as -> by (apply ser_read_le4; [lia|auto]). cbn [bind].
    assert (bytes_de (sc ++ r) = Ok (o_scriptPubKey o, r)) as -> by (apply script_reads; eauto). cbn [bind]. rewrite V. destruct o; reflexivity.
Qed.

Lemma txin_text_nonempty i : ~ txin_text i [].
Proof.
  intros H. inversion H as [p s q P S Q E]. destruct Q as [L _]. apply app_eq_nil in E. destruct E as [_ E]. apply app_eq_nil in E. destruct E as [_ ->]. discriminate L.
Qed.
Lemma txout_text_nonempty o : ~ txout_text o [].
Proof. intros H. inversion H as [v s V S E]. destruct V as [[L _] _]. apply app_eq_nil in E. destruct E as [-> _]. discriminate L. Qed.

Lemma tx_reads : reads tx_de tx_text.
Proof.
  pose proof (counted_reads _ _ txin_reads txin_text_nonempty) as RI. pose proof (counted_reads _ _ txout_reads txout_text_nonempty) as RO.
  intros s t r. unfold tx_de. split.
  - intros H. bind_ok H. bind_ok H. bind_ok H. bind_ok H. apply ser_read_le4 in E; [|lia]. destruct E as [-> L]. apply RI in E0. destruct E0 as (i & -> & I).
    apply RO in E1. destruct E1 as (o & -> & O). apply (read_le 4) in E2; [|lia|reflexivity]. destruct E2 as [-> E2].
    unfold tx_new in H. destruct (negb _); [discriminate|]. cbn [bind] in H. inversion H; subst.
    eexists. rewrite !app_assoc. split; [reflexivity|]. rewrite <- !app_assoc. constructor; cbn [t_nVersion t_vin t_vout t_nLockTime]; try assumption.
    apply le_signed_iff; [lia|]. split; [exact L|reflexivity].
  - intros (b & -> & T). destruct T as [v i o l V I O E]. rewrite <- !app_assoc. apply le_signed_iff in V; [|lia]. destruct V as [L V].
    assert (ser_read 4 (v ++ i ++ o ++ l ++ r) = Ok (v, i ++ o ++ l ++ r)) as -> by (apply ser_read_le4; [lia|auto]). cbn [bind].
    assert (vector_de txin_de (i ++ o ++ l ++ r) = Ok (t_vin t, o ++ l ++ r)) as -> by (apply RI; eauto). cbn [bind].
    assert (vector_de txout_de (o ++ l ++ r) = Ok (t_vout t, l ++ r)) as -> by (apply RO; eauto). cbn [bind].
    destruct (le_read 4 4 _ l r ltac:(lia) eq_refl E) as [-> Vl]. cbn [bind]. rewrite Vl, V. pose proof (le_bound _ _ _ E) as B. change (2 ^ (8 * Z.of_nat 4))%Z with 0x100000000%Z in B.
    unfold tx_new. destruct ((0 <=? t_nLockTime t) && _)%Z eqn:Q2; [|lia]. cbn [negb bind]. destruct t; reflexivity.
Qed.

Lemma reads_all {A} f (g : A -> bytes -> Prop) e a : reads f g -> (f e = Ok (a, []) <-> g a e).
Proof.
  intros R. rewrite (R e a []). split.
  - intros (b & -> & G). rewrite app_nil_r. exact G.
  - intros G. exists e. rewrite app_nil_r. auto.
Qed.

(** ** Leaves *)

Lemma bits_de_spell s r rest : bits_de s = Ok (r, rest) -> exists h p, s = h ++ p ++ rest /\ bits_ok r /\
  uint (N.of_nat (List.length (bits_of r))) h /\ List.length p = (List.length (bits_of r) + 7) / 8 /\
  bytes_bits p = bits_of r ++ repeat false (8 * List.length p - List.length (bits_of r)) /\ bits_survive (bits_of r).
Proof.
  intros H. assert (H0 := H). unfold bits_de in H. bind_ok H. destruct (read_uint _ _ _ E) as (h & -> & U). bind_ok H.
  apply fd_read_iff in E0. destruct E0 as [-> L].
  destruct (bits_from_bytes b0 (Some (Z.of_N n))) as [r'|] eqn:FB; cbn [bind] in H; [|discriminate].
  destruct (tail_bits r') as [t|] eqn:T; cbn [bind] in H; [|discriminate].
  destruct (match b0 with [] => _ | _ => _ end) as [l|] eqn:LB; cbn [bind] in H; [|discriminate].
  destruct (t =? l)%N eqn:EQ; cbn [assert bind] in H; [|discriminate]. inversion H; subst. clear H.
  pose proof (bits_from_bytes_any_ok _ _ _ FB) as Hok.
  assert (NB : b0 <> []) by (destruct b0; [discriminate|discriminate]).
  rewrite bits_from_bytes_spec in FB. destruct (_ && _)%Z eqn:BD; [|discriminate].
  assert (n <> 0)%N as NZ. { intros ->. cbn in L. destruct b0; [congruence|]. unfold blen in L. cbn in L. lia. }
  destruct (Z.of_N n =? 0)%Z eqn:Z0; [lia|]. injection FB as FB'.
  assert (BL : b_len r = N.to_nat n) by (rewrite <- FB'; cbn [b_len]; lia).
  assert (BB : b_buf r = b0) by (rewrite <- FB'; reflexivity). clear FB'.
  assert (LL : List.length b0 = b_len r / 8 + (if (b_len r mod 8 =? 0)%nat then 0 else 1)).
  { unfold blen in L. destruct (n mod 8 =? 0)%N eqn:E1; destruct (b_len r mod 8 =? 0)%nat eqn:E2; lia. }
  destruct (bits_ser_spec r Hok) as (p & S & SL & SB).
  assert (P : p = b0).
  { unfold bits_ser in S. unfold full_width_prefix in S. rewrite BB in S. destruct (b_len r mod 8 =? 0)%nat eqn:E2.
    - assert (p = firstn (b_len r / 8) b0) as -> by (injection S as S'; apply app_inv_head in S'; auto). apply firstn_all2. lia.
    - rewrite T in S. cbn [bind] in S. destruct (pybyte t) as [x|] eqn:PB; [|discriminate]. cbn [bind] in S. injection S as S'.
      rewrite <- app_assoc in S'. apply app_inv_head in S'. rewrite <- S'. clear S' SB.
      destruct b0 as [|y b1 _] using rev_ind; [congruence|]. assert (bN y = l).
      { rewrite List.last_last in LB. destruct (b1 ++ [y]) eqn:Q; [destruct b1; discriminate|]. congruence. }
      rewrite app_length in LL. cbn [List.length] in LL. change (fst (Nat.divmod (b_len r) 7 0 7)) with (b_len r / 8). rewrite firstn_app.
      rewrite (firstn_all2 b1) by lia.
      replace (b_len r / 8 - List.length b1) with 0 by lia. cbn [firstn]. rewrite app_nil_r. f_equal. f_equal.
      apply bN_inj. pose proof (bN_lt y). rewrite pybyte_ok in PB by lia. injection PB as <-. rewrite bN_Nb_small by lia. lia. }
  subst p. pose proof (bits_of_length r Hok) as HB. exists h, b0. split; [reflexivity|]. split; [exact Hok|].
  split; [replace (N.of_nat (List.length (bits_of r))) with n by lia; exact U|].
  split; [rewrite LL, HB; destruct (b_len r mod 8 =? 0)%nat eqn:E2; lia|]. split; [rewrite HB; exact SB|].
  destruct (bits_roundtrip r rest Hok) as (enc & S' & C). rewrite S in S'. inversion S'; subst enc. clear S'.
  assert (D : bits_de ((write_varuint (Z.of_nat (b_len r)) ++ b0) ++ rest) = Ok (r, rest)).
  { rewrite <- app_assoc. rewrite <- H0. unfold bits_de. rewrite read_write_varuint by lia. rewrite (uint_read _ _ _ U). cbn [bind].
    replace (Z.to_N (Z.of_nat (b_len r))) with n by lia. reflexivity. }
  destruct C as [[C _]|[(_ & _ & C)|(_ & _ & C)]]; [exact C|congruence|congruence].
Qed.

Lemma bits_of_payload (l : list bool) p : List.length p = (List.length l + 7) / 8 ->
  bytes_bits p = l ++ repeat false (8 * List.length p - List.length l) -> exists b, bits_ok b /\ bits_of b = l /\ bits_ser b = Ok (write_varuint (Z.of_nat (List.length l)) ++ p).
Proof.
  intros L B. destruct (bits_from_bytes_ok p (List.length l)) as (b & _ & Ok1 & BL & BO); [lia|].
  rewrite B, firstn_app, firstn_all, Nat.sub_diag in BO. cbn [firstn] in BO. rewrite app_nil_r in BO.
  exists b. split; [exact Ok1|]. split; [exact BO|]. destruct (bits_ser_spec b Ok1) as (q & S & SL & SB).
  rewrite S, BL. do 2 f_equal. apply bytes_bits_inj. rewrite SB, B, BO, BL. do 2 f_equal.
  assert (List.length q = List.length p); [|lia]. rewrite SL, L, BL. destruct (List.length l mod 8 =? 0) eqn:E; lia.
Qed.

Lemma spell_bits_de l h p rest : uint (N.of_nat (List.length l)) h -> List.length p = (List.length l + 7) / 8 ->
  bytes_bits p = l ++ repeat false (8 * List.length p - List.length l) -> bits_survive l ->
  exists r, bits_de (h ++ p ++ rest) = Ok (r, rest) /\ bits_ok r /\ bits_of r = l.
Proof.
  intros U L B S. destruct (bits_of_payload l p L B) as (b & Hok & BO & SR).
  destruct (bits_roundtrip b rest Hok) as (enc & E & C). rewrite SR in E. inversion E; subst enc. rewrite BO in C.
  destruct C as [(_ & r & D & R1 & R2)|[(N & _)|(N & _)]]; [|contradiction|contradiction].
  exists r. split; [|auto]. rewrite <- D, <- app_assoc. unfold bits_de. rewrite read_write_varuint by lia. rewrite (uint_read _ _ _ U). cbn [bind].
  replace (Z.to_N (Z.of_nat (List.length l))) with (N.of_nat (List.length l)) by lia. reflexivity.
Qed.

Lemma bits_back r : bits_ok r -> exists l, bits_iter r = Ok l /\ map (fun n => negb (n =? 0)%N) l = bits_of r.
Proof.
  intros H. rewrite bits_iter_spec by exact H. eexists. split; [reflexivity|]. rewrite map_map. rewrite <- (map_id (bits_of r)) at 2.
  apply map_ext. intros []; reflexivity.
Qed.

Lemma de_prefixed_spell {A} (f : bytes -> result (A * bytes)) s a r : de_prefixed f s = Ok (a, r) ->
  exists h e, s = h ++ e ++ r /\ uint (blen e) h /\ f e = Ok (a, []).
Proof.
  unfold de_prefixed, bdeserialize. intros H. bind_ok H. destruct (read_uint _ _ _ E) as (h & -> & U). bind_ok H.
  apply fd_read_iff in E0. destruct E0 as [-> L]. destruct (f b0) as [[x y]|] eqn:E1; cbn [bind] in H; [|discriminate].
  destruct y; cbn [bind] in H; [|discriminate]. inversion H; subst. exists h, b0. auto.
Qed.

Lemma spell_de_prefixed {A} (f : bytes -> result (A * bytes)) h e a rest : uint (blen e) h -> f e = Ok (a, []) ->
  de_prefixed f ((h ++ e) ++ rest) = Ok (a, rest).
Proof.
  intros U F. unfold de_prefixed, bdeserialize. rewrite <- app_assoc, (uint_read _ _ _ U). cbn [bind]. rewrite fd_read_app. cbn [bind]. rewrite F. reflexivity.
Qed.

Lemma de_leaf_spell ct sr s v r : de_leaf sr s = Ok (v, r) -> exists b, s = b ++ r /\ spells ct sr v b.
Proof.
  intros H. destruct sr; cbn [de_leaf] in H; try discriminate H.
  - bind_ok H. inversion H; subst. clear H. destruct s0; cbn [prim_de] in E.
    + bind_ok E. inversion E; subst. apply read_bool_ok in E0. subst. destruct b; eexists; (split; [reflexivity|constructor]).
    + bind_ok E. inversion E; subst. apply fd_read_iff in E0. destruct E0 as [-> L]. eexists. split; [reflexivity|]. constructor. exact L.
    + bind_ok E. destruct ((mn <=? n) && (n <=? mx))%N eqn:B; [|discriminate]. bind_ok E. inversion E; subst.
      destruct (read_uint _ _ _ E0) as (h & -> & U). apply fd_read_iff in E1. destruct E1 as [-> L]. exists (h ++ b0). rewrite app_assoc. split; [reflexivity|].
      subst n. constructor; [exact U|lia].
    + bind_ok E. destruct ((0 <=? _) && (_ <=? mx))%Z eqn:B; [|discriminate]. inversion E; subst.
      destruct (read_uint _ _ _ E0) as (h & -> & U). exists h. split; [reflexivity|]. constructor; [exact U|lia].
  - bind_ok H. destruct (bits_de_spell _ _ _ E) as (h & p & -> & Hok & U & L & B & S).
    destruct (bits_back _ Hok) as (l & EL & M). rewrite EL in H. cbn [bind] in H. inversion H; subst. rewrite M in *.
    exists (h ++ p). rewrite app_assoc. split; [reflexivity|]. constructor; assumption.
  - bind_ok H. inversion H; subst. destruct (de_prefixed_spell _ _ _ _ E) as (h & e & -> & U & F). exists (h ++ e). rewrite app_assoc. split; [reflexivity|]. constructor; [exact U|].
    apply (reads_all _ _ _ _ tx_reads), F.
  - bind_ok H. inversion H; subst. destruct (de_prefixed_spell _ _ _ _ E) as (h & e & -> & U & F). exists (h ++ e). rewrite app_assoc. split; [reflexivity|]. constructor; [exact U|].
    apply (reads_all _ _ _ _ outpoint_reads), F.
Qed.

(** ** The constructor *)

Lemma existsb_one_of ct u v : existsb (isinst ct v) u = true <-> one_of ct u v.
Proof.
  unfold one_of, isinst. rewrite existsb_exists. split.
  - intros (m & M & I). destruct (class_of v) as [k|]; [|discriminate]. apply existsb_exists in I. destruct I as (m' & M' & E).
    apply Nat.eqb_eq in E. subst. eauto.
  - intros (k & m & E & M & I). exists m. split; [exact M|]. rewrite E. apply existsb_exists. exists m. split; [exact I|apply Nat.eqb_refl].
Qed.

Lemma check_admitted ct sr v : check ct sr v = Ok tt -> admitted ct sr v.
Proof.
  destruct sr; cbn [check admitted]; auto.
  - destruct (c_kind (ct c)) as [|u]; [auto|]. destruct (existsb (isinst ct v) u) eqn:E; [|discriminate]. intros _. apply existsb_one_of, E.
  - destruct (existsb (isinst ct v) cs) eqn:E; [|discriminate]. intros _. apply existsb_one_of, E.
Qed.

Lemma admitted_check ct sr v b : spells ct sr v b -> admitted ct sr v -> check ct sr v = Ok tt.
Proof.
  intros S A. destruct sr; cbn [check admitted] in *; auto.
  - inversion S; subst; cbn [to_py prim_check]; auto.
    + rewrite N.eqb_refl. reflexivity.
    + destruct ((mn <=? blen d) && (blen d <=? mx))%N eqn:E; [reflexivity|lia].
    + destruct ((0 <=? Z.of_N n) && (Z.of_N n <=? mx))%Z eqn:E; [reflexivity|lia].
  - inversion S; reflexivity.
  - inversion S; reflexivity.
  - destruct (c_kind (ct c)) as [|u]; [reflexivity|]. apply existsb_one_of in A. rewrite A. reflexivity.
  - apply existsb_one_of in A. rewrite A. reflexivity.
Qed.

Lemma spells_is_proof ct c v b : spells ct (SerProof c) v b -> is_proof v = true.
Proof. intros S. inversion S; reflexivity. Qed.

(** ** Reading gives what is spelled *)

Lemma number_read u i s : match (if (i <? N.of_nat (List.length u))%N then nth_error u (N.to_nat i) else None) with Some x => Ok (x, s) | None => @Err (cid * bytes) NameError end =
  match nth_error u (N.to_nat i) with Some x => Ok (x, s) | None => Err NameError end.
Proof. destruct (i <? N.of_nat (List.length u))%N eqn:E; [reflexivity|]. destruct (nth_error u (N.to_nat i)) eqn:E2; [|reflexivity].
  assert (nth_error u (N.to_nat i) <> None) as X by congruence. apply nth_error_Some in X. lia. Qed.

Lemma de_spells ct : wf_table ct -> forall fuel c s v r, de_proof ct fuel c s = Ok (v, r) -> exists b, s = b ++ r /\ spells ct (SerProof c) v b.
Proof.
  intros W. induction fuel as [|fuel IH]; intros c s v r H; [discriminate H|]. rewrite de_proof_S in H. bind_ok H. apply read_bool_ok in E. subst. destruct b.
  - bind_ok H. inversion H; subst. apply fd_read_iff in E. destruct E as [-> L].
    exists (xff :: b). split; [reflexivity|]. constructor. unfold blen in L. lia.
  - destruct (match c_kind (ct c) with Plain => _ | Variant _ => _ end) as [[uc s1]|] eqn:U; cbn [bind] in H; [|discriminate].
    assert (D : exists ix, b0 = ix ++ s1 /\ chosen ct c uc ix).
    { destruct (c_kind (ct c)) as [|u] eqn:K; [inversion U; subst; exists []; split; [reflexivity|constructor; exact K]|]. bind_ok U.
      rewrite number_read in U. destruct (nth_error u (N.to_nat n)) as [x|] eqn:X; [|discriminate]. inversion U; subst.
      destruct (read_uint _ _ _ E) as (h & -> & Uh). exists h. split; [reflexivity|]. eapply chosen_variant; eauto. rewrite N2Nat.id. exact Uh. }
    destruct D as (ix & -> & CH).
    destruct (de_fields ct fuel (c_attrs (ct uc)) s1) as [[kw s2]|] eqn:F; cbn [bind] in H; [|discriminate].
    destruct (construct ct uc kw) as [p|] eqn:C; cbn [bind] in H; [|discriminate]. inversion H; subst p r. clear H.
    assert (K : forall attrs s kw r, de_fields ct fuel attrs s = Ok (kw, r) ->
      exists fs body, kw = combine (map fst attrs) fs /\ List.length fs = List.length attrs /\ s = body ++ r /\
        ((forall i name sr x, nth_error attrs i = Some (name, sr) -> nth_error fs i = Some x -> check ct sr x = Ok tt) -> spells_all ct attrs fs body)).
    { clear - IH. induction attrs as [|[n sr] attrs IHa]; intros s kw r H; cbn [de_fields] in H.
      - inversion H; subst. exists [], []. repeat split; auto. intros _. constructor.
      - bind_ok H. bind_ok H. inversion H; subst. destruct (IHa _ _ _ E0) as (fs & body & -> & L & -> & A).
        assert (exists b, s = b ++ (body ++ r) /\ spells ct sr v b) as (bb & -> & Sp).
        { destruct sr; cbn [de_val] in E; try (eapply de_leaf_spell, E).
          - eapply IH, E.
          - bind_ok E. destruct (if (_ <? _)%N then _ else _) as [m|] eqn:X; [|discriminate].
            destruct (read_uint _ _ _ E1) as (h & -> & Uh). destruct (IH _ _ _ _ E) as (bb & -> & Sp). exists (h ++ bb). rewrite app_assoc. split; [reflexivity|].
            apply sp_union with (i := N.to_nat n0) (c := m); [|rewrite N2Nat.id; exact Uh|exact Sp]. destruct (_ <? _)%N; [exact X|discriminate]. }
        exists (v :: fs), (bb ++ body). split; [reflexivity|]. split; [cbn; congruence|]. split; [rewrite app_assoc; reflexivity|].
        intros Ck. constructor; [exact Sp| |].
        + apply check_admitted. apply (Ck 0 n sr v); reflexivity.
        + apply A. intros i name sr0 x X Y. apply (Ck (S i) name sr0 x); assumption. }
    destruct (K _ _ _ _ F) as (fs & body & -> & L & -> & A). clear K F. unfold construct in C.
    destruct (construct_loop ct (c_attrs (ct uc)) _) as [fs'|] eqn:CL; cbn [bind] in C; [|discriminate]. inversion C; subst v. clear C.
    destruct (construct_loop_checks _ _ _ _ CL) as (L' & Ck).
    assert (Q : forall i name sr x, nth_error (c_attrs (ct uc)) i = Some (name, sr) -> nth_error fs i = Some x -> nth_error fs' i = Some x /\ check ct sr x = Ok tt).
    { intros i name sr x X Y. destruct (Ck i name sr X) as (y & Hy & As & Cy).
      rewrite (assoc_combine _ fs (wf_names ct W uc) ltac:(rewrite map_length; congruence) i name x) in As; [|rewrite nth_error_map, X; reflexivity|exact Y].
      inversion As; subst. auto. }
    assert (fs' = fs) as ->.
    { clear - Q L L'. revert Q L L'. generalize (c_attrs (ct uc)). intros attrs Q L L'.
      assert (forall i, nth_error fs' i = nth_error fs i) as N.
      { intros i. destruct (nth_error fs i) as [x|] eqn:X.
        - destruct (nth_error attrs i) as [[name sr]|] eqn:Y; [apply (Q i name sr x Y X)|]. apply nth_error_None in Y. assert (nth_error fs i <> None) as Z by congruence. apply nth_error_Some in Z. lia.
        - apply nth_error_None in X. apply nth_error_None. lia. }
      clear - N. revert fs N. induction fs' as [|a l IH]; intros [|b m] N; auto; try (specialize (N 0); discriminate).
      f_equal; [specialize (N 0); cbn in N; congruence|]. apply IH. intros i. apply (N (S i)). }
    exists (x00 :: ix ++ body). split; [cbn [app]; rewrite <- app_assoc; reflexivity|]. apply sp_full; [exact CH|]. apply A. intros i name sr x X Y. apply (Q i name sr x X Y).
Qed.

(** ** What is spelled can be read *)

Lemma nth_chosen {A} (u : list A) i x : nth_error u i = Some x ->
  (if (N.of_nat i <? N.of_nat (List.length u))%N then nth_error u (N.to_nat (N.of_nat i)) else None) = Some x.
Proof.
  intros H. assert (nth_error u i <> None) as X by congruence. apply nth_error_Some in X. destruct (_ <? _)%N eqn:E; [|lia]. rewrite Nat2N.id. exact H.
Qed.

Lemma construct_spelled ct uc fs body : wf_table ct -> spells_all ct (c_attrs (ct uc)) fs body ->
  construct ct uc (combine (map fst (c_attrs (ct uc))) fs) = Ok (PFull uc fs).
Proof.
  intros W S. unfold construct. pose proof (wf_names ct W uc) as ND. revert ND S. generalize (c_attrs (ct uc)) as attrs. intros attrs ND S.
  assert (G : forall attrs fs body, spells_all ct attrs fs body -> forall kw, NoDup (map fst attrs) ->
    (forall i name x, nth_error (map fst attrs) i = Some name -> nth_error fs i = Some x -> assoc name kw = Some x) ->
    construct_loop ct attrs kw = Ok fs).
  { clear. intros attrs fs body S. induction S as [|name sr attrs v fs b bs Sv Ad S IH]; intros kw ND A; [reflexivity|].
    cbn [construct_loop]. rewrite (A 0 name v) by reflexivity. cbn [bind]. rewrite (admitted_check _ _ _ _ Sv Ad). cbn [bind].
    assert ((match sr with SerProof _ => if is_proof v then Ok tt else Err AttributeError | _ => Ok tt end) = Ok tt) as ->.
    { destruct sr; try reflexivity. rewrite (spells_is_proof _ _ _ _ Sv). reflexivity. }
    cbn [bind]. inversion ND; subst. rewrite IH; [reflexivity|assumption|]. intros i n x N X. apply (A (Datatypes.S i) n x); assumption. }
  rewrite (G attrs fs body S); [reflexivity|exact ND|].
  intros i name x N X. apply (assoc_combine _ fs ND) with i; auto. rewrite map_length. clear - S. induction S; cbn; congruence.
Qed.

Lemma spells_de ct : wf_table ct -> forall sr v b, spells ct sr v b ->
  exists F, forall fuel rest, F <= fuel -> de_val ct fuel sr (b ++ rest) = Ok (v, rest).
Proof.
  intros W. apply (spells_mut ct (fun sr v b => exists F, forall fuel rest, F <= fuel -> de_val ct fuel sr (b ++ rest) = Ok (v, rest))
    (fun attrs fs b => exists F, forall fuel rest, F <= fuel -> de_fields ct fuel attrs (b ++ rest) = Ok (combine (map fst attrs) fs, rest))).
  - exists 0. intros fuel rest _. cbn [de_val de_leaf prim_de].
    change (xff :: nil) with (write_bool true). rewrite read_bool_write. reflexivity.
  - exists 0. intros fuel rest _. cbn [de_val de_leaf prim_de].
    change (x00 :: nil) with (write_bool false). rewrite read_bool_write. reflexivity.
  - intros n d L. exists 0. intros fuel rest _. cbn [de_val de_leaf prim_de]. rewrite fd_read_app_n by auto. reflexivity.
  - intros mn mx h d U B. exists 0. intros fuel rest _. cbn [de_val de_leaf prim_de]. rewrite <- app_assoc, (uint_read _ _ _ U). cbn [bind].
    destruct ((mn <=? blen d) && (blen d <=? mx))%N eqn:E; [|lia]. rewrite fd_read_app. reflexivity.
  - intros mx n h U B. exists 0. intros fuel rest _. cbn [de_val de_leaf prim_de]. rewrite (uint_read _ _ _ U). cbn [bind].
    destruct ((0 <=? Z.of_N n) && (Z.of_N n <=? mx))%Z eqn:E; [reflexivity|lia].
  - intros l h p U L B S. exists 0. intros fuel rest _. cbn [de_val de_leaf]. destruct (spell_bits_de l h p rest U L B S) as (r & D & Hok & BO).
    rewrite <- app_assoc, D. cbn [bind]. destruct (bits_back r Hok) as (bl & E & M). rewrite E. cbn [bind]. rewrite M, BO. reflexivity.
  - intros t h e U F. exists 0. intros fuel rest _. cbn [de_val de_leaf]. apply (reads_all _ _ _ _ tx_reads) in F. rewrite (spell_de_prefixed tx_de h e t rest U F). reflexivity.
  - intros o h e U F. exists 0. intros fuel rest _. cbn [de_val de_leaf]. apply (reads_all _ _ _ _ outpoint_reads) in F. rewrite (spell_de_prefixed outpoint_de h e o rest U F). reflexivity.
  - intros c dh L. exists 1. intros [|fuel] rest Hf; [lia|]. cbn [de_val app]. rewrite de_proof_S.
    change (xff :: dh ++ rest) with (write_bool true ++ (dh ++ rest)). rewrite read_bool_write. cbn [bind].
    rewrite fd_read_app_n by (unfold blen; lia). reflexivity.
  - intros c uc ix fs body CH S (F & IH). exists (Datatypes.S F). intros [|fuel] rest Hf; [lia|]. cbn [de_val app]. rewrite de_proof_S.
    change (x00 :: (ix ++ body) ++ rest) with (write_bool false ++ ((ix ++ body) ++ rest)). rewrite read_bool_write. cbn [bind].
    rewrite <- app_assoc.
    match goal with |- bind ?x _ = _ => assert (x = Ok (uc, body ++ rest)) as ->; [|] end.
    { destruct CH as [K|u i uc ix K N U]; rewrite K; [reflexivity|]. rewrite (uint_read _ _ _ U). cbn [bind]. rewrite (nth_chosen u i uc N). reflexivity. }
    cbn [bind]. rewrite IH by lia. cbn [bind]. rewrite (construct_spelled ct uc fs body W S). reflexivity.
  - intros cs i c h v b N U S (F & IH). exists F. intros fuel rest Hf. cbn [de_val]. rewrite <- app_assoc, (uint_read _ _ _ U). cbn [bind].
    rewrite (nth_chosen cs i c N). apply IH. exact Hf.
  - exists 0. reflexivity.
  - intros name sr attrs v fs b bs S (F1 & H1) A SA (F2 & H2). exists (F1 + F2). intros fuel rest Hf. cbn [de_fields]. rewrite <- app_assoc, H1 by lia. cbn [bind].
    rewrite H2 by lia. reflexivity.
Qed.

Lemma de_class_grammar ct c s v rest : wf_table ct ->
  (de_class ct c s = Ok (v, rest) <-> exists b, s = b ++ rest /\ spells ct (SerProof c) v b).
Proof.
  intros W. split; [apply de_spells, W|]. intros (b & -> & S). destruct (spells_de ct W _ _ _ S) as (F & H).
  apply (de_class_any ct c _ F). intros fuel Hf. apply (H fuel rest Hf).
Qed.

Lemma deserialize_grammar ct c buf v : wf_table ct ->
  (deserialize ct c buf = Ok v <-> exists b pad, buf = b ++ pad /\ spells ct (SerProof c) v b).
Proof.
  intros W. unfold deserialize. split.
  - intros H. bind_ok H. inversion H; subst. apply de_class_grammar in E; [|exact W]. destruct E as (bb & -> & S). eauto.
  - intros (b & pad & -> & S). assert (E : de_class ct c (b ++ pad) = Ok (v, pad)) by (apply de_class_grammar; eauto). rewrite E. reflexivity.
Qed.

(** One spelling, one value and one end. *)
Lemma spells_unique ct c v1 v2 b1 b2 r1 r2 : wf_table ct -> spells ct (SerProof c) v1 b1 -> spells ct (SerProof c) v2 b2 ->
  b1 ++ r1 = b2 ++ r2 -> v1 = v2 /\ r1 = r2 /\ b1 = b2.
Proof.
  intros W S1 S2 E. assert (D1 : de_class ct c (b1 ++ r1) = Ok (v1, r1)) by (apply de_class_grammar; eauto).
  assert (D2 : de_class ct c (b2 ++ r2) = Ok (v2, r2)) by (apply de_class_grammar; eauto).
  rewrite E, D2 in D1. inversion D1; subst. apply app_inv_tail in E. auto.
Qed.
