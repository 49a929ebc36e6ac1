From Coq Require Import ZifyBool ZifyNat ZifyN.
From Verif Require Import Base PySlice PySlice_Proofs Sha256 Serialize_Model Serialize_Spec Serialize_Proofs Tx_Model Tx_Spec Tx_Proofs Proof_Model Proof_Spec Proof_Proofs ProofHash_Proofs
  Mmr_Model Mmr_Spec Mmr_Proofs Merbinner_Model Merbinner_Spec Merbinner_Proofs MerbinnerHash_Proofs MerbinnerSubset_Proofs MbtChange_Spec MbtChange_Proofs MmrChange_Spec MmrChange_Proofs MbtSub_Proofs Truth_Spec Truth_Proofs.

(** What is given for an index is in the list. *)
Lemma getitem_listed : forall t i v l, getitem t i = Ok v -> items t = Ok l -> In v l.
Proof.
  induction t as [|w|a IHa b IHb n|k dh]; intros i v l E L; cbn [getitem items] in *; try discriminate E.
  - destruct (_ || _); [|discriminate]. inversion E; inversion L; subst. left. reflexivity.
  - destruct (items a) as [x|] eqn:Ea; [|discriminate]. cbn [bind] in L. destruct (items b) as [y|] eqn:Eb; [|discriminate]. cbn [bind] in L. injection L as <-.
    destruct (if (i <? 0)%Z then do n <- py_len n; Ok (n + i)%Z else Ok i) as [j|]; [|discriminate]. cbn [bind] in E. destruct (py_len n) as [m|]; [|discriminate]. cbn [bind] in E.
    destruct (negb _); [discriminate|]. destruct (mlen a) as [na|]; [|discriminate]. cbn [bind] in E. apply in_or_app.
    destruct (_ && _)%bool; [left; exact (IHa _ _ _ E eq_refl)|]. destruct (mlen b) as [nb|]; [|discriminate]. cbn [bind] in E.
    destruct (_ && _)%bool; [right; exact (IHb _ _ _ E eq_refl)|discriminate].
  - destruct k; try discriminate E; destruct (_ || _); discriminate E.
Qed.

(** With honest lengths a MMR is the list it lists. *)
Lemma counted_items : forall t l, items t = Ok l -> List.length l = count t.
Proof.
  induction t as [|w|a IHa b IHb n|k dh]; intros l E; cbn [items count] in *.
  - inversion E; reflexivity.
  - inversion E; reflexivity.
  - destruct (items a) as [x|]; [|discriminate]. cbn [bind] in E. destruct (items b) as [y|]; [|discriminate]. cbn [bind] in E. injection E as <-. rewrite app_length, (IHa x eq_refl), (IHb y eq_refl). reflexivity.
  - destruct k; try discriminate E; inversion E; reflexivity.
Qed.
Lemma counted_len : forall t l, items t = Ok l -> well_counted t -> fine (List.length l) -> mlen t = Ok (Z.of_nat (List.length l)).
Proof.
  intros t l E C F. rewrite (counted_items t l E) in *. destruct t as [|w|a b n|k dh]; cbn [count mlen well_counted] in *; try reflexivity.
  - destruct C as (_ & _ & ->). unfold py_len. unfold fine in F. destruct (Z.ltb_spec (Z.of_nat (count a + count b)) (2 ^ 63)); [reflexivity|lia].
  - destruct k; try discriminate E; reflexivity.
Qed.
Lemma counted_getitem : forall t l i, items t = Ok l -> well_counted t -> fine (List.length l) -> getitem t i = py_index l i.
Proof.
  induction t as [|w|a IHa b IHb n|k dh]; intros l i E C F.
  - cbn in E. injection E as <-. cbn [getitem]. symmetry. apply index_bounds. cbn. lia.
  - cbn in E. injection E as <-. cbn [getitem]. destruct (Z.eqb_spec i 0); [subst; reflexivity|]. destruct (Z.eqb_spec i (-1)); [subst; reflexivity|]. symmetry. apply index_bounds. cbn. lia.
  - pose proof (counted_len _ _ E C F) as LN. cbn [items] in E. destruct (items a) as [x|] eqn:Ea; [|discriminate]. cbn [bind] in E. destruct (items b) as [y|] eqn:Eb; [|discriminate]. cbn [bind] in E. injection E as <-.
    cbn [well_counted] in C. destruct C as (Ca & Cb & _). cbn [mlen] in LN. assert (Fx : fine (List.length x)) by (unfold fine in *; rewrite app_length in F; lia). assert (Fy : fine (List.length y)) by (unfold fine in *; rewrite app_length in F; lia).
    cbn [getitem]. rewrite LN, (counted_len a x Ea Ca Fx), (counted_len b y Eb Cb Fy). cbn [bind]. rewrite app_length, Nat2Z.inj_add.
    assert (G : forall j, (0 <= j < Z.of_nat (List.length x) + Z.of_nat (List.length y))%Z ->
      (if (0 <=? j)%Z && (j <? Z.of_nat (List.length x))%Z then getitem a j
       else if (Z.of_nat (List.length x) <=? j)%Z && (j <? Z.of_nat (List.length x) + Z.of_nat (List.length y))%Z then getitem b (j - Z.of_nat (List.length x)) else Err AssertionError) =
      match nth_error (x ++ y) (Z.to_nat j) with Some v => Ok v | None => Err IndexError end).
    { intros j Hj. destruct (Z.ltb_spec j (Z.of_nat (List.length x))).
      - replace (0 <=? j)%Z with true by lia. cbn [andb]. rewrite (IHa x j eq_refl Ca Fx). unfold py_index, znth. destruct (Z.ltb_spec j 0); [lia|]. destruct (Z.ltb_spec j 0); [lia|]. rewrite nth_error_app1 by lia. reflexivity.
      - rewrite andb_false_r. replace (Z.of_nat (List.length x) <=? j)%Z with true by lia. replace (j <? _)%Z with true by lia. cbn [andb].
        rewrite (IHb y _ eq_refl Cb Fy). unfold py_index, znth. destruct (Z.ltb_spec (j - Z.of_nat (List.length x)) 0); [lia|]. destruct (Z.ltb_spec (j - Z.of_nat (List.length x)) 0); [lia|]. rewrite nth_error_app2 by lia.
        replace (Z.to_nat j - List.length x)%nat with (Z.to_nat (j - Z.of_nat (List.length x))) by lia. reflexivity. }
    unfold py_index at 1, znth. rewrite app_length, Nat2Z.inj_add. set (nn := (Z.of_nat (List.length x) + Z.of_nat (List.length y))%Z) in *.
    destruct (Z.ltb_spec i 0); cbn [bind].
    + rewrite (Z.add_comm nn i). destruct (Z.ltb_spec (i + nn) 0).
      * replace (0 <=? i + nn)%Z with false by lia. reflexivity.
      * specialize (G (i + nn)%Z ltac:(lia)). replace (0 <=? i + nn)%Z with true in * by lia. replace (i + nn <? nn)%Z with true in * by lia. cbn [andb negb] in *. rewrite G. reflexivity.
    + destruct (Z.ltb_spec i 0); [lia|]. replace (0 <=? i)%Z with true by lia. destruct (Z.ltb_spec i nn); cbn [andb negb].
      * specialize (G i ltac:(lia)). replace (0 <=? i)%Z with true in G by lia. replace (i <? nn)%Z with true in G by lia. cbn [andb] in G. rewrite G. reflexivity.
      * destruct (nth_error (x ++ y) (Z.to_nat i)) eqn:X; [|reflexivity]. assert (nth_error (x ++ y) (Z.to_nat i) <> None) as Y by congruence. apply nth_error_Some in Y. rewrite app_length in Y. lia.
  - destruct k; try discriminate E. cbn in E. injection E as <-. cbn [getitem]. symmetry. apply index_bounds. cbn. lia.
Qed.

Lemma descend_some q : forall t, descend t q <> Ok [].
Proof.
  induction t as [|? ?|p l IHl r IHr|[] ?]; cbn [descend]; try discriminate. destruct (_ && _); [|discriminate]. destruct (bit q _) as [[]|]; cbn [bind]; try discriminate.
  - destruct (descend r q) as [x|]; cbn [bind]; try discriminate. intros E. injection E as E. destruct x; discriminate.
  - destruct (descend l q) as [x|]; cbn [bind]; try discriminate. intros E. injection E as E. destruct x; discriminate.
Qed.

(** What is given for a key is in the list. *)
Lemma descend_leaf : forall t q s k v, descend t q = Ok (TLeaf k v :: s) -> forall ks vs, tkeys t = Ok ks -> tvalues t = Ok vs -> In (k, v) (combine ks vs).
Proof.
  assert (LEN : forall t ks vs, tkeys t = Ok ks -> tvalues t = Ok vs -> List.length ks = List.length vs).
  { induction t as [|k v|p l IHl r IHr|k dh]; intros ks vs EK EV; cbn in EK, EV; try (inversion EK; inversion EV; reflexivity).
    - destruct (tkeys l) as [a|]; [|discriminate]. destruct (tvalues l) as [b|]; [|discriminate]. cbn [bind] in *. destruct (tkeys r) as [c|]; [|discriminate]. destruct (tvalues r) as [d|]; [|discriminate]. cbn [bind] in *.
      injection EK as <-. injection EV as <-. rewrite !app_length, (IHl a b eq_refl eq_refl), (IHr c d eq_refl eq_refl). reflexivity.
    - destruct k; try discriminate EK; inversion EK; inversion EV; reflexivity. }
  assert (APP : forall (a c b d : list val), List.length a = List.length b -> combine (a ++ c) (b ++ d) = combine a b ++ combine c d).
  { induction a as [|x a IH]; intros c [|y b] d E; try discriminate E; [reflexivity|]. cbn. f_equal. apply IH. cbn in E. congruence. }
  induction t as [|k0 v0|p l IHl r IHr|k0 dh]; intros q s k v E ks vs EK EV; cbn [descend] in E.
  - discriminate E.
  - inversion E; subst. cbn in EK, EV. inversion EK; inversion EV; subst. left. reflexivity.
  - cbn in EK, EV. destruct (tkeys l) as [a|] eqn:Ka; [|discriminate]. destruct (tvalues l) as [b|] eqn:Vb; [|discriminate]. cbn [bind] in *. destruct (tkeys r) as [c|] eqn:Kc; [|discriminate]. destruct (tvalues r) as [d|] eqn:Vd; [|discriminate]. cbn [bind] in *.
    injection EK as <-. injection EV as <-. rewrite (APP a c b d (LEN l a b Ka Vb)). apply in_or_app.
    destruct (_ && _); [|discriminate]. destruct (bit q (List.length p)) as [[]|]; cbn [bind] in E; [| |discriminate].
    + right. destruct (descend r q) as [[|x s']|] eqn:D; cbn [bind app] in E; [inversion E; subst|injection E as -> _; exact (IHr q s' k v D c d eq_refl eq_refl)|discriminate].
      exfalso. exact (descend_some _ _ D).
    + left. destruct (descend l q) as [[|x s']|] eqn:D; cbn [bind app] in E; [inversion E; subst|injection E as -> _; exact (IHl q s' k v D a b eq_refl eq_refl)|discriminate].
      exfalso. exact (descend_some _ _ D).
  - destruct k0; discriminate E.
Qed.
Lemma lookup_listed ct k2p t k v es : tgetitem ct k2p t k = Ok v -> titems t = Ok es -> exists k', In (k', v) es /\ py_eq ct k' k = Ok true.
Proof.
  intros E L. unfold tgetitem in E. destruct (descend t (k2p k)) as [[|c s]|] eqn:D; cbn [bind] in E; try discriminate E.
  destruct c as [|k' v'|p l r|[] dh]; cbn [key_of value_of bind] in E; try discriminate E. destruct (py_eq ct k' k) as [[]|[]] eqn:PE; cbn [bind] in E; try discriminate E. injection E as <-.
  exists k'. split; [|exact PE]. unfold titems in L. destruct (tkeys t) as [ks|] eqn:EK; [|discriminate]. cbn [bind] in L. destruct (tvalues t) as [vs|] eqn:EV; [|discriminate]. cbn [bind] in L. injection L as <-.
  exact (descend_leaf t _ _ _ _ D ks vs EK EV).
Qed.

(** With keys in their places, all that is listed is found. *)
Lemma keys_all : forall t ks, tkeys t = Ok ks -> keys_in t = ks.
Proof.
  induction t as [|k v|p l IHl r IHr|k dh]; intros ks E; cbn in *; try (inversion E; reflexivity).
  - destruct (tkeys l) as [a|]; [|discriminate]. cbn [bind] in E. destruct (tkeys r) as [b|]; [|discriminate]. cbn [bind] in E. injection E as <-. rewrite (IHl a eq_refl), (IHr b eq_refl). reflexivity.
  - destruct k; try discriminate E; inversion E; reflexivity.
Qed.
Lemma placed_descend k2p : forall t ks vs k v, tkeys t = Ok ks -> tvalues t = Ok vs -> well_placed k2p t -> In (k, v) (combine ks vs) ->
  exists s, descend t (k2p k) = Ok (TLeaf k v :: s).
Proof.
  assert (LEN : forall t ks vs, tkeys t = Ok ks -> tvalues t = Ok vs -> List.length ks = List.length vs).
  { induction t as [|k v|p l IHl r IHr|k dh]; intros ks vs EK EV; cbn in EK, EV; try (inversion EK; inversion EV; reflexivity).
    - destruct (tkeys l) as [a|]; [|discriminate]. destruct (tvalues l) as [b|]; [|discriminate]. cbn [bind] in *. destruct (tkeys r) as [c|]; [|discriminate]. destruct (tvalues r) as [d|]; [|discriminate]. cbn [bind] in *.
      injection EK as <-. injection EV as <-. rewrite !app_length, (IHl a b eq_refl eq_refl), (IHr c d eq_refl eq_refl). reflexivity.
    - destruct k; try discriminate EK; inversion EK; inversion EV; reflexivity. }
  assert (APP : forall (a c b d : list val), List.length a = List.length b -> combine (a ++ c) (b ++ d) = combine a b ++ combine c d).
  { induction a as [|x a IH]; intros c [|y b] d E; try discriminate E; [reflexivity|]. cbn. f_equal. apply IH. cbn in E. congruence. }
  assert (SW : forall p x, startswith (p ++ x) p = true) by (induction p as [|[] p IH]; intros x; cbn; auto).
  assert (BT : forall p (b : bool) x, bit (p ++ b :: x) (List.length p) = Ok b) by (intros p b x; unfold bit; rewrite nth_error_app2 by lia; rewrite Nat.sub_diag; reflexivity).
  assert (KEYS : forall t ks, tkeys t = Ok ks -> keys_in t = ks) by exact keys_all.
  induction t as [|k0 v0|p l IHl r IHr|k0 dh]; intros ks vs k v EK EV WP HIn.
  - cbn in EK. inversion EK; subst. contradiction HIn.
  - cbn in EK, EV. inversion EK; inversion EV; subst. cbn in HIn. destruct HIn as [E|[]]. inversion E; subst. cbn. eauto.
  - cbn in EK, EV. destruct (tkeys l) as [a|] eqn:Ka; [|discriminate]. destruct (tvalues l) as [b|] eqn:Vb; [|discriminate]. cbn [bind] in *. destruct (tkeys r) as [c|] eqn:Kc; [|discriminate]. destruct (tvalues r) as [d|] eqn:Vd; [|discriminate]. cbn [bind] in *.
    injection EK as <-. injection EV as <-. rewrite (APP a c b d (LEN l a b Ka Vb)) in HIn. cbn [well_placed] in WP. destruct WP as (PL & PR & WL & WR). rewrite (KEYS l a Ka) in PL. rewrite (KEYS r c Kc) in PR.
    cbn [descend]. apply in_app_or in HIn. destruct HIn as [HIn|HIn].
    + destruct (PL k (in_combine_l _ _ _ _ HIn)) as (x & Ex).
      destruct (IHl a b k v eq_refl eq_refl WL HIn) as (s & Es). rewrite Ex in *. rewrite SW, app_length, BT. cbn [List.length].
      replace (List.length p <=? List.length p + S (List.length x))%nat with true by (symmetry; apply Nat.leb_le; lia). cbn [andb bind]. rewrite Es. cbn [bind app]. eauto.
    + destruct (PR k (in_combine_l _ _ _ _ HIn)) as (x & Ex).
      destruct (IHr c d k v eq_refl eq_refl WR HIn) as (s & Es). rewrite Ex in *. rewrite SW, app_length, BT. cbn [List.length].
      replace (List.length p <=? List.length p + S (List.length x))%nat with true by (symmetry; apply Nat.leb_le; lia). cbn [andb bind]. rewrite Es. cbn [bind app]. eauto.
  - destruct k0; try discriminate EK. cbn in EK. inversion EK; subst. contradiction HIn.
Qed.

Lemma placed_lookup ct k2p t es k v : titems t = Ok es -> well_placed k2p t -> In (k, v) es -> py_eq ct k k = Ok true -> tgetitem ct k2p t k = Ok v.
Proof.
  intros L WP HIn PE. unfold titems in L. destruct (tkeys t) as [ks|] eqn:EK; [|discriminate]. cbn [bind] in L. destruct (tvalues t) as [vs|] eqn:EV; [|discriminate]. cbn [bind] in L. injection L as <-.
  destruct (placed_descend k2p t ks vs k v EK EV WP HIn) as (s & D). unfold tgetitem. rewrite D. cbn [bind key_of value_of]. rewrite PE. reflexivity.
Qed.
Lemma listed_len : forall t es, titems t = Ok es -> tlen t = Ok (List.length es).
Proof.
  intros t es L. unfold titems in L. destruct (tkeys t) as [ks|] eqn:EK; [|discriminate]. cbn [bind] in L. destruct (tvalues t) as [vs|] eqn:EV; [|discriminate]. cbn [bind] in L. injection L as <-.
  assert (G : forall t ks vs, tkeys t = Ok ks -> tvalues t = Ok vs -> tlen t = Ok (List.length ks) /\ List.length ks = List.length vs).
  { clear. induction t as [|k v|p l IHl r IHr|k dh]; intros ks vs EK EV; cbn in EK, EV; try (inversion EK; inversion EV; split; reflexivity).
    - destruct (tkeys l) as [a|]; [|discriminate]. destruct (tvalues l) as [b|]; [|discriminate]. cbn [bind] in *. destruct (tkeys r) as [c|]; [|discriminate]. destruct (tvalues r) as [d|]; [|discriminate]. cbn [bind] in *.
      injection EK as <-. injection EV as <-. destruct (IHl a b eq_refl eq_refl) as (A & A'). destruct (IHr c d eq_refl eq_refl) as (B & B'). cbn [tlen]. rewrite A, B. cbn [bind]. rewrite !app_length, A', B'. split; reflexivity.
    - destruct k; try discriminate EK; inversion EK; inversion EV; split; reflexivity. }
  destruct (G t ks vs EK EV) as (A & B). rewrite A, combine_length, <- B, Nat.min_id. reflexivity.
Qed.
