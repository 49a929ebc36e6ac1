(** Proofs about the cost of lookup, [put] and [remove]. *)
From Verif Require Import Base Serialize_Model Proof_Model Proof_Spec Merbinner_Model Merbinner_Spec Merbinner_Proofs MmrCost_Model MmrCost_Proofs MbtCost_Model.
From Coq Require Import ZifyBool ZifyNat ZifyN.

(** ** The count changes nothing *)
Section Same.
Context (ct : ctable) (M : mbt_classes) (k2p : val -> list bool).
Lemma cdescend_descend p : forall t, fst (cdescend t p) = descend t p.
Proof.
  induction t as [|k v|q l IHl r IHr|k dh]; cbn [cdescend descend]; rewrite call_fst; try reflexivity; [|destruct k; reflexivity].
  destruct (_ && _); [|reflexivity]. apply cthen_fst; [reflexivity|]. intros []; (apply cthen_fst; [assumption|reflexivity]).
Qed.
Lemma cgetitem_getitem t k : fst (cgetitem ct k2p t k) = tgetitem ct k2p t k.
Proof.
  unfold cgetitem, tgetitem. rewrite call_fst. apply cthen_fst; [apply cdescend_descend|]. intros [|c s]; [reflexivity|].
  match goal with |- fst (match ?x with _ => _ end) = _ => destruct x as [[v|]|[]] end; reflexivity.
Qed.
Lemma crebuild_rebuild chk : forall s tip, fst (crebuild ct M k2p chk tip s) = rebuild ct M k2p chk tip s.
Proof. induction s as [|x s IH]; intros tip; [reflexivity|]. cbn [crebuild rebuild]. apply cthen_fst; [reflexivity|]. intros _. apply cthen_fst; [reflexivity|]. exact IH. Qed.
Lemma cput_put t k v : fst (cput ct M k2p t k v) = put ct M k2p t k v.
Proof.
  unfold cput, put. rewrite call_fst. apply cthen_fst; [reflexivity|]. intros nl. apply cthen_fst; [reflexivity|]. intros p. apply cthen_fst; [apply cdescend_descend|].
  intros [|c s]; [reflexivity|]. destruct (bkind_eqb _ _); [reflexivity|]. apply cthen_fst; [reflexivity|]. intros tip. apply crebuild_rebuild.
Qed.
Lemma cremove_remove t k : fst (cremove ct M k2p t k) = remove ct M k2p t k.
Proof.
  unfold cremove, remove. rewrite call_fst. apply cthen_fst; [apply cdescend_descend|]. intros [|c s]; [reflexivity|]. destruct (bkind_eqb _ _); [|reflexivity].
  apply cthen_fst; [reflexivity|]. intros k'. apply cthen_fst; [reflexivity|]. intros []; [|reflexivity]. destruct s; [reflexivity|]. apply crebuild_rebuild.
Qed.

(** ** The count *)
Lemma cthen_le {A B} (c : counted A) (f : A -> counted B) a b : snd c <= a -> (forall x, fst c = Ok x -> snd (f x) <= b) -> snd (cthen c f) <= a + b.
Proof. destruct c as [[x|e] k]; cbn; intros H F; [|lia]. specialize (F x eq_refl). destruct (f x). cbn in *. lia. Qed.
Lemma cdescend_length p : forall t l, fst (cdescend t p) = Ok l -> List.length l = snd (cdescend t p).
Proof.
  induction t as [|k v|q l IHl r IHr|k dh]; intros s; cbn [cdescend]; rewrite call_fst, call_snd; try (intros E; injection E as <-; reflexivity).
  - destruct (_ && _); [|intros E; injection E as <-; reflexivity]. destruct (bit p (List.length q)) as [b|]; [|discriminate].
    rewrite (cthen_ok _ _ b) by reflexivity. cbn [free cthen fst snd Nat.add].
    destruct b; [destruct (cdescend r p) as [[s'|] k]|destruct (cdescend l p) as [[s'|] k]]; cbn [cthen free fst snd] in *; try discriminate; intros E; injection E as <-;
      rewrite app_length; [rewrite (IHr s' eq_refl)|rewrite (IHl s' eq_refl)]; cbn; lia.
  - destruct k; try discriminate; intros E; injection E as <-; reflexivity.
Qed.
Lemma crebuild_le chk : forall s tip, snd (crebuild ct M k2p chk tip s) <= List.length s.
Proof.
  induction s as [|x s IH]; intros tip; [reflexivity|]. cbn [crebuild List.length]. apply (cthen_le _ _ 0 (S (List.length s))); [cbn; lia|]. intros _ _.
  apply (cthen_le _ _ 1 (List.length s)); [cbn; lia|]. intros y _. apply IH.
Qed.
End Same.

Section C.
Context (ct : ctable) (M : mbt_classes) (ks vs : ser) (k2p : val -> list bool) (K : val -> Prop) (n : nat) (W : wf_table ct) (I : is_mbt ct M ks vs) (G : good_keys ct k2p K n).

Lemma descend_le k d : K k -> forall t, radix k2p K t ->
  (forall k' v, In (k', v) (entries t) -> k' <> k -> List.length (common_prefix (k2p k') (k2p k)) < d) -> snd (cdescend t (k2p k)) <= S (d - List.length (pre k2p t)).
Proof.
  intros Kk. induction t as [|k' v'|p l IHl r IHr|kd dh]; intros R Hd; try (inversion R; fail); cbn [cdescend]; rewrite call_snd; [cbn; lia|]. apply le_n_S.
  inversion R as [|? ? ? Rl Rr Hl Hr]; subst. pose proof (inner_short ct k2p K n G _ _ _ R) as Lp. pose proof (gk_len _ _ _ _ G k Kk) as Lk. cbn [entries] in Hd.
  destruct ((_ <=? _) && startswith (k2p k) p) eqn:S; [|cbn; lia]. apply andb_prop in S as (_ & S). apply startswith_spec in S as (rest & E).
  destruct rest as [|b s]; [rewrite E, app_length in Lk; cbn in Lk; lia|]. cbn [pre].
  assert (CH : forall b t', radix k2p K t' -> (forall k v, In (k, v) (entries t') -> starts (p ++ [b]) (k2p k)) -> S (List.length p) <= List.length (pre k2p t')).
  { intros b' t' R' HD. pose proof (radix_longest k2p K t' (p ++ [b']) R' HD) as X. apply starts_len in X. rewrite app_length in X. cbn in X. lia. }
  assert (CD : forall t', radix k2p K t' -> (forall k v, In (k, v) (entries t') -> starts (p ++ [negb b]) (k2p k)) ->
               (forall k' v, In (k', v) (entries t') -> k' <> k -> List.length (common_prefix (k2p k') (k2p k)) < d) -> List.length p < d).
  { intros t' R' HD Hd'. destruct (radix_some k2p K t' R') as (k' & v' & I'). pose proof (HD _ _ I') as X. apply starts_bit in X as (s' & X).
    assert (N : k' <> k) by (intros ->; rewrite E in X; apply app_inv_head in X; inversion X; destruct b; discriminate).
    specialize (Hd' _ _ I' N). rewrite X, E in Hd'. rewrite common_prefix_app in Hd' by (destruct b; discriminate). exact Hd'. }
  assert (bit (k2p k) (List.length p) = Ok b) as -> by (rewrite E; apply bit_app).
  apply (cthen_le _ _ 0 (d - List.length p)); [cbn; lia|]. intros b' Eb. cbn in Eb. injection Eb as <-. destruct b.
  - pose proof (CH true r Rr Hr) as Cr. assert (Lpd : List.length p < d) by (apply (CD l Rl Hl); intros k' v' X; apply (Hd k' v'); apply in_or_app; left; exact X).
    rewrite <- (Nat.add_0_r (d - _)). apply cthen_le; [|cbn; lia]. specialize (IHr Rr). unfold lt in *. eapply Nat.le_trans; [apply IHr; intros k' v' X; apply (Hd k' v'); apply in_or_app; right; exact X|]. lia.
  - pose proof (CH false l Rl Hl) as Cl. assert (Lpd : List.length p < d) by (apply (CD r Rr Hr); intros k' v' X; apply (Hd k' v'); apply in_or_app; right; exact X).
    rewrite <- (Nat.add_0_r (d - _)). apply cthen_le; [|cbn; lia]. specialize (IHl Rl). unfold lt in *. eapply Nat.le_trans; [apply IHl; intros k' v' X; apply (Hd k' v'); apply in_or_app; left; exact X|]. lia.
Qed.
Lemma descend_tree_le k d t : K k -> tree k2p K t ->
  (forall k' v, In (k', v) (entries t) -> k' <> k -> List.length (common_prefix (k2p k') (k2p k)) < d) -> snd (cdescend t (k2p k)) <= S d.
Proof. intros Kk [-> |R] Hd; [cbn; lia|]. pose proof (descend_le k d Kk t R Hd). lia. Qed.

Lemma getitem_le k d t : snd (cdescend t (k2p k)) <= S d -> snd (cgetitem ct k2p t k) <= d + 2.
Proof.
  intros H. unfold cgetitem. rewrite call_snd. replace (d + 2) with (S (S d + 0)) by lia. apply le_n_S. apply cthen_le; [exact H|]. intros [|c s] _; [cbn; lia|].
  match goal with |- snd (match ?x with _ => _ end) <= _ => destruct x as [[v|]|[]] end; cbn; lia.
Qed.
Lemma put_le k v d t : snd (cdescend t (k2p k)) <= S d -> snd (cput ct M k2p t k v) <= 2 * d + 4.
Proof.
  intros H. unfold cput. rewrite call_snd. replace (2 * d + 4) with (S (1 + (0 + (S d + S d)))) by lia. apply le_n_S. apply cthen_le; [cbn; lia|]. intros nl En.
  apply cthen_le; [cbn; lia|]. intros p Ep. assert (p = k2p k) as ->.
  { cbn in En. unfold tleaf_new in En. destruct (construct _ _ _); [|discriminate]. cbn [bind] in En. injection En as <-. cbn in Ep. congruence. }
  apply cthen_le; [exact H|]. intros s Es. pose proof (cdescend_length _ _ _ Es) as Ls. destruct s as [|c s]; [cbn; lia|]. cbn [List.length] in Ls. destruct (bkind_eqb _ _); [cbn; lia|].
  apply (cthen_le _ _ 1 d); [cbn; lia|]. intros tip _. pose proof (crebuild_le ct M k2p (fun _ => Ok tt) s tip). lia.
Qed.
Lemma remove_le k d t : snd (cdescend t (k2p k)) <= S d -> snd (cremove ct M k2p t k) <= 2 * d + 3.
Proof.
  intros H. unfold cremove. rewrite call_snd. replace (2 * d + 3) with (S (S d + S d)) by lia. apply le_n_S. apply cthen_le; [exact H|]. intros s Es. pose proof (cdescend_length _ _ _ Es) as Ls.
  destruct s as [|c s]; [cbn; lia|]. cbn [List.length] in Ls. destruct (bkind_eqb _ _); [|cbn; lia]. apply (cthen_le _ _ 0 (S d)); [cbn; lia|]. intros k' _. apply (cthen_le _ _ 0 (S d)); [cbn; lia|]. intros [] _; [|cbn; lia].
  destruct s as [|tip s]; [cbn; lia|]. cbn [List.length] in Ls. pose proof (crebuild_le ct M k2p (fun s => assert (negb (bkind_eqb (bkind_of s) BEmpty))) s tip). lia.
Qed.
End C.
