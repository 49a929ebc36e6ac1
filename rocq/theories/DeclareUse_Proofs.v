(** What C184 says follows from the invariant of Declare_Proofs.v. *)
From Verif Require Import Base Sha256 Serialize_Model Serialize_Spec Serialize_Proofs Proof_Model Proof_Spec Mmr_Model Mmr_Spec Merbinner_Model Merbinner_Spec Chain_Model Chain_Spec Gumap_Model Gumap_Spec
  Declare_Model Declare_Spec Declare_Proofs.
Local Open Scope string_scope.
Local Open Scope list_scope.

Lemma declared_inv ds w : declared_by ds w -> inv w.
Proof.
  induction 1 as [|ds w d w' D IH S E]; [apply inv_library|]. destruct (good_step w d IH S) as (w2 & E2 & _ & (x & ->) & G). rewrite E in E2. injection E2 as ->.
  destruct IH as (_ & R0 & R1 & R2). split; [exact G|]. split; [|split]; apply root_app; assumption.
Qed.
Lemma declared_tables ds w : declared_by ds w -> wf_table (table_of w) /\ variant_table (table_of w) /\ wf_tags (table_of w).
Proof. intros D. apply good_wf, (declared_inv ds w D). Qed.
Lemma declared_runs ds w d : declared_by ds w -> sensible w d -> exists w', declare w d = Ok w'.
Proof. intros D S. destruct (good_step w d (declared_inv ds w D) S) as (w' & E & _). exists w'. exact E. Qed.
Lemma declared_kept ds w d w' : declared_by ds w -> sensible w d -> declare w d = Ok w' ->
  List.length w < List.length w' /\ forall c, c < List.length w -> table_of w' c = table_of w c.
Proof.
  intros D S E. pose proof (declared_inv ds w D) as V. destruct (good_step w d V S) as (w2 & E2 & A & (x & Ex) & _). rewrite E in E2. injection E2 as <-. split.
  - destruct d; cbn [added] in A; [destruct A as (k & ->)|destruct A as (k & ->)|destruct A as (t & _ & ->)..]; unfold family; rewrite app_length; cbn [List.length]; lia.
  - intros c L. rewrite Ex. apply table_app; [apply V|exact L].
Qed.

Definition fam_at (T : ctable) (n : cid) r t a1 s1 a2 s2 a3 s3 : Prop :=
  T n = mkClass [] (Variant (kin n)) (HTag (Some t)) [n; r] /\
  T (n + 1) = mkClass a1 (Variant (kin n)) (HTag (Some (tag_derive s1 t))) [n + 1; n; r] /\
  T (n + 2) = mkClass a2 (Variant (kin n)) (HTag (Some (tag_derive s2 t))) [n + 2; n; r] /\
  T (n + 3) = mkClass a3 (Variant (kin n)) (HTag (Some (tag_derive s3 t))) [n + 3; n; r].
Lemma family_at w r t a1 s1 a2 s2 a3 s3 : inv w -> root w r -> fam_at (table_of (family w r t a1 s1 a2 s2 a3 s3)) (List.length w) r t a1 s1 a2 s2 a3 s3.
Proof.
  intros ((Cl & _) & _) R. unfold fam_at. refine (conj (family_base w r t a1 s1 a2 s2 a3 s3 Cl R) _).
  refine (conj (family_variant w r t a1 s1 a2 s2 a3 s3 0 a1 s1 Cl R eq_refl) _).
  exact (conj (family_variant w r t a1 s1 a2 s2 a3 s3 1 a2 s2 Cl R eq_refl) (family_variant w r t a1 s1 a2 s2 a3 s3 2 a3 s3 Cl R eq_refl)).
Qed.
Lemma fam_at_same T T' n r t a1 s1 a2 s2 a3 s3 : (forall c, c < n + 4 -> T' c = T c) -> fam_at T n r t a1 s1 a2 s2 a3 s3 -> fam_at T' n r t a1 s1 a2 s2 a3 s3.
Proof. intros A (X0 & X1 & X2 & X3). unfold fam_at. rewrite !A by lia. exact (conj X0 (conj X1 (conj X2 X3))). Qed.

(** The family that a declaration makes. *)
Definition made (T : ctable) (n : cid) (d : decl) : Prop :=
  match d with
  | DMmr _ tag value => exists t, tag = Some t /\ fam_at T n MMR t [] (uuid "390de307-8787-47b7-b25d-250aba02b1e5") [("value", value)] (uuid "4ea09c8e-87f5-4978-a829-78d42ab8638a")
      [("left", SerProof n); ("right", SerProof n); ("length", SerPrim UInt64)] (uuid "a7ca25ce-8fee-4063-b022-96b2dbcb392e")
  | DMbt _ tag key value => exists t, tag = Some t /\ fam_at T n MBT t [] (uuid "ca380e10-c7d5-44df-aef0-55bce2125329") [("key", key); ("value", value)] (uuid "f5cc855e-9d21-4f8d-ab42-7883c765c323")
      [("prefix", SerBits); ("left", SerProof n); ("right", SerProof n)] (uuid "66d74741-0ffd-4178-9a79-641a45e23dda")
  | DGumap _ tag fseal fwit seal wit key value =>
      (exists t, tag = Some t /\ fam_at T n GUMAP t [("prefix", SerBits); ("seal", SerUnion [fseal; seal])] (uuid "dae47bef-d9a3-4971-a6a4-1c67c5f02c11")
      [("witness", SerUnion [fwit; wit]); ("key", key); ("value", value)] (uuid "0c60f344-9109-4930-aec1-432c5750fcba")
      [("prefix", SerBits); ("witness", SerUnion [fwit; wit]); ("left", SerProof n); ("right", SerProof n)] (uuid "6893cac7-e834-49cd-8e95-77707b0499b5"))
      /\ c_kind (T seal) = Plain /\ c_kind (T wit) = Plain /\ fwit <> wit
  | _ => True
  end.
Definition is_family (d : decl) : Prop := match d with DClass _ _ _ | DTx _ => False | _ => True end.

Lemma made_in ds w : declared_by ds w -> forall d, In d ds -> is_family d -> exists n, n + 4 <= List.length w /\ made (table_of w) n d.
Proof.
  induction 1 as [|ds w d w' D IH S E]; intros d0 I0 F0; [destruct I0|]. pose proof (declared_inv ds w D) as V.
  destruct (declared_kept ds w d w' D S E) as (L & Kp). apply in_app_or in I0. destruct I0 as [I0|[->|[]]].
  - destruct (IH d0 I0 F0) as (n & Ln & M). exists n. split; [lia|]. pose proof (proj1 V) as G.
    assert (A : forall c, c < n + 4 -> table_of w' c = table_of w c) by (intros c Lc; apply Kp; lia).
    destruct d0 as [?|?|b tag value|b tag key value|b tag fseal fwit seal wit key value]; cbn [is_family made] in *; try destruct F0.
    + destruct M as (t & Et & M). exists t. split; [exact Et|]. exact (fam_at_same _ _ _ _ _ _ _ _ _ _ _ A M).
    + destruct M as (t & Et & M). exists t. split; [exact Et|]. exact (fam_at_same _ _ _ _ _ _ _ _ _ _ _ A M).
    + destruct M as ((t & Et & M) & Ps & Pw & Q). split; [exists t; split; [exact Et|exact (fam_at_same _ _ _ _ _ _ _ _ _ _ _ A M)]|].
      assert (RF : refers (table_of w) (List.length w) (SerUnion [fseal; seal]) /\ refers (table_of w) (List.length w) (SerUnion [fwit; wit])).
      { destruct M as (_ & M1 & M2 & _). split.
        - pose proof (ok_refs _ _ _ (proj2 G (n + 1) ltac:(lia))) as F. rewrite M1 in F. cbn [c_attrs] in F. rewrite Forall_forall in F. apply (F ("seal", SerUnion [fseal; seal])). right. left. reflexivity.
        - pose proof (ok_refs _ _ _ (proj2 G (n + 2) ltac:(lia))) as F. rewrite M2 in F. cbn [c_attrs] in F. rewrite Forall_forall in F. apply (F ("witness", SerUnion [fwit; wit])). left. reflexivity. }
      destruct RF as ((R1 & _) & (R2 & _)). rewrite (Kp seal), (Kp wit); [exact (conj Ps (conj Pw Q))| |].
      * apply (R2 wit). right. left. reflexivity.
      * apply (R1 seal). right. left. reflexivity.
  - destruct (good_step w d0 V S) as (w2 & E2 & A & _ & G2). rewrite E in E2. injection E2 as <-. exists (List.length w). split.
    { destruct d0; cbn [is_family added] in *; try destruct F0; destruct A as (t & _ & ->); unfold family; rewrite app_length; cbn [List.length]; lia. }
    pose proof V as (G & R0 & R1 & R2).
    destruct d0 as [?|?|b tag value|b tag key value|b tag fseal fwit seal wit key value]; cbn [is_family made added] in *; try destruct F0.
    + destruct A as (t & Et & ->). exists t. split; [exact Et|]. apply family_at; assumption.
    + destruct A as (t & Et & ->). exists t. split; [exact Et|]. apply family_at; assumption.
    + cbn [sensible] in S. destruct S as (_ & (S1 & _) & (S2 & S2') & _).
      destruct (S1 seal ltac:(right; left; reflexivity)) as (B1 & K1). destruct (S2 wit ltac:(right; left; reflexivity)) as (B2 & K2). rewrite (Kp seal B1), (Kp wit B2).
      destruct A as (t & Et & ->). split; [exists t; split; [exact Et|]; apply family_at; assumption|]. refine (conj K1 (conj K2 _)). intros ->.
      destruct (S2' 1 0 wit wit ltac:(lia) eq_refl eq_refl) as (X & _). apply X, (ok_self _ _ _ (proj2 G wit B2)).
Qed.

Lemma kin_distinct n : NoDup [n; n + 1; n + 2; n + 3].
Proof. repeat (constructor; [cbn [In]; lia|]). constructor. Qed.
Lemma fam_kinds T n r t a1 s1 a2 s2 a3 s3 : fam_at T n r t a1 s1 a2 s2 a3 s3 -> forall c, In c [n; n + 1; n + 2; n + 3] -> c_kind (T c) = Variant [n + 1; n + 2; n + 3].
Proof. intros (X0 & X1 & X2 & X3) c [<-|[<-|[<-|[<-|[]]]]]; rewrite ?X0, ?X1, ?X2, ?X3; reflexivity. Qed.

Lemma declared_mmr ds w b tag value : declared_by ds w -> In (DMmr b tag value) ds ->
  exists t M, tag = Some t /\ is_mmr (table_of w) M value /\ subclass (table_of w) (m_base M) MMR /\
    c_hash (table_of w (m_base M)) = HTag (Some t) /\
    c_hash (table_of w (m_empty M)) = HTag (Some (tag_derive (uuid "390de307-8787-47b7-b25d-250aba02b1e5") t)) /\
    c_hash (table_of w (m_leaf M)) = HTag (Some (tag_derive (uuid "4ea09c8e-87f5-4978-a829-78d42ab8638a") t)) /\
    c_hash (table_of w (m_inner M)) = HTag (Some (tag_derive (uuid "a7ca25ce-8fee-4063-b022-96b2dbcb392e") t)).
Proof.
  intros D I. destruct (made_in ds w D _ I Logic.I) as (n & _ & t & Et & F). exists t, (MmrClasses n (n + 1) (n + 2) (n + 3)). split; [exact Et|].
  pose proof F as (X0 & X1 & X2 & X3). cbn [m_base m_empty m_leaf m_inner]. split.
  - constructor; cbn [m_base m_empty m_leaf m_inner]; rewrite ?X1, ?X2, ?X3; try reflexivity; [exact (fam_kinds _ _ _ _ _ _ _ _ _ _ F)|apply kin_distinct].
  - unfold subclass. rewrite X0, X1, X2, X3. cbn [c_hash c_supers]. repeat split. right. left. reflexivity.
Qed.
Lemma declared_mbt ds w b tag key value : declared_by ds w -> In (DMbt b tag key value) ds ->
  exists t M, tag = Some t /\ is_mbt (table_of w) M key value /\ subclass (table_of w) (b_base M) MBT /\
    c_hash (table_of w (b_base M)) = HTag (Some t) /\
    c_hash (table_of w (b_empty M)) = HTag (Some (tag_derive (uuid "ca380e10-c7d5-44df-aef0-55bce2125329") t)) /\
    c_hash (table_of w (b_leaf M)) = HTag (Some (tag_derive (uuid "f5cc855e-9d21-4f8d-ab42-7883c765c323") t)) /\
    c_hash (table_of w (b_inner M)) = HTag (Some (tag_derive (uuid "66d74741-0ffd-4178-9a79-641a45e23dda") t)).
Proof.
  intros D I. destruct (made_in ds w D _ I Logic.I) as (n & _ & t & Et & F). exists t, (MbtClasses n (n + 1) (n + 2) (n + 3)). split; [exact Et|].
  pose proof F as (X0 & X1 & X2 & X3). cbn [b_base b_empty b_leaf b_inner]. split.
  - constructor; cbn [b_base b_empty b_leaf b_inner]; rewrite ?X1, ?X2, ?X3; try reflexivity; [exact (fam_kinds _ _ _ _ _ _ _ _ _ _ F)|apply kin_distinct].
  - unfold subclass. rewrite X0, X1, X2, X3. cbn [c_hash c_supers]. repeat split. right. left. reflexivity.
Qed.
Lemma declared_gumap ds w b tag P seal wit key value pre ver : declared_by ds w -> In (DGumap b tag (p_fseal P) (p_fwit P) seal wit key value) ds ->
  In ("seal", SerProof seal) (c_attrs (table_of w wit)) ->
  exists t n, tag = Some t /\ let G := Gumap n (n + 1) (n + 2) (n + 3) key value seal wit pre ver in
    (leaf_tag (tag_derive (uuid "0c60f344-9109-4930-aec1-432c5750fcba") t) <> inner_tag (tag_derive (uuid "6893cac7-e834-49cd-8e95-77707b0499b5") t) -> is_gumap (table_of w) P G) /\
    subclass (table_of w) n GUMAP /\ c_hash (table_of w n) = HTag (Some t).
Proof.
  intros D I Sl. destruct (made_in ds w D _ I Logic.I) as (n & _ & (t & Et & F) & Ks & Kw & Q). exists t, n. split; [exact Et|].
  pose proof F as (X0 & X1 & X2 & X3). cbv zeta. split.
  - intros TD. constructor; cbn [g_base g_unused g_leaf g_inner g_key g_value g_seal g_wit].
    + rewrite X1. reflexivity.
    + rewrite X2. reflexivity.
    + rewrite X3. reflexivity.
    + exact (fam_kinds _ _ _ _ _ _ _ _ _ _ F).
    + split; [apply kin_distinct|exact Q].
    + exact Ks.
    + split; [exact Kw|exact Sl].
    + eexists _, _. split; [rewrite X2; reflexivity|]. split; [rewrite X3; reflexivity|exact TD].
  - unfold subclass. rewrite X0. cbn [c_supers c_hash]. split; [right; left; reflexivity|reflexivity].
Qed.

(** ** Without a HASHTAG *)
Lemma no_tag w r v a s : closed w -> root w r -> (forall tg, nth_error w r = Some (K PVarProof false None (Some tg) None) -> tg = None) ->
  variant (w ++ [derived r None]) (List.length w) a s = v -> v = Err TypeError.
Proof.
  intros Cl R Nt <-. unfold variant, declare_variant. set (n := List.length w). change (derived r None) with (K (PClass r) false None None None). set (nw := K (PClass n) false (Some a) None None).
  pose proof (root_lt w r R) as Lr. fold n in Lr.
  assert (LW : List.length (w ++ [K (PClass r) false None None None]) = n + 1) by (rewrite app_length; reflexivity). rewrite LW. rewrite <- app_assoc. cbn [app].
  assert (Cx : forall u, closed (w ++ [K (PClass r) false None None u; nw])).
  { intros u. replace (w ++ [K (PClass r) false None None u; nw]) with ((w ++ [K (PClass r) false None None u]) ++ [nw]) by (rewrite <- app_assoc; reflexivity).
    apply closed_app1; [apply closed_app1; [exact Cl|]|].
    - intros x E. cbn in E. injection E as <-. exact Lr.
    - intros x E. cbn in E. injection E as <-. rewrite app_length. cbn [List.length]. fold n. lia. }
  assert (Ab : forall u, ancestors (w ++ [K (PClass r) false None None u; nw]) n = [n; r]).
  { intros u. unfold n. rewrite (ancestors_step _ _ _ r (Cx u) (nth_mid _ _ _) eq_refl), anc_root by (apply root_app, R). reflexivity. }
  assert (En : nth_error (w ++ [K (PClass r) false None None None; nw]) (n + 1) = Some nw).
  { rewrite nth_error_app2 by (fold n; lia). fold n. replace (n + 1 - n) with 1 by lia. reflexivity. }
  assert (IV : is_var (w ++ [K (PClass r) false None None None; nw]) (n + 1) = true).
  { rewrite is_var_eq, (ancestors_step _ _ nw n (Cx None) En eq_refl). rewrite (Ab None). destruct (root_app w [K (PClass r) false None None None; nw] r R) as (tg & E).
    cbn [existsb]. rewrite E. rewrite !Bool.orb_true_r. reflexivity. }
  rewrite IV. cbn [negb].
  assert (FT : forall u, match first_with k_tag (w ++ [K (PClass r) false None None u; nw]) [n; r] with Some (_, Some _) => False | _ => True end).
  { intros u. cbn [first_with]. pose proof (nth_mid w (K (PClass r) false None None u) [nw]) as Em. fold n in Em. rewrite Em. cbn [option_map k_tag].
    destruct R as (tg & E). rewrite nth_error_app1 by exact Lr. rewrite E. cbn [option_map k_tag]. destruct tg as [tg|]; [rewrite (Nt tg E); exact Logic.I|exact Logic.I]. }
  assert (FU : first_with k_union (w ++ [K (PClass r) false None None None; nw]) [n; r] = None).
  { cbn [first_with]. pose proof (nth_mid w (K (PClass r) false None None None) [nw]) as Em. fold n in Em. rewrite Em. cbn [option_map k_union].
    destruct (root_app w [K (PClass r) false None None None; nw] r R) as (tg & E). rewrite E. reflexivity. }
  assert (CM : change (set_union []) (w ++ [K (PClass r) false None None None; nw]) n = w ++ [K (PClass r) false None None (Some []); nw]) by apply change_mid.
  rewrite (Ab None), FU, CM. specialize (FT (Some [])). rewrite (Ab (Some [])). destruct (first_with k_tag _ _) as [(o & [t|])|]; [destruct FT|reflexivity|reflexivity].
Qed.
Lemma declared_library ds w : declared_by ds w -> exists x, w = library ++ x.
Proof.
  induction 1 as [|ds w d w' D (y & ->) S E]; [exists []; symmetry; apply app_nil_r|].
  destruct (good_step _ d (declared_inv ds _ D) S) as (w2 & E2 & _ & (x & ->) & _). rewrite E in E2. injection E2 as ->. exists (y ++ x). rewrite app_assoc. reflexivity.
Qed.
Lemma declared_no_tag ds w : declared_by ds w -> forall d,
  (exists value, d = DMmr MMR None value) \/ (exists key value, d = DMbt MBT None key value) \/ (exists fseal fwit seal wit key value, d = DGumap GUMAP None fseal fwit seal wit key value) ->
  declare w d = Err TypeError.
Proof.
  intros D d Hd. destruct (declared_library ds w D) as (x & Ex). destruct (declared_inv ds w D) as ((Cl & _) & R0 & R1 & R2).
  assert (N : forall r v a s, root w r -> r < 3 -> variant (w ++ [derived r None]) (List.length w) a s = v -> v = Err TypeError).
  { intros r v a s R L Ev. apply (no_tag w r v a s Cl R); [|exact Ev]. intros tg E. rewrite Ex in E. destruct r as [|[|[|r]]]; cbn in E; try discriminate; [injection E as <-; reflexivity|lia]. }
  destruct Hd as [(value & ->)|[(key & value & ->)|(fseal & fwit & seal & wit & key & value & ->)]]; cbn [declare]; unfold make_mmr, make_mbt, make_gumap.
  - rewrite (N MMR _ _ _ R0 ltac:(unfold MMR; lia) eq_refl). reflexivity.
  - rewrite (N MBT _ _ _ R1 ltac:(unfold MBT; lia) eq_refl). reflexivity.
  - rewrite (N GUMAP _ _ _ R2 ltac:(unfold GUMAP; lia) eq_refl). reflexivity.
Qed.

(** ** Derived tags *)
Lemma marks_or t (subs : list string) : NoDup (map uuid subs) -> Forall (fun s => List.length (uuid s) = 16) subs ->
  NoDup (map (fun s => tag_derive (uuid s) t) subs) \/
  exists s s', In s subs /\ In s' subs /\ collision (fun m => firstn 16 (sha256 m)) (derive_root ++ uuid s ++ t) (derive_root ++ uuid s' ++ t).
Proof.
  induction subs as [|s subs IH]; intros ND F; [left; constructor|]. cbn [map] in *. inversion ND as [|? ? Ni ND' Q]; subst. inversion F as [|? ? Ls F']; subst.
  destruct (IH ND' F') as [N|(s1 & s2 & I1 & I2 & C)]; [|right; exists s1, s2; split; [right; exact I1|]; split; [right; exact I2|exact C]].
  destruct (in_dec bytes_eq_dec (tag_derive (uuid s) t) (map (fun s => tag_derive (uuid s) t) subs)) as [I|I]; [|left; constructor; assumption].
  apply in_map_iff in I. destruct I as (s' & E & I'). right. exists s, s'. split; [left; reflexivity|]. split; [right; exact I'|]. rewrite Forall_forall in F'.
  symmetry in E. destruct (tag_derive_binding2 (uuid s) t (uuid s') t) as [(K & _)|C]; [rewrite Ls, (F' s' I'); reflexivity|exact E| |exact C].
  exfalso. apply Ni. rewrite K. apply in_map, I'.
Qed.
