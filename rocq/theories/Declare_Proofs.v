From Verif Require Import Base Serialize_Model Serialize_Proofs Proof_Model Proof_Spec Mmr_Model Mmr_Spec Merbinner_Model Merbinner_Spec Declare_Model Declare_Spec.
Local Open Scope string_scope.
Local Open Scope list_scope.

(** ** Looking up *)
Definition closed (w : world) : Prop := forall c k b, nth_error w c = Some k -> k_parent k = PClass b -> b < c.

Lemma mro_enough w : closed w -> forall c f g, c < f -> c < g -> mro f w c = mro g w c.
Proof.
  intros Cl c. induction c as [c IH] using lt_wf_ind. intros [|f] [|g] F G; try lia. cbn [mro]. f_equal.
  destruct (nth_error w c) as [[p tx a t u]|] eqn:E; [|reflexivity]. destruct p as [| |b]; try reflexivity. pose proof (Cl c _ b E eq_refl). apply IH; lia.
Qed.
Lemma mro_app w x : closed w -> forall f c, c < List.length w -> mro f (w ++ x) c = mro f w c.
Proof.
  intros Cl f. induction f as [|f IH]; intros c L; [reflexivity|]. cbn [mro]. f_equal. rewrite nth_error_app1 by exact L.
  destruct (nth_error w c) as [[p tx a t u]|] eqn:E; [|reflexivity]. destruct p as [| |b]; try reflexivity. pose proof (Cl c _ b E eq_refl). apply IH. lia.
Qed.
Lemma mro_below w : closed w -> forall f c a, In a (mro f w c) -> a <= c.
Proof.
  intros Cl f. induction f as [|f IH]; intros c a; [intros []|]. cbn [mro In]. intros [<-|I]; [lia|].
  destruct (nth_error w c) as [[p tx a' t u]|] eqn:E; [|destruct I]. destruct p as [| |b]; try (destruct I; fail). pose proof (Cl c _ b E eq_refl). apply IH in I. lia.
Qed.
Lemma ancestors_step w c k b : closed w -> nth_error w c = Some k -> k_parent k = PClass b -> ancestors w c = c :: ancestors w b.
Proof.
  intros Cl E Pb. pose proof (Cl c k b E Pb) as L. unfold ancestors at 1. cbn [mro]. f_equal. rewrite E. destruct k as [p tx a t u]. cbn in Pb. subst p. apply mro_enough; [exact Cl|lia|lia].
Qed.
Lemma ancestors_root w c k : nth_error w c = Some k -> (forall b, k_parent k <> PClass b) -> ancestors w c = [c].
Proof. intros E N. unfold ancestors. cbn [mro]. rewrite E. destruct k as [[| |b] tx a t u]; try reflexivity. destruct (N b eq_refl). Qed.
Lemma ancestors_app w x c : closed w -> c < List.length w -> ancestors (w ++ x) c = ancestors w c.
Proof. intros Cl L. apply mro_app; assumption. Qed.
Lemma ancestors_below w c a : closed w -> In a (ancestors w c) -> a <= c.
Proof. intros Cl. apply mro_below, Cl. Qed.

Lemma first_app {A} (get : klass -> option A) w x cs : (forall c, In c cs -> c < List.length w) -> first_with get (w ++ x) cs = first_with get w cs.
Proof. induction cs as [|c cs IH]; intros B; [reflexivity|]. cbn [first_with]. rewrite nth_error_app1 by (apply B; left; reflexivity). rewrite IH by (intros; apply B; right; assumption). reflexivity. Qed.
Lemma existsb_app_w (f : klass -> bool) w x cs : (forall c, In c cs -> c < List.length w) ->
  existsb (fun a => match nth_error (w ++ x) a with Some k => f k | None => false end) cs = existsb (fun a => match nth_error w a with Some k => f k | None => false end) cs.
Proof. induction cs as [|c cs IH]; intros B; [reflexivity|]. cbn [existsb]. rewrite nth_error_app1 by (apply B; left; reflexivity). rewrite IH by (intros; apply B; right; assumption). reflexivity. Qed.

Definition var_root (k : klass) : bool := match k_parent k with PVarProof => true | _ => false end.
Lemma is_var_eq w c : is_var w c = existsb (fun a => match nth_error w a with Some k => var_root k | None => false end) (ancestors w c).
Proof.
  unfold is_var. induction (ancestors w c) as [|a l IH]; [reflexivity|]. cbn [existsb]. rewrite IH. f_equal. destruct (nth_error w a) as [[[| |b] tx at_ t u]|]; reflexivity.
Qed.

Lemma table_app w x c : closed w -> c < List.length w -> table_of (w ++ x) c = table_of w c.
Proof.
  intros Cl L. unfold table_of. rewrite !is_var_eq. unfold is_tx. rewrite (ancestors_app w x c Cl L).
  assert (B : forall a, In a (ancestors w c) -> a < List.length w) by (intros a I; pose proof (ancestors_below w c a Cl I); lia).
  rewrite !(first_app _ w x _ B), !(existsb_app_w _ w x _ B). reflexivity.
Qed.
Lemma table_out w c : List.length w <= c -> table_of w c = mkClass [] Plain (HTag None) [c].
Proof.
  intros L. apply nth_error_None in L. unfold table_of, is_var, is_tx. assert (E : ancestors w c = [c]) by (unfold ancestors; cbn [mro]; rewrite L; reflexivity). rewrite E.
  cbn [first_with existsb]. rewrite L. reflexivity.
Qed.

(** ** What every class is to satisfy *)
Record ok_class (T : ctable) (n : nat) (c : cid) : Prop := {
  ok_sup_in : forall b, subclass T c b -> b < n;
  ok_kind_in : forall u k, c_kind (T c) = Variant u -> In k u -> k < n;
  ok_refs : Forall (fun x => refers T n (snd x)) (c_attrs (T c));
  ok_names : NoDup (map fst (c_attrs (T c)));
  ok_self : subclass T c c;
  ok_var : forall u i k, c_kind (T c) = Variant u -> nth_error u i = Some k -> c_kind (T k) = Variant u /\ forall j m, j < i -> nth_error u j = Some m -> ~ subclass T k m;
  ok_own : forall u k, c_kind (T c) = Variant u -> In k u -> subclass T c k -> k = c;
  ok_tx : c_hash (T c) = HTx -> c_kind (T c) = Plain /\ exists name, c_attrs (T c) = [(name, SerTx)];
  ok_len : forall t, c_hash (T c) = HTag (Some t) -> List.length t = 16;
  ok_tags : forall u k1 k2, c_kind (T c) = Variant u -> In k1 u -> In k2 u -> k1 = k2 \/ exists t1 t2, c_hash (T k1) = HTag (Some t1) /\ c_hash (T k2) = HTag (Some t2) /\ t1 <> t2 }.

Lemma refers_mono T T' n n' sr : n <= n' -> (forall c, c < n -> T' c = T c) -> refers T n sr -> refers T' n' sr.
Proof.
  intros L A R. destruct sr as [s| | | |b|cs]; cbn in *; try exact I.
  - destruct R as (B & R). rewrite (A b B). split; [lia|exact R].
  - destruct R as (B & R). split.
    + intros m I. destruct (B m I) as (Bm & K). rewrite (A m Bm). split; [lia|exact K].
    + intros i j m m' Lj Ei Ej. destruct (R i j m m' Lj Ei Ej) as (Q & t & t' & X). unfold subclass in *. rewrite (A m), (A m'); [split; [exact Q|exists t, t'; exact X]| |].
      * apply (B m'). eapply nth_error_In, Ej.
      * apply (B m). eapply nth_error_In, Ei.
Qed.
Lemma ok_mono T T' n n' c : n <= n' -> (forall c, c < n -> T' c = T c) -> c < n -> ok_class T n c -> ok_class T' n' c.
Proof.
  intros L A Lc [S1 S2 S3 S4 S5 S6 S7 S8 S9 S10]. unfold subclass in *. constructor; unfold subclass; rewrite ?(A c Lc).
  - intros b I. apply S1 in I. lia.
  - intros u k E I. pose proof (S2 u k E I). lia.
  - eapply Forall_impl; [|exact S3]. intros x. apply refers_mono; assumption.
  - exact S4.
  - exact S5.
  - intros u i k E Ei. rewrite (A k) by (eapply S2, nth_error_In, Ei; exact E). exact (S6 u i k E Ei).
  - exact S7.
  - exact S8.
  - exact S9.
  - intros u k1 k2 E I1 I2. rewrite (A k1), (A k2) by (eapply S2; eassumption). exact (S10 u k1 k2 E I1 I2).
Qed.

Definition good (w : world) : Prop := closed w /\ forall c, c < List.length w -> ok_class (table_of w) (List.length w) c.

Lemma good_wf w : good w -> wf_table (table_of w) /\ variant_table (table_of w) /\ wf_tags (table_of w).
Proof.
  intros (_ & G). set (T := table_of w) in *. set (n := List.length w) in *.
  assert (O : forall c, n <= c -> T c = mkClass [] Plain (HTag None) [c]) by (intros c; apply table_out).
  assert (D : forall c, {c < n} + {n <= c}) by (intros c; destruct (le_lt_dec n c); [right|left]; assumption).
  assert (RA : forall c name sr, In (name, sr) (c_attrs (T c)) -> refers T n sr).
  { intros c name sr I. destruct (D c) as [L|L]; [|rewrite (O c L) in I; destruct I]. pose proof (ok_refs _ _ _ (G c L)) as F. rewrite Forall_forall in F. exact (F _ I). }
  split; [|split].
  - constructor.
    + intros c. destruct (D c) as [L|L]; [apply (ok_names _ _ _ (G c L))|rewrite (O c L); constructor].
    + intros c. destruct (D c) as [L|L]; [apply (ok_self _ _ _ (G c L))|unfold subclass; rewrite (O c L); left; reflexivity].
    + intros c u i k E Ei. destruct (D c) as [L|L]; [apply (ok_var _ _ _ (G c L)); assumption|rewrite (O c L) in E; discriminate].
    + intros c name cs i m k I Ei Dk. destruct (RA c name _ I) as (B & R). destruct (B m (nth_error_In _ _ Ei)) as (Bm & K). unfold declared in Dk. rewrite K in Dk. subst k.
      split; [apply (ok_self _ _ _ (G m Bm))|]. intros j m' Lj Ej. apply (R i j m m' Lj Ei Ej).
    + intros c E. destruct (D c) as [L|L]; [apply (ok_tx _ _ _ (G c L)), E|rewrite (O c L) in E; discriminate].
  - intros c name sr I. pose proof (RA c name sr I) as R. destruct sr as [s| | | |b|cs]; try exact Logic.I.
    + destruct R as (B & R). intros u k E Ik S. pose proof (ok_own _ _ _ (G b B) u k E Ik S) as ->. exact (R u E Ik).
    + destruct R as (B & _). intros m Im. apply B, Im.
  - constructor.
    + intros c t E. destruct (D c) as [L|L]; [apply (ok_len _ _ _ (G c L)), E|rewrite (O c L) in E; discriminate].
    + intros c name sr k1 k2 I H1 H2. pose proof (RA c name sr I) as R. destruct sr as [s| | | |b|cs]; try (destruct H1; fail).
      * destruct R as (B & R). cbn [standing] in H1, H2. unfold declared in H1, H2. destruct (c_kind (T b)) as [|u] eqn:E; [left; congruence|]. exact (ok_tags _ _ _ (G b B) u k1 k2 E H1 H2).
      * destruct R as (B & R). cbn [standing] in H1, H2. destruct H1 as (m1 & I1 & H1), H2 as (m2 & I2 & H2).
        unfold declared in H1, H2. rewrite (proj2 (B m1 I1)) in H1. rewrite (proj2 (B m2 I2)) in H2. subst k1 k2.
        apply In_nth_error in I1. apply In_nth_error in I2. destruct I1 as (i & E1), I2 as (j & E2).
        destruct (Nat.lt_total i j) as [Q|[<-|Q]].
        -- right. destruct (R j i m2 m1 Q E2 E1) as (_ & t & t' & X1 & X2 & X3). exists t', t. auto.
        -- left. congruence.
        -- right. destruct (R i j m1 m2 Q E1 E2) as (_ & t & t' & X). exists t, t'. exact X.
Qed.

(** ** A class with its variants *)
Definition root (w : world) (r : cid) : Prop := exists tg, nth_error w r = Some (K PVarProof false None tg None).
Definition base (r : cid) (t : bytes) (ou : option (list cid)) : klass := K (PClass r) false None (Some (Some t)) ou.
Definition vnode (n : cid) (a : list (string * ser)) (s t : bytes) : klass := K (PClass n) false (Some a) (Some (Some (tag_derive s t))) None.
Definition under (n : cid) (k : klass) : Prop := k_parent k = PClass n /\ k_union k = None /\ k_tx k = false.

Lemma nth_mid (w : world) k vs : nth_error (w ++ k :: vs) (List.length w) = Some k.
Proof. rewrite nth_error_app2, Nat.sub_diag by lia. reflexivity. Qed.
Lemma change_mid f (w : world) k vs : change f (w ++ k :: vs) (List.length w) = w ++ f k :: vs.
Proof. induction w as [|x w IH]; cbn; [reflexivity|]. rewrite IH. reflexivity. Qed.
Lemma root_lt w r : root w r -> r < List.length w.
Proof. intros (tg & E). apply nth_error_Some. congruence. Qed.

Lemma closed_family w r t ou vs : closed w -> root w r -> Forall (under (List.length w)) vs -> closed (w ++ base r t ou :: vs).
Proof.
  intros Cl R F c k b E Pb. pose proof (root_lt w r R) as L. destruct (lt_eq_lt_dec c (List.length w)) as [[Q|Q]|Q].
  - rewrite nth_error_app1 in E by exact Q. exact (Cl c k b E Pb).
  - subst c. rewrite nth_mid in E. injection E as <-. cbn in Pb. injection Pb as <-. exact L.
  - rewrite nth_error_app2 in E by lia. destruct (c - List.length w) as [|j] eqn:Ej; [lia|]. cbn [nth_error] in E. apply nth_error_In in E. rewrite Forall_forall in F.
    destruct (F k E) as (X & _). rewrite X in Pb. injection Pb as <-. exact Q.
Qed.
Lemma root_app w x r : root w r -> root (w ++ x) r.
Proof. intros R. pose proof (root_lt w r R) as L. destruct R as (tg & E). exists tg. rewrite nth_error_app1 by exact L. exact E. Qed.
Lemma anc_root X r : root X r -> ancestors X r = [r].
Proof. intros (tg & E). apply (ancestors_root X r _ E). intros b K. discriminate K. Qed.
Lemma anc_base w r t ou vs : closed w -> root w r -> Forall (under (List.length w)) vs -> ancestors (w ++ base r t ou :: vs) (List.length w) = [List.length w; r].
Proof.
  intros Cl R F. rewrite (ancestors_step _ _ (base r t ou) r (closed_family w r t ou vs Cl R F) (nth_mid _ _ _) eq_refl). rewrite anc_root by (apply root_app, R). reflexivity.
Qed.
Lemma anc_vnode w r t ou vs c k : closed w -> root w r -> Forall (under (List.length w)) vs -> nth_error (w ++ base r t ou :: vs) c = Some k -> List.length w < c ->
  ancestors (w ++ base r t ou :: vs) c = [c; List.length w; r].
Proof.
  intros Cl R F E L. rewrite (ancestors_step _ c k (List.length w) (closed_family w r t ou vs Cl R F) E).
  - rewrite anc_base by assumption. reflexivity.
  - rewrite nth_error_app2 in E by lia. destruct (c - List.length w) as [|j] eqn:Ej; [lia|]. cbn [nth_error] in E. apply nth_error_In in E. rewrite Forall_forall in F. apply (F k E).
Qed.
Lemma first_base_union w r t ou vs : root w r -> first_with k_union (w ++ base r t ou :: vs) [List.length w; r] = option_map (fun u => (List.length w, u)) ou.
Proof.
  intros R. cbn [first_with]. rewrite nth_mid. cbn [option_map base k_union]. destruct ou as [u|]; [reflexivity|]. destruct (root_app w (base r t None :: vs) r R) as (tg & E). rewrite E. reflexivity.
Qed.
Lemma first_base_tag w r t ou vs l : first_with k_tag (w ++ base r t ou :: vs) (List.length w :: l) = Some (List.length w, Some t).
Proof. cbn [first_with]. rewrite nth_mid. reflexivity. Qed.

Lemma variant_step w r t ou vs a s : closed w -> root w r -> Forall (under (List.length w)) vs ->
  variant (w ++ base r t ou :: vs) (List.length w) a s =
  Ok (w ++ base r t (Some (match ou with Some u => u | None => [] end ++ [List.length w + S (List.length vs)])) :: vs ++ [vnode (List.length w) a s t]).
Proof.
  intros Cl R F. unfold variant, declare_variant. set (n := List.length w) in *. set (nw := K (PClass n) false (Some a) None None).
  assert (LW : List.length (w ++ base r t ou :: vs) = n + S (List.length vs)) by (rewrite app_length; reflexivity). rewrite LW.
  assert (F1 : Forall (under n) (vs ++ [nw])). { apply Forall_app. split; [exact F|]. constructor; [|constructor]. repeat split. }
  assert (F2 : Forall (under n) (vs ++ [vnode n a s t])). { apply Forall_app. split; [exact F|]. constructor; [|constructor]. repeat split. }
  assert (NL : forall k ou, nth_error (w ++ base r t ou :: vs ++ [k]) (n + S (List.length vs)) = Some k).
  { intros k o. rewrite nth_error_app2 by (fold n; lia). fold n. replace (n + S (List.length vs) - n) with (S (List.length vs)) by lia. cbn [nth_error]. rewrite nth_error_app2, Nat.sub_diag by lia. reflexivity. }
  assert (CL : forall f k ou, change f (w ++ base r t ou :: vs ++ [k]) (n + S (List.length vs)) = w ++ base r t ou :: vs ++ [f k]).
  { intros f k o. replace (w ++ base r t o :: vs ++ [k]) with ((w ++ base r t o :: vs) ++ [k]) by (rewrite <- app_assoc; reflexivity).
    replace (n + S (List.length vs)) with (List.length (w ++ base r t o :: vs)) by (rewrite app_length; reflexivity). rewrite change_mid, <- app_assoc. reflexivity. }
  rewrite <- app_assoc. cbn [app].
  assert (IV : is_var (w ++ base r t ou :: vs ++ [nw]) (n + S (List.length vs)) = true).
  { rewrite is_var_eq. rewrite (anc_vnode w r t ou (vs ++ [nw]) _ nw Cl R F1 (NL _ _)) by (fold n; lia). destruct (root_app w (base r t ou :: vs ++ [nw]) r R) as (tg & E).
    cbn [existsb]. rewrite E. rewrite !Bool.orb_true_r. reflexivity. }
  assert (AB : forall o xs, Forall (under n) xs -> ancestors (w ++ base r t o :: xs) n = [n; r]) by (intros o xs; apply anc_base; assumption).
  assert (FU : forall o xs, first_with k_union (w ++ base r t o :: xs) [n; r] = option_map (fun u => (n, u)) o) by (intros o xs; apply first_base_union, R).
  assert (CM : forall f o xs, change f (w ++ base r t o :: xs) n = w ++ f (base r t o) :: xs) by (intros f o xs; apply change_mid).
  assert (FT : forall o xs, first_with k_tag (w ++ base r t o :: xs) [n; r] = Some (n, Some t)) by (intros o xs; apply first_base_tag).
  rewrite IV. cbn [negb]. rewrite (AB ou _ F1), FU.
  destruct ou as [u|]; cbn [option_map]; [|rewrite CM; change (set_union [] (base r t None)) with (base r t (Some []))];
    rewrite (AB _ _ F1), FT, CL; change (set_tag (tag_derive s t) nw) with (vnode n a s t); rewrite (AB _ _ F2), FU; cbn [option_map]; rewrite CM; reflexivity.
Qed.

Lemma three_step w r t a1 s1 a2 s2 a3 s3 : closed w -> root w r -> let n := List.length w in
  (do w <- variant (w ++ [base r t None]) n a1 s1; do w <- variant w n a2 s2; variant w n a3 s3) =
  Ok (w ++ [base r t (Some [n + 1; n + 2; n + 3]); vnode n a1 s1 t; vnode n a2 s2 t; vnode n a3 s3 t]).
Proof.
  intros Cl R n. unfold n. rewrite (variant_step w r t None [] a1 s1 Cl R) by constructor. cbn [bind app List.length].
  rewrite (variant_step w r t _ [vnode (List.length w) a1 s1 t] a2 s2 Cl R) by (repeat constructor). cbn [bind app List.length].
  rewrite (variant_step w r t _ [vnode (List.length w) a1 s1 t; vnode (List.length w) a2 s2 t] a3 s3 Cl R) by (repeat constructor). cbn [app List.length]. reflexivity.
Qed.

Definition family (w : world) r t a1 s1 a2 s2 a3 s3 : world :=
  let n := List.length w in w ++ [base r t (Some [n + 1; n + 2; n + 3]); vnode n a1 s1 t; vnode n a2 s2 t; vnode n a3 s3 t].
Definition kin (n : nat) : list cid := [n + 1; n + 2; n + 3].

Lemma family_base w r t a1 s1 a2 s2 a3 s3 : closed w -> root w r -> let n := List.length w in
  table_of (family w r t a1 s1 a2 s2 a3 s3) n = mkClass [] (Variant (kin n)) (HTag (Some t)) [n; r].
Proof.
  intros Cl R n. unfold table_of, family. fold n. set (vs := [vnode n a1 s1 t; vnode n a2 s2 t; vnode n a3 s3 t]).
  assert (F : Forall (under n) vs) by (repeat constructor).
  rewrite is_var_eq. unfold is_tx. rewrite !(anc_base w r t _ vs Cl R F). destruct (root_app w (base r t (Some [n + 1; n + 2; n + 3]) :: vs) r R) as (tg & E).
  pose proof (nth_mid w (base r t (Some [n + 1; n + 2; n + 3])) vs) as Em. cbn [first_with existsb]. fold n in Em |- *. rewrite !E, !Em. reflexivity.
Qed.
Lemma family_variant w r t a1 s1 a2 s2 a3 s3 i a s : closed w -> root w r -> let n := List.length w in
  nth_error [(a1, s1); (a2, s2); (a3, s3)] i = Some (a, s) ->
  table_of (family w r t a1 s1 a2 s2 a3 s3) (n + S i) = mkClass a (Variant (kin n)) (HTag (Some (tag_derive s t))) [n + S i; n; r].
Proof.
  intros Cl R n Ei. unfold table_of, family. fold n. set (vs := [vnode n a1 s1 t; vnode n a2 s2 t; vnode n a3 s3 t]). set (bs := base r t (Some [n + 1; n + 2; n + 3])).
  assert (F : Forall (under n) vs) by (repeat constructor).
  assert (En : nth_error (w ++ bs :: vs) (n + S i) = Some (vnode n a s t)).
  { rewrite nth_error_app2 by (fold n; lia). fold n. replace (n + S i - n) with (S i) by lia. cbn [nth_error]. destruct i as [|[|[|i]]]; cbn in Ei; try (destruct i; discriminate); injection Ei as <- <-; reflexivity. }
  rewrite is_var_eq. unfold is_tx. unfold bs in *. rewrite !(anc_vnode w r t _ vs _ _ Cl R F En) by (fold n; lia). destruct (root_app w (base r t (Some [n + 1; n + 2; n + 3]) :: vs) r R) as (tg & E).
  pose proof (nth_mid w (base r t (Some [n + 1; n + 2; n + 3])) vs) as Em. cbn [first_with existsb]. fold n in Em |- *. rewrite !E, !Em, !En. reflexivity.
Qed.

(** ** The classes of a family are as they should be *)
Lemma kin_in n c : In c (kin n) <-> n + 1 <= c <= n + 3.
Proof. unfold kin. cbn [In]. lia. Qed.
Lemma kin_nth n i c : nth_error (kin n) i = Some c -> c = n + S i /\ i < 3.
Proof. unfold kin. destruct i as [|[|[|i]]]; cbn; intros E; try (destruct i; discriminate); injection E as <-; lia. Qed.
Lemma three_nth {A} (x1 x2 x3 : A) i : i < 3 -> exists x, nth_error [x1; x2; x3] i = Some x.
Proof. intros L. destruct i as [|[|[|i]]]; [exists x1|exists x2|exists x3|lia]; reflexivity. Qed.

Definition own_or (T : ctable) (n : nat) (a : list (string * ser)) : Prop :=
  NoDup (map fst a) /\ Forall (fun x => snd x = SerProof n \/ refers T n (snd x)) a.

Lemma good_family w r t a1 s1 a2 s2 a3 s3 : good w -> root w r ->
  own_or (table_of w) (List.length w) a1 -> own_or (table_of w) (List.length w) a2 -> own_or (table_of w) (List.length w) a3 ->
  List.length t = 16 -> NoDup [tag_derive s1 t; tag_derive s2 t; tag_derive s3 t] -> good (family w r t a1 s1 a2 s2 a3 s3).
Proof.
  intros (Cl & G) R O1 O2 O3 Lt ND. set (n := List.length w) in *.
  assert (Cf : closed (family w r t a1 s1 a2 s2 a3 s3)) by (unfold family; apply closed_family; [assumption..|repeat constructor]).
  assert (Lf : List.length (family w r t a1 s1 a2 s2 a3 s3) = n + 4) by (unfold family; rewrite app_length; reflexivity).
  split; [exact Cf|]. rewrite Lf. pose proof (root_lt w r R) as Lr. fold n in Lr.
  pose proof (family_base w r t a1 s1 a2 s2 a3 s3 Cl R) as Tb. pose proof (fun i a s => family_variant w r t a1 s1 a2 s2 a3 s3 i a s Cl R) as Tv. cbv zeta in Tb, Tv. fold n in Tb, Tv.
  assert (Old : forall c, c < n -> table_of (family w r t a1 s1 a2 s2 a3 s3) c = table_of w c) by (intros c L; apply table_app; assumption).
  set (T := table_of (family w r t a1 s1 a2 s2 a3 s3)) in *.
  assert (Kv : forall i, i < 3 -> exists a s, nth_error [(a1, s1); (a2, s2); (a3, s3)] i = Some (a, s) /\ T (n + S i) = mkClass a (Variant (kin n)) (HTag (Some (tag_derive s t))) [n + S i; n; r]).
  { intros i L. destruct (three_nth (a1, s1) (a2, s2) (a3, s3) i L) as ((a & s) & E). exists a, s. split; [exact E|]. apply Tv, E. }
  assert (Rf : forall a, own_or (table_of w) n a -> Forall (fun x => refers T (n + 4) (snd x)) a).
  { intros a (_ & F). eapply Forall_impl; [|exact F]. intros x [E|Q].
    - rewrite E. unfold refers. split; [lia|]. rewrite Tb. cbn [c_kind]. intros u Eu. injection Eu as <-. rewrite kin_in. lia.
    - eapply refers_mono; [| |exact Q]; [lia|exact Old]. }
  assert (VK : forall i k, nth_error (kin n) i = Some k -> c_kind (T k) = Variant (kin n) /\ forall j m, j < i -> nth_error (kin n) j = Some m -> ~ subclass T k m).
  { intros i k Ei. destruct (kin_nth _ _ _ Ei) as (-> & Li). destruct (Kv i Li) as (a & s & _ & E). unfold subclass. rewrite E. split; [reflexivity|].
    intros j m Lj Ej. destruct (kin_nth _ _ _ Ej) as (-> & _). cbn. lia. }
  assert (VT : forall k1 k2, In k1 (kin n) -> In k2 (kin n) -> k1 = k2 \/ exists t1 t2, c_hash (T k1) = HTag (Some t1) /\ c_hash (T k2) = HTag (Some t2) /\ t1 <> t2).
  { intros k1 k2 I1 I2. apply In_nth_error in I1, I2. destruct I1 as (i & E1), I2 as (j & E2). destruct (kin_nth _ _ _ E1) as (-> & L1), (kin_nth _ _ _ E2) as (-> & L2).
    destruct (Nat.eq_dec i j) as [->|Q]; [left; reflexivity|right]. destruct (Kv i L1) as (a & s & Ea & X), (Kv j L2) as (a' & s' & Eb & Y). rewrite X, Y.
    exists (tag_derive s t), (tag_derive s' t). split; [reflexivity|]. split; [reflexivity|]. intros Et. apply Q.
    apply (proj1 (NoDup_nth_error _) ND); [exact L1|].
    change [tag_derive s1 t; tag_derive s2 t; tag_derive s3 t] with (map (fun p : list (string * ser) * bytes => tag_derive (snd p) t) [(a1, s1); (a2, s2); (a3, s3)]).
    rewrite !nth_error_map, Ea, Eb. cbn [option_map snd]. rewrite Et. reflexivity. }
  intros c L. destruct (lt_eq_lt_dec c n) as [[Q|Q]|Q].
  - apply (ok_mono (table_of w) T n (n + 4) c); [lia|exact Old|exact Q|exact (G c Q)].
  - subst c. constructor; unfold subclass; rewrite Tb; cbn [c_attrs c_kind c_hash c_supers].
    + cbn. intros b. lia.
    + intros u k E. injection E as <-. rewrite kin_in. lia.
    + constructor.
    + constructor.
    + left. reflexivity.
    + intros u i k E Ei. injection E as <-. exact (VK i k Ei).
    + intros u k E Ik. injection E as <-. rewrite kin_in in Ik. cbn. lia.
    + discriminate.
    + intros t' E. injection E as <-. exact Lt.
    + intros u k1 k2 E. injection E as <-. apply VT.
  - assert (Hi : exists i, i < 3 /\ c = n + S i) by (exists (c - n - 1); lia). destruct Hi as (i & Li & ->). destruct (Kv i Li) as (a & s & Ea & E).
    assert (Oa : own_or (table_of w) n a). { destruct i as [|[|[|i]]]; cbn in Ea; try lia; injection Ea as <- <-; assumption. }
    constructor; unfold subclass; rewrite E; cbn [c_attrs c_kind c_hash c_supers].
    + cbn. intros b. lia.
    + intros u k Eu. injection Eu as <-. rewrite kin_in. lia.
    + apply Rf, Oa.
    + apply Oa.
    + left. reflexivity.
    + intros u j k Eu Ej. injection Eu as <-. exact (VK j k Ej).
    + intros u k Eu Ik. injection Eu as <-. rewrite kin_in in Ik. cbn. lia.
    + discriminate.
    + intros t' Et. injection Et as <-. apply tag_derive_length.
    + intros u k1 k2 Eu. injection Eu as <-. apply VT.
Qed.

(** ** Plain classes *)
Lemma closed_app1 w k : closed w -> (forall b, k_parent k = PClass b -> b < List.length w) -> closed (w ++ [k]).
Proof.
  intros Cl B c x b E Pb. destruct (lt_eq_lt_dec c (List.length w)) as [[Q|Q]|Q].
  - rewrite nth_error_app1 in E by exact Q. exact (Cl c x b E Pb).
  - subst c. rewrite nth_mid in E. injection E as <-. exact (B b Pb).
  - rewrite nth_error_app2 in E by lia. destruct (c - List.length w) as [|[|j]] eqn:Ej; [lia|discriminate..].
Qed.
Definition tag_of (h : chash) : option bytes := match h with HTag t => t | HTx => None end.

Lemma class_under w b attrs tag : closed w -> b < List.length w -> c_kind (table_of w b) = Plain -> c_hash (table_of w b) <> HTx -> let n := List.length w in
  table_of (w ++ [K (PClass b) false attrs (option_map Some tag) None]) n =
  mkClass (match attrs with Some a => a | None => c_attrs (table_of w b) end) Plain
          (HTag (match tag with Some t => Some t | None => tag_of (c_hash (table_of w b)) end)) (n :: c_supers (table_of w b)).
Proof.
  intros Cl Lb Kb Hb n. set (k := K (PClass b) false attrs (option_map Some tag) None).
  assert (Cw : closed (w ++ [k])). { apply closed_app1; [exact Cl|]. intros x E. injection E as <-. exact Lb. }
  assert (A : ancestors (w ++ [k]) n = n :: ancestors w b). { unfold n. rewrite (ancestors_step _ _ k b Cw (nth_mid _ _ _) eq_refl), ancestors_app by assumption. reflexivity. }
  assert (Below : forall c, In c (ancestors w b) -> c < List.length w) by (intros c I; apply ancestors_below in I; [lia|exact Cl]).
  pose proof (nth_mid w k []) as Em. fold n in Em.
  assert (V : is_var w b = false). { unfold table_of in Kb. cbn [c_kind] in Kb. destruct (is_var w b); [discriminate|reflexivity]. }
  assert (X : is_tx w b = false). { unfold table_of in Hb. cbn [c_hash] in Hb. destruct (is_tx w b); [exfalso; apply Hb; reflexivity|reflexivity]. }
  rewrite is_var_eq in V. unfold table_of. rewrite !is_var_eq. unfold is_tx in *. rewrite A. cbn [first_with existsb]. rewrite !Em. cbn [option_map k k_attrs k_tag k_union k_tx var_root k_parent].
  rewrite !first_app, !existsb_app_w by exact Below. cbn [orb c_attrs c_hash c_supers]. rewrite V, X. cbn [tag_of].
  destruct attrs, tag; reflexivity.
Qed.
Lemma class_alone w tx attrs tag : closed w -> let n := List.length w in
  table_of (w ++ [K PProof tx attrs (option_map Some tag) None]) n = mkClass (match attrs with Some a => a | None => [] end) Plain (if tx then HTx else HTag tag) [n].
Proof.
  intros Cl n. set (k := K PProof tx attrs (option_map Some tag) None).
  assert (A : ancestors (w ++ [k]) n = [n]). { unfold n. apply (ancestors_root _ _ k (nth_mid _ _ _)). intros b E. cbn in E. discriminate. }
  pose proof (nth_mid w k []) as Em. fold n in Em. unfold table_of. rewrite is_var_eq. unfold is_tx. rewrite A. cbn [first_with existsb]. rewrite !Em. cbn [option_map k k_attrs k_tag k_union k_tx var_root k_parent].
  destruct tx, attrs, tag; reflexivity.
Qed.

Lemma good_plain w k attrs h sup : good w -> (forall b, k_parent k = PClass b -> b < List.length w) ->
  table_of (w ++ [k]) (List.length w) = mkClass attrs Plain h (List.length w :: sup) ->
  (forall b, In b sup -> b < List.length w) -> NoDup (map fst attrs) -> Forall (fun x => refers (table_of w) (List.length w) (snd x)) attrs ->
  (h = HTx -> exists name, attrs = [(name, SerTx)]) -> (forall t, h = HTag (Some t) -> List.length t = 16) -> good (w ++ [k]).
Proof.
  intros (Cl & G) Pk E Bs ND F Hx Ht. set (n := List.length w) in *. assert (Ln : List.length (w ++ [k]) = n + 1) by (rewrite app_length; reflexivity).
  assert (Old : forall c, c < n -> table_of (w ++ [k]) c = table_of w c) by (intros c L; apply table_app; assumption).
  split; [apply closed_app1; assumption|]. rewrite Ln. intros c L. destruct (Nat.eq_dec c n) as [->|Q].
  - constructor; unfold subclass; rewrite E; cbn [c_attrs c_kind c_hash c_supers]; try discriminate.
    + intros b [<-|I]; [lia|]. apply Bs in I. lia.
    + eapply Forall_impl; [|exact F]. intros x. apply refers_mono; [lia|exact Old].
    + exact ND.
    + left. reflexivity.
    + intros Eh. split; [reflexivity|]. apply Hx, Eh.
    + exact Ht.
  - apply (ok_mono (table_of w) _ n (n + 1) c); [lia|exact Old|lia|apply G; lia].
Qed.

(** ** All declarations *)
Definition inv (w : world) : Prop := good w /\ root w MMR /\ root w MBT /\ root w GUMAP.
Lemma inv_library : inv library.
Proof.
  split; [|split; [|split]]; try (eexists; reflexivity). split.
  - intros [|[|[|c]]] k b E; cbn in E; try (injection E as <-; discriminate). destruct c; discriminate.
  - assert (T : forall c, c < 3 -> table_of library c = mkClass [] (Variant []) (HTag None) [c]) by (intros [|[|[|c]]] L; [reflexivity..|lia]).
    intros c L. change (List.length library) with 3 in *. pose proof (T c L) as E. constructor; unfold subclass; rewrite E; cbn [c_attrs c_kind c_hash c_supers].
    + intros b [<-|[]]. exact L.
    + intros u k Eu. injection Eu as <-. intros [].
    + constructor.
    + constructor.
    + left. reflexivity.
    + intros u i k Eu. injection Eu as <-. destruct i; discriminate.
    + intros u k Eu. injection Eu as <-. intros [].
    + discriminate.
    + discriminate.
    + intros u k1 k2 Eu. injection Eu as <-. intros [].
Qed.

Lemma own_refers T n (a : list (string * ser)) : NoDup (map fst a) -> Forall (fun x => snd x = SerProof n \/ refers T n (snd x)) a -> own_or T n a.
Proof. intros A B. split; assumption. Qed.
Ltac names := repeat (constructor; [cbn; intuition discriminate|]); constructor.
Ltac own := apply own_refers; [cbn; names|repeat (constructor; [cbn [snd]; (left; reflexivity) || (right; (assumption || exact Logic.I))|]); constructor].

Definition added (w : world) (d : decl) (w' : world) : Prop :=
  let n := List.length w in
  match d with
  | DMmr _ tag value => exists t, tag = Some t /\ w' = family w MMR t [] (uuid "390de307-8787-47b7-b25d-250aba02b1e5") [("value", value)] (uuid "4ea09c8e-87f5-4978-a829-78d42ab8638a")
      [("left", SerProof n); ("right", SerProof n); ("length", SerPrim UInt64)] (uuid "a7ca25ce-8fee-4063-b022-96b2dbcb392e")
  | DMbt _ tag key value => exists t, tag = Some t /\ w' = family w MBT t [] (uuid "ca380e10-c7d5-44df-aef0-55bce2125329") [("key", key); ("value", value)] (uuid "f5cc855e-9d21-4f8d-ab42-7883c765c323")
      [("prefix", SerBits); ("left", SerProof n); ("right", SerProof n)] (uuid "66d74741-0ffd-4178-9a79-641a45e23dda")
  | DGumap _ tag fseal fwit seal wit key value => exists t, tag = Some t /\ w' = family w GUMAP t [("prefix", SerBits); ("seal", SerUnion [fseal; seal])] (uuid "dae47bef-d9a3-4971-a6a4-1c67c5f02c11")
      [("witness", SerUnion [fwit; wit]); ("key", key); ("value", value)] (uuid "0c60f344-9109-4930-aec1-432c5750fcba")
      [("prefix", SerBits); ("witness", SerUnion [fwit; wit]); ("left", SerProof n); ("right", SerProof n)] (uuid "6893cac7-e834-49cd-8e95-77707b0499b5")
  | _ => exists k, w' = w ++ [k]
  end.

Lemma good_step w d : inv w -> sensible w d -> exists w', declare w d = Ok w' /\ added w d w' /\ (exists x, w' = w ++ x) /\ good w'.
Proof.
  intros (G & R0 & R1 & R2) S. pose proof (proj1 G) as Cl. destruct d as [p attrs tag|name|b tag value|b tag key value|b tag fseal fwit seal wit key value]; cbn [sensible] in S.
  - destruct S as (Sp & Sa & St). eexists. split; [reflexivity|]. split; [eexists; reflexivity|]. split; [eexists; reflexivity|]. destruct p as [b|].
    + destruct (Sp b eq_refl) as (Lb & Kb & Hb). pose proof (proj2 G b Lb) as Ob.
      eapply good_plain; [exact G| |apply (class_under w b attrs tag Cl Lb Kb Hb)| | | | |].
      * intros x E. injection E as <-. exact Lb.
      * intros x I. exact (ok_sup_in _ _ _ Ob x I).
      * destruct attrs as [a|]; [apply (Sa a eq_refl)|apply (ok_names _ _ _ Ob)].
      * destruct attrs as [a|]; [apply (Sa a eq_refl)|apply (ok_refs _ _ _ Ob)].
      * discriminate.
      * intros t E. apply (f_equal tag_of) in E. cbn [tag_of] in E. destruct tag as [t'|]; [apply St; congruence|]. apply (ok_len _ _ _ Ob). destruct (c_hash (table_of w b)) as [o|]; [cbn [tag_of] in E; rewrite E; reflexivity|discriminate].
    + eapply good_plain; [exact G| |apply (class_alone w false attrs tag Cl)| | | | |].
      * discriminate.
      * intros x [].
      * destruct attrs as [a|]; [apply (Sa a eq_refl)|constructor].
      * destruct attrs as [a|]; [apply (Sa a eq_refl)|constructor].
      * discriminate.
      * intros t E. injection E as ->. apply St. reflexivity.
  - eexists. split; [reflexivity|]. split; [eexists; reflexivity|]. split; [eexists; reflexivity|].
    eapply good_plain; [exact G| |apply (class_alone w true (Some [(name, SerTx)]) None Cl)| | | | |].
    + discriminate.
    + intros x [].
    + repeat constructor. intros [].
    + repeat constructor.
    + intros _. exists name. reflexivity.
    + discriminate.
  - destruct S as (-> & V & t & -> & Lt & ND). eexists. split; [apply (three_step w MMR t _ _ _ _ _ _ Cl R0)|]. split; [exists t; split; reflexivity|]. split; [eexists; reflexivity|].
    apply good_family; try assumption; own.
  - destruct S as (-> & Vk & V & t & -> & Lt & ND). eexists. split; [apply (three_step w MBT t _ _ _ _ _ _ Cl R1)|]. split; [exists t; split; reflexivity|]. split; [eexists; reflexivity|].
    apply good_family; try assumption; own.
  - destruct S as (-> & Vs & Vw & Vk & V & t & -> & Lt & ND). eexists. split; [apply (three_step w GUMAP t _ _ _ _ _ _ Cl R2)|]. split; [exists t; split; reflexivity|]. split; [eexists; reflexivity|].
    apply good_family; try assumption; own.
Qed.
