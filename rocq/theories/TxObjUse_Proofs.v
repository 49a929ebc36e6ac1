(** Proofs about transaction objects: what stays the same while a program runs. *)
From Verif Require Import Base PySlice Sha256 Tx_Model Script_Model Block_Model SigHash_Model Money_Model TxObj_Model TxObj_Spec TxObj_Proofs TxObjSig_Proofs.

(** ** One statement *)

Section H.
Context (pyhash : bytes -> Z).

Definition kept (W : ref -> Prop) (s s' : store) : Prop :=
  forall r c, nth_error s r = Some c -> exists c', nth_error s' r = Some c' /\ c_cls c' = c_cls c /\
    (c_cls c = Imm \/ ~ W r -> c_obj c' = c_obj c).
Lemma kept_ext W s s' : ext s s' -> kept W s s'.
Proof. intros X r c E. exists c. rewrite (X _ _ E). auto. Qed.
Lemma snd_giving {A} (f : A -> out) (m : M A) s : snd (giving f m s) = snd (m s).
Proof. unfold giving, andthen. destruct (m s) as [[a|e] s']; reflexivity. Qed.
Lemma kept_appends {A} W (f : A -> out) (m : M A) s : appends m -> kept W s (snd (giving f m s)).
Proof. intros H. rewrite snd_giving. destruct (H s) as [l ->]. apply kept_ext, ext_app. Qed.
Lemma kept_cache W s r x h g : nth_error s r = Some x -> kept W s (replace s r (Cell (c_cls x) (c_obj x) h g)).
Proof.
  intros E y c Ey. destruct (Nat.eq_dec y r) as [->|N].
  - rewrite E in Ey. injection Ey as <-. eexists. split; [apply replace_same; eapply some_below; eauto|]. cbn. auto.
  - exists c. rewrite replace_other by exact N. auto.
Qed.
Lemma kept_refl W s : kept W s s.
Proof. apply kept_ext, ext_refl. Qed.
Lemma kept_put (W : ref -> Prop) s r x o : nth_error s r = Some x -> c_cls x = Mut -> W r -> kept W s (replace s r (Cell Mut o (c_hash x) (c_pyhash x))).
Proof.
  intros E C Wr y c Ey. destruct (Nat.eq_dec y r) as [->|N].
  - rewrite E in Ey. injection Ey as <-. eexists. split; [apply replace_same; eapply some_below; eauto|]. cbn. split; [congruence|].
    intros [K|K]; [congruence|contradiction].
  - exists c. rewrite replace_other by exact N. auto.
Qed.
Lemma GetHash_store r s : exists x, snd (GetHash r s) = s \/
  (nth_error s r = Some x /\ c_cls x = Imm /\ exists b, serialize s r = Ok b /\ snd (GetHash r s) = replace s r (Cell (c_cls x) (c_obj x) (Some (Hash b)) (c_pyhash x))).
Proof.
  unfold GetHash, andthen, look, serialize_, put, ret. destruct (nth_error s r) as [x|] eqn:E; [|exists (Cell Imm (OSeq []) None None); auto].
  exists x. destruct (c_cls x) eqn:C; [|destruct (serialize s r); auto].
  destruct (c_hash x); [auto|]. destruct (serialize s r) as [b|]; [|auto]. right. eauto.
Qed.
Lemma hash_of_store r s : exists x, snd (hash_of pyhash r s) = s \/
  (nth_error s r = Some x /\ c_cls x = Imm /\ exists b, serialize s r = Ok b /\ snd (hash_of pyhash r s) = replace s r (Cell (c_cls x) (c_obj x) (c_hash x) (Some (pyhash b)))).
Proof.
  unfold hash_of, andthen, look, serialize_, put, ret. destruct (nth_error s r) as [x|] eqn:E; [|exists (Cell Imm (OSeq []) None None); auto].
  exists x. destruct (c_cls x) eqn:C; [|destruct (serialize s r); auto].
  destruct (c_pyhash x); [auto|]. destruct (serialize s r) as [b|]; [|auto]. right. eauto.
Qed.
Lemma kept_step o s : kept (fun r => In r (written o)) s (snd (step pyhash o s)).
Proof.
  unfold step. destruct (forallb _ _); [|apply kept_refl].
  destruct o; cbn [act_on written];
    try (apply kept_appends; auto using appends_new_point, appends_new_input, appends_new_output, appends_alloc, appends_new_tx, appends_load_tx,
      appends_from_outpoint, appends_from_txin, appends_from_txout, appends_from_tx; fail).
  - rewrite snd_giving. unfold set_attr, andthen, look. destruct (nth_error s r) as [x|] eqn:E; [|apply kept_refl].
    destruct (c_cls x) eqn:C; [apply kept_refl|]. destruct with_field; [|apply kept_refl]. apply kept_put; auto. left. reflexivity.
  - rewrite snd_giving. unfold change, andthen, look. destruct (nth_error s r) as [x|] eqn:E; [|apply kept_refl].
    destruct (c_obj x); try apply kept_refl. destruct (c_cls x) eqn:C; [apply kept_refl|]. apply kept_put; auto. left. reflexivity.
  - rewrite snd_giving. apply kept_refl.
  - rewrite snd_giving. destruct (GetHash_store r s) as (x & [->|(E & _ & b & _ & ->)]); [apply kept_refl|apply kept_cache; exact E].
  - rewrite snd_giving. destruct (hash_of_store r s) as (x & [->|(E & _ & b & _ & ->)]); [apply kept_refl|apply kept_cache; exact E].
  - rewrite snd_giving. unfold equal, andthen, look, serialize_, raise, ret. destruct (nth_error s a) as [x|]; [|apply kept_refl].
    destruct (nth_error s b) as [y|]; [|apply kept_refl]. destruct (_ || _); [apply kept_refl|]. destruct negb; [apply kept_refl|].
    destruct (c_cls x), (c_cls y), (serialize s a), (serialize s b); apply kept_refl.
  - rewrite snd_giving. destruct (raw_signature_hash_spec script r inIdx hashtype s) as [_ B]. intros y c E. exists c.
    rewrite (B y) by (eapply some_below; eauto). auto.
Qed.

(** ** Programs *)

Lemma run_cons o l s : snd (run pyhash (o :: l) s) = snd (run pyhash l (snd (step pyhash o s))).
Proof. cbn [run]. destruct (step pyhash o s) as [v s1]. cbn [snd]. destruct (run pyhash l s1). reflexivity. Qed.
Lemma run_app l l' s : snd (run pyhash (l ++ l') s) = snd (run pyhash l' (snd (run pyhash l s))).
Proof. revert s. induction l as [|o l IH]; intros s; [reflexivity|]. cbn [app]. rewrite !run_cons. apply IH. Qed.
Lemma kept_run prog : forall s, kept (fun r => exists o, In o prog /\ In r (written o)) s (snd (run pyhash prog s)).
Proof.
  induction prog as [|o prog IH]; intros s; [apply kept_refl|]. rewrite run_cons. intros r c E.
  destruct (kept_step o s r c E) as (c1 & E1 & C1 & O1). destruct (IH _ r c1 E1) as (c2 & E2 & C2 & O2).
  exists c2. split; [exact E2|]. split; [congruence|]. intros H. rewrite O2, O1; [reflexivity| |].
  - destruct H as [H|H]; [left; exact H|]. right. intros Hin. apply H. exists o. split; [left; reflexivity|exact Hin].
  - destruct H as [H|H]; [left; congruence|]. right. intros (o' & Ho & Hr). apply H. exists o'. split; [right; exact Ho|exact Hr].
Qed.
Lemma start_closed : closed start.
Proof.
  intros r c x. destruct r as [|r]; cbn; [|destruct r; discriminate]. intros [= <-]. intros [].
Qed.
Lemma run_closed prog : forall s, (1 <= List.length s)%nat -> closed s -> closed (snd (run pyhash prog s)) /\ (1 <= List.length (snd (run pyhash prog s)))%nat.
Proof.
  induction prog as [|o prog IH]; intros s L C; [auto|]. rewrite run_cons. destruct (closed_step pyhash o s L C). apply IH; assumption.
Qed.
Lemma reached_closed s : reached pyhash s -> closed s /\ (1 <= List.length s)%nat.
Proof. intros [prog ->]. apply run_closed; [cbn; lia|apply start_closed]. Qed.
Lemma reached_run s prog : reached pyhash s -> reached pyhash (snd (run pyhash prog s)).
Proof. intros [p ->]. exists (p ++ prog). symmetry. apply run_app. Qed.

(** ** Parts *)

Lemma part_below s x y : closed s -> (x < List.length s)%nat -> part s x y -> (y < List.length s)%nat.
Proof. intros C L H. induction H as [x|x c y z E Hy H IH]; [exact L|]. apply IH. eapply C; eauto. Qed.
Lemma part_trans s x y z : part s x y -> part s y z -> part s x z.
Proof. intros H K. induction H as [x|x c y w E Hy H IH]; [exact K|]. eapply part_in; eauto. Qed.
Definition agree (s s' : store) (x : ref) : Prop :=
  forall y, part s x y -> exists c c', nth_error s y = Some c /\ nth_error s' y = Some c' /\ c_cls c' = c_cls c /\ c_obj c' = c_obj c.
Lemma agree_in s s' x c y : agree s s' x -> nth_error s x = Some c -> In y (held (c_obj c)) -> agree s s' y.
Proof. intros A E H z Hz. apply A. eapply part_in; eauto. Qed.
Lemma mapM_same {A B} (f g : A -> result B) l : (forall a, In a l -> f a = g a) -> mapM f l = mapM g l.
Proof.
  induction l as [|x l IH]; intros H; cbn [mapM]; [reflexivity|]. rewrite (H x) by (left; reflexivity). rewrite IH by (intros; apply H; right; assumption). reflexivity.
Qed.
Lemma agree_looks s s' x : agree s s' x -> looks s s' x.
Proof.
  assert (P : forall r, agree s s' r -> point_at s' r = point_at s r).
  { intros r A. destruct (A r (part_self s r)) as ([c o a b] & [c' o' a' b'] & E & E' & _ & O). cbn in O. subst o'. unfold point_at. rewrite E, E'. reflexivity. }
  assert (I : forall r, agree s s' r -> input_at s' r = input_at s r).
  { intros r A. destruct (A r (part_self s r)) as ([c o a b] & [c' o' a' b'] & E & E' & _ & O). cbn in O. subst o'. unfold input_at. rewrite E, E'.
    destruct o; try reflexivity. rewrite P; [reflexivity|]. eapply agree_in; [exact A|exact E|]. left. reflexivity. }
  assert (U : forall r, agree s s' r -> output_at s' r = output_at s r).
  { intros r A. destruct (A r (part_self s r)) as ([c o a b] & [c' o' a' b'] & E & E' & _ & O). cbn in O. subst o'. unfold output_at. rewrite E, E'. reflexivity. }
  assert (Q : forall r, agree s s' r -> seq_at s' r = seq_at s r).
  { intros r A. destruct (A r (part_self s r)) as ([c o a b] & [c' o' a' b'] & E & E' & _ & O). cbn in O. subst o'. unfold seq_at. rewrite E, E'. reflexivity. }
  assert (SI : forall r l, agree s s' r -> seq_at s r = Ok l -> forall y, In y l -> agree s s' y).
  { intros r l A. unfold seq_at. destruct (A r (part_self s r)) as ([c o a b] & _ & E & _). rewrite E. destruct o; try discriminate. intros [= ->] y Hy.
    eapply agree_in; [exact A|exact E|exact Hy]. }
  assert (T : forall r, agree s s' r -> tx_at s' r = tx_at s r).
  { intros r A. destruct (A r (part_self s r)) as ([c o a b] & [c' o' a' b'] & E & E' & _ & O). cbn in O. subst o'. unfold tx_at. rewrite E, E'.
    destruct o; try reflexivity.
    assert (Ai : agree s s' vin) by (eapply agree_in; [exact A|exact E|]; left; reflexivity).
    assert (Ao : agree s s' vout) by (eapply agree_in; [exact A|exact E|]; right; left; reflexivity).
    rewrite !Q by assumption. destruct (seq_at s vin) as [li|] eqn:Si; cbn [bind]; [|reflexivity].
    rewrite (mapM_same (input_at s') (input_at s)) by (intros q Hq; apply I; exact (SI _ _ Ai Si q Hq)).
    destruct (mapM _ li); cbn [bind]; [|reflexivity]. destruct (seq_at s vout) as [lo|] eqn:So; cbn [bind]; [|reflexivity].
    rewrite (mapM_same (output_at s') (output_at s)) by (intros q Hq; apply U; exact (SI _ _ Ao So q Hq)). reflexivity. }
  intros A. unfold looks. split; [|exact (conj (T _ A) (conj (I _ A) (conj (U _ A) (conj (P _ A) (Q _ A)))))]. unfold serialize.
  destruct (A x (part_self s x)) as ([c o a b] & [c' o' a' b'] & E & E' & _ & O). cbn in O. subst o'. rewrite E, E'.
  destruct o; rewrite ?(P _ A), ?(I _ A), ?(U _ A), ?(T _ A); reflexivity.
Qed.
Lemma agree_part s s' x y : agree s s' x -> (part s' x y <-> part s x y).
Proof.
  intros A. split; intros H.
  - induction H as [x|x c y z E Hy H IH]; [apply part_self|].
    destruct (A x (part_self s x)) as (c0 & c1 & E0 & E1 & _ & O). rewrite E in E1. injection E1 as <-. rewrite O in Hy.
    eapply part_in; [exact E0|exact Hy|]. apply IH. eapply agree_in; eauto.
  - induction H as [x|x c y z E Hy H IH]; [apply part_self|].
    destruct (A x (part_self s x)) as (c0 & c1 & E0 & E1 & _ & O). rewrite E in E0. injection E0 as <-. rewrite <- O in Hy.
    eapply part_in; [exact E1|exact Hy|]. apply IH. eapply agree_in; [exact A|exact E|]. rewrite <- O. exact Hy.
Qed.
Lemma kept_frozen W s s' x : kept W s s' -> throughout Imm s x -> agree s s' x.
Proof.
  intros K F y Hy. destruct (F y Hy) as (c & E & C). destruct (K y c E) as (c' & E' & C' & O). exists c, c'. repeat (split; [assumption||reflexivity|]). apply O. auto.
Qed.
Lemma kept_alone W s s' x : kept W s s' -> closed s -> (x < List.length s)%nat -> (forall y, part s x y -> ~ W y) -> agree s s' x.
Proof.
  intros K C L F y Hy. pose proof (part_below _ _ _ C L Hy) as Ly. apply nth_error_Some in Ly. destruct (nth_error s y) as [c|] eqn:E; [|congruence].
  destruct (K y c E) as (c' & E' & C' & O). exists c, c'. repeat (split; [assumption||reflexivity|]). apply O. auto.
Qed.
Lemma agree_throughout k s s' x : agree s s' x -> throughout k s x -> throughout k s' x.
Proof.
  intros A F y Hy. rewrite (agree_part _ _ _ _ A) in Hy. destruct (F y Hy) as (c & E & C). destruct (A y Hy) as (c0 & c' & E0 & E' & C' & _).
  exists c'. split; [exact E'|]. congruence.
Qed.
(** What is immutable throughout was so from when it was made. *)
Lemma throughout_back W s s' x : kept W s s' -> closed s -> (x < List.length s)%nat -> throughout Imm s' x -> throughout Imm s x.
Proof.
  intros K C L F.
  assert (G : forall a y, part s a y -> (a < List.length s)%nat -> part s' x a -> part s' x y).
  { intros a y Hy. induction Hy as [a|a c y z E Hin Hy IH]; intros La Pa; [exact Pa|].
    destruct (K a c E) as (c' & E' & C' & O). destruct (F a Pa) as (c0 & E0 & C0). rewrite E' in E0. injection E0 as <-.
    apply IH; [eapply C; eauto|]. eapply part_trans; [exact Pa|]. eapply part_in; [exact E'| |apply part_self].
    rewrite O by (left; congruence). exact Hin. }
  intros y Hy. pose proof (part_below _ _ _ C L Hy) as Ly. apply nth_error_Some in Ly. destruct (nth_error s y) as [c|] eqn:E; [|congruence].
  exists c. split; [reflexivity|]. destruct (K y c E) as (c' & E' & C' & _). destruct (F y (G x y Hy L (part_self s' x))) as (c0 & E0 & C0). congruence.
Qed.

(** ** The caches *)

Definition caches (s : store) : Prop := forall r c, nth_error s r = Some c -> throughout Imm s r ->
  (forall h, c_hash c = Some h -> exists b, serialize s r = Ok b /\ h = Hash b) /\
  (forall z, c_pyhash c = Some z -> exists b, serialize s r = Ok b /\ z = pyhash b).
Lemma caches_tame W s s' : tamely s s' -> kept W s s' -> closed s -> caches s -> caches s'.
Proof.
  intros (L & O & N) K C Ca r c' E' F. destruct (Nat.lt_ge_cases r (List.length s)) as [Lr|Lr].
  - apply nth_error_Some in Lr as Lr'. destruct (nth_error s r) as [c|] eqn:E; [|congruence].
    destruct (O r c E) as (c1 & E1 & _ & H1 & H2 & _). rewrite E' in E1. injection E1 as <-.
    pose proof (throughout_back _ _ _ _ K C Lr F) as F0. destruct (agree_looks _ _ _ (kept_frozen _ _ _ _ K F0)) as [S _].
    rewrite S, H1, H2. exact (Ca r c E F0).
  - destruct (N r c' Lr E') as [-> ->]. split; discriminate.
Qed.
Lemma caches_cache s r x h g : nth_error s r = Some x -> closed s -> caches s ->
  (forall v, h = Some v -> c_hash x = Some v \/ exists b, serialize s r = Ok b /\ v = Hash b) ->
  (forall v, g = Some v -> c_pyhash x = Some v \/ exists b, serialize s r = Ok b /\ v = pyhash b) ->
  caches (replace s r (Cell (c_cls x) (c_obj x) h g)).
Proof.
  intros E C Ca Hh Hg y c Ey F. pose proof (kept_cache (fun _ => False) s r x h g E) as K.
  assert (Ly : (y < List.length s)%nat) by (apply some_below in Ey; rewrite replace_length in Ey; exact Ey).
  pose proof (throughout_back _ _ _ _ K C Ly F) as F0. destruct (agree_looks _ _ _ (kept_frozen _ _ _ _ K F0)) as [S _]. rewrite S.
  destruct (Nat.eq_dec y r) as [->|N].
  - rewrite replace_same in Ey by exact Ly. injection Ey as <-. cbn [c_hash c_pyhash]. destruct (Ca r x E F0) as [A B].
    split; intros v Hv; [destruct (Hh v Hv)|destruct (Hg v Hv)]; auto.
  - rewrite replace_other in Ey by exact N. exact (Ca y c Ey F0).
Qed.
Lemma tame_act_on o : match o with AskHash _ | AskPyHash _ => True | _ => tame (act_on pyhash o) end.
Proof.
  destruct o; try exact Logic.I; cbn [act_on]; unfold giving; apply tame_then; auto with tame.
Qed.
Lemma caches_step o s : closed s -> caches s -> caches (snd (step pyhash o s)).
Proof.
  intros C Ca. pose proof (kept_step o s) as K. unfold step in *. destruct (forallb _ _); [|exact Ca].
  pose proof (tame_act_on o) as T.
  destruct o; try (eapply caches_tame; [apply T|exact K|exact C|exact Ca]); clear K T; cbn [act_on]; rewrite snd_giving.
  - destruct (GetHash_store r s) as (x & [->|(E & _ & b & Sb & ->)]); [exact Ca|]. apply caches_cache; auto. intros v [= <-]. right. eauto.
  - destruct (hash_of_store r s) as (x & [->|(E & _ & b & Sb & ->)]); [exact Ca|]. apply caches_cache; auto. intros v [= <-]. right. eauto.
Qed.
Lemma caches_start : caches start.
Proof. intros [|r] c E _; cbn in E; [injection E as <-; split; discriminate|destruct r; discriminate]. Qed.
Lemma caches_run prog : forall s, (1 <= List.length s)%nat -> closed s -> caches s -> caches (snd (run pyhash prog s)).
Proof.
  induction prog as [|o prog IH]; intros s L C Ca; [exact Ca|]. rewrite run_cons. destruct (closed_step pyhash o s L C). apply IH; auto. apply caches_step; auto.
Qed.
Lemma reached_caches s : reached pyhash s -> caches s.
Proof. intros [prog ->]. apply caches_run; [cbn; lia|apply start_closed|apply caches_start]. Qed.

(** ** The properties *)

(** Objects that are immutable throughout, or of a mutable class. *)
Definition sound (s : store) (x : ref) : Prop := throughout Imm s x \/ has_class Mut s x.

Lemma GetHash_sound s x : reached pyhash s -> sound s x -> fst (GetHash x s) = (do b <- serialize s x; Ok (Hash b)).
Proof.
  intros R S. pose proof (reached_caches s R) as Ca. unfold GetHash, andthen, look, serialize_, put, ret.
  destruct S as [F|(c & E & C)].
  - destruct (F x (part_self s x)) as (c & E & C). rewrite E, C. destruct (c_hash c) as [h|] eqn:H.
    + destruct (proj1 (Ca x c E F) h H) as (b & Sb & ->). rewrite Sb. reflexivity.
    + destruct (serialize s x); reflexivity.
  - rewrite E, C. destruct (serialize s x); reflexivity.
Qed.
Lemma hash_of_sound s x : reached pyhash s -> sound s x -> fst (hash_of pyhash x s) = (do b <- serialize s x; Ok (pyhash b)).
Proof.
  intros R S. pose proof (reached_caches s R) as Ca. unfold hash_of, andthen, look, serialize_, put, ret.
  destruct S as [F|(c & E & C)].
  - destruct (F x (part_self s x)) as (c & E & C). rewrite E, C. destruct (c_pyhash c) as [h|] eqn:H.
    + destruct (proj2 (Ca x c E F) h H) as (b & Sb & ->). rewrite Sb. reflexivity.
    + destruct (serialize s x); reflexivity.
  - rewrite E, C. destruct (serialize s x); reflexivity.
Qed.
Lemma frozen_constant s x prog : throughout Imm s x -> looks s (snd (run pyhash prog s)) x /\ throughout Imm (snd (run pyhash prog s)) x.
Proof.
  intros F. pose proof (kept_frozen _ _ _ _ (kept_run prog s) F) as A. split; [apply agree_looks; exact A|eapply agree_throughout; eauto].
Qed.
Lemma alone_constant s x prog : reached pyhash s -> (x < List.length s)%nat -> leaves_alone s x prog ->
  looks s (snd (run pyhash prog s)) x /\ forall y, part (snd (run pyhash prog s)) x y <-> part s x y.
Proof.
  intros R L A. destruct (reached_closed s R) as [C _].
  assert (G : agree s (snd (run pyhash prog s)) x).
  { eapply kept_alone; [apply kept_run|exact C|exact L|]. intros y Hy (o & Ho & Hr). exact (A o y Ho Hr Hy). }
  split; [apply agree_looks; exact G|]. intros y. apply agree_part. exact G.
Qed.
End H.
