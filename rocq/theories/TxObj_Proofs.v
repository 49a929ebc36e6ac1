(** Proofs about transaction objects: what each call can change. *)
From Verif Require Import Base PySlice Sha256 Tx_Model Script_Model Block_Model SigHash_Model Money_Model TxObj_Model TxObj_Spec.

(** ** The store *)

Lemma replace_length s r c : List.length (replace s r c) = List.length s.
Proof. revert r; induction s as [|d s IH]; intros [|r]; cbn [replace List.length]; auto. Qed.
Lemma replace_other s r c x : x <> r -> nth_error (replace s r c) x = nth_error s x.
Proof.
  revert r x; induction s as [|d s IH]; intros [|r] [|x] H; cbn [replace nth_error]; auto; congruence.
Qed.
Lemma replace_same s r c : (r < List.length s)%nat -> nth_error (replace s r c) r = Some c.
Proof. revert r; induction s as [|d s IH]; intros [|r] H; cbn [replace nth_error List.length] in *; auto; try lia. apply IH; lia. Qed.
Lemma some_below (s : store) r c : nth_error s r = Some c -> (r < List.length s)%nat.
Proof. intros H. apply nth_error_Some. congruence. Qed.

(** All objects in slots are there. *)
Definition closed (s : store) : Prop := forall r c x, nth_error s r = Some c -> In x (held (c_obj c)) -> (x < List.length s)%nat.

(** ** What calls other than the two hashes do *)

(** Objects stay, with class and caches; those of the immutable classes stay as they are; new ones have nothing cached. *)
Definition tamely (s s' : store) : Prop :=
  (List.length s <= List.length s')%nat /\
  (forall r c, nth_error s r = Some c -> exists c', nth_error s' r = Some c' /\
     c_cls c' = c_cls c /\ c_hash c' = c_hash c /\ c_pyhash c' = c_pyhash c /\ (c_cls c = Imm -> c_obj c' = c_obj c)) /\
  (forall r c', (List.length s <= r)%nat -> nth_error s' r = Some c' -> c_hash c' = None /\ c_pyhash c' = None).
Definition tame {A} (m : M A) : Prop := forall s, tamely s (snd (m s)).

Lemma tame_same {A} (m : M A) : (forall s, snd (m s) = s) -> tame m.
Proof.
  intros H s. rewrite H. split; [lia|]. split.
  - intros r c E. exists c. auto.
  - intros r c' L E. apply some_below in E. lia.
Qed.
Lemma tame_ret {A} (a : A) : tame (ret a). Proof. apply tame_same. reflexivity. Qed.
Lemma tame_raise {A} e : tame (@raise A e). Proof. apply tame_same. reflexivity. Qed.
Lemma tame_pure {A} (r : result A) : tame (pure r). Proof. apply tame_same. reflexivity. Qed.
Lemma tame_look r : tame (look r). Proof. apply tame_same. intros s. unfold look. destruct nth_error; reflexivity. Qed.
Lemma tame_serialize r : tame (serialize_ r). Proof. apply tame_same. reflexivity. Qed.
Lemma tame_then {A B} (m : M A) (f : A -> M B) : tame m -> (forall a, tame (f a)) -> tame (andthen m f).
Proof.
  intros Hm Hf s. unfold andthen. destruct (Hm s) as (L & O & N). destruct (m s) as [[a|e] s1]; cbn [snd] in *; [|exact (conj L (conj O N))].
  destruct (Hf a s1) as (L2 & O2 & N2). split; [lia|]. split.
  - intros r c E. destruct (O r c E) as (c1 & E1 & A1 & A2 & A3 & A4).
    destruct (O2 r c1 E1) as (c2 & E2 & B1 & B2 & B3 & B4). exists c2. rewrite B1, B2, B3. repeat split; auto.
    intros I. rewrite B4 by congruence. auto.
  - intros r c' Lr E. destruct (Nat.lt_ge_cases r (List.length s1)) as [Hl|Hl]; [|eauto].
    apply nth_error_Some in Hl. destruct (nth_error s1 r) as [c1|] eqn:E1; [|congruence].
    destruct (O2 r c1 E1) as (c2 & E2 & _ & B2 & B3 & _). rewrite E in E2. injection E2 as <-. rewrite B2, B3. eauto.
Qed.
Lemma tame_alloc c o : tame (alloc c o).
Proof.
  intros s. unfold alloc, tamely. cbn [snd]. rewrite app_length. cbn [List.length]. split; [lia|]. split.
  - intros r c0 E. exists c0. rewrite nth_error_app1 by (eapply some_below; eauto). auto.
  - intros r c' L E. rewrite nth_error_app2 in E by lia. destruct (r - List.length s)%nat as [|k]; cbn in E.
    + injection E as <-. auto.
    + destruct k; discriminate.
Qed.
Lemma tame_each {A B} (f : A -> M B) l : (forall a, tame (f a)) -> tame (each f l).
Proof.
  intros H. induction l as [|x l IH]; cbn [each]; [apply tame_ret|].
  apply tame_then; [apply H|intros y]. apply tame_then; [exact IH|intros ys]. apply tame_ret.
Qed.
Create HintDb tame.
#[export] Hint Resolve tame_ret tame_raise tame_pure tame_look tame_serialize tame_alloc tame_each : tame.
Ltac tame := repeat first [ solve [auto with tame] | apply tame_then; [|intros ?]
  | match goal with |- tame (match ?x with _ => _ end) => destruct x end ].


Lemma tamely_put s r x o : nth_error s r = Some x -> c_cls x = Mut -> tamely s (replace s r (Cell Mut o (c_hash x) (c_pyhash x))).
Proof.
  intros E C. split; [rewrite replace_length; lia|]. split.
  - intros r0 c E0. destruct (Nat.eq_dec r0 r) as [->|Hr].
    + rewrite E in E0. injection E0 as <-. eexists. split; [apply replace_same; eapply some_below; eauto|].
      cbn. repeat split; congruence.
    + exists c. rewrite replace_other by assumption. auto.
  - intros r0 c' L E'. apply some_below in E'. rewrite replace_length in E'. lia.
Qed.
Lemma tame_set_attr r f : tame (set_attr r f).
Proof.
  intros s. unfold set_attr, andthen, look. destruct (nth_error s r) as [x|] eqn:E; [|apply (tame_raise (A:=unit) NameError)].
  destruct (c_cls x) eqn:C; [apply (tame_raise (A:=unit))|].
  destruct (with_field (c_obj x) f) as [o|]; [|apply (tame_raise (A:=unit))].
  apply tamely_put; assumption.
Qed.
Lemma tame_change r l : tame (change r l).
Proof.
  intros s. unfold change, andthen, look. destruct (nth_error s r) as [x|] eqn:E; [|apply (tame_raise (A:=unit) NameError)].
  destruct (c_obj x); try apply (tame_raise (A:=unit)).
  destruct (c_cls x) eqn:C; [apply (tame_raise (A:=unit))|]. apply tamely_put; assumption.
Qed.
#[export] Hint Resolve tame_set_attr tame_change : tame.

Lemma tame_new_point c h n : tame (new_point c h n). Proof. unfold new_point. tame. Qed.
#[export] Hint Resolve tame_new_point : tame.
Lemma tame_new_input c p sc q : tame (new_input c p sc q). Proof. unfold new_input. tame. Qed.
Lemma tame_new_output c v sc : tame (new_output c v sc). Proof. unfold new_output. tame. Qed.
#[export] Hint Resolve tame_new_input tame_new_output : tame.
Lemma tame_from_outpoint c r : tame (from_outpoint c r). Proof. unfold from_outpoint. tame. Qed.
#[export] Hint Resolve tame_from_outpoint : tame.
Lemma tame_from_txin c r : tame (from_txin c r). Proof. unfold from_txin. tame. Qed.
Lemma tame_from_txout c r : tame (from_txout c r). Proof. unfold from_txout. tame. Qed.
Lemma tame_iterate r : tame (iterate r). Proof. unfold iterate. tame. Qed.
#[export] Hint Resolve tame_from_txin tame_from_txout tame_iterate : tame.
Lemma tame_new_tx c vi vo l v : tame (new_tx c vi vo l v). Proof. unfold new_tx. tame. Qed.
#[export] Hint Resolve tame_new_tx : tame.
Lemma tame_from_tx c r : tame (from_tx c r). Proof. unfold from_tx. tame. Qed.
Lemma tame_load_input i : tame (load_input i). Proof. unfold load_input. tame. Qed.
#[export] Hint Resolve tame_from_tx tame_load_input : tame.
Lemma tame_load_tx c b : tame (load_tx c b). Proof. unfold load_tx. tame. Qed.
Lemma tame_append r x : tame (append r x). Proof. unfold append. tame. Qed.
Lemma tame_slot b r : tame (slot b r). Proof. unfold slot. tame. Qed.
Lemma tame_clear l : tame (clear_scripts l). Proof. unfold clear_scripts. tame. Qed.
#[export] Hint Resolve tame_load_tx tame_append tame_slot tame_clear : tame.
Lemma tame_zero_others i k l : tame (zero_others i k l).
Proof. revert k. induction l as [|r l IH]; intros k; cbn [zero_others]; tame. Qed.
Lemma tame_append_defaults r k : tame (append_defaults r k).
Proof. induction k as [|k IH]; cbn [append_defaults]; tame. Qed.
#[export] Hint Resolve tame_zero_others tame_append_defaults : tame.
Lemma tame_raw_signature_hash sc r i h : tame (raw_signature_hash sc r i h).
Proof. unfold raw_signature_hash. cbv zeta. tame. Qed.
Lemma tame_equal a b : tame (equal a b). Proof. unfold equal. tame. Qed.
#[export] Hint Resolve tame_raw_signature_hash tame_equal : tame.

(** ** Slots hold objects that are there *)

(** With objects below [k] named, all slots go on to hold objects that are there, and so does what is returned. *)
Definition goes {A} (k : nat) (m : M A) (Q : A -> nat -> Prop) : Prop := forall s,
  (k <= List.length s)%nat -> closed s ->
  (List.length s <= List.length (snd (m s)))%nat /\ closed (snd (m s)) /\
  match fst (m s) with Ok a => Q a (List.length (snd (m s))) | Err _ => True end.
Definition below (r : ref) (k : nat) : Prop := (r < k)%nat.
Definition allbelow (l : list ref) (k : nat) : Prop := Forall (fun r => (r < k)%nat) l.
Definition any {A} (a : A) (k : nat) : Prop := True.

Lemma goes_then {A B} k (m : M A) (f : A -> M B) Q R :
  goes k m Q -> (forall a k', (k <= k')%nat -> Q a k' -> goes k' (f a) R) -> goes k (andthen m f) R.
Proof.
  intros Hm Hf s L C. unfold andthen. destruct (Hm s L C) as (L1 & C1 & Q1). destruct (m s) as [[a|e] s1]; cbn [fst snd] in *.
  - destruct (Hf a (List.length s1) ltac:(lia) Q1 s1 ltac:(lia) C1) as (L2 & C2 & R2). split; [lia|]. auto.
  - auto.
Qed.
Lemma goes_ret {A} k (a : A) (Q : A -> nat -> Prop) : (forall k', (k <= k')%nat -> Q a k') -> goes k (ret a) Q.
Proof. intros H s L C. cbn. split; [lia|]. auto. Qed.
Lemma goes_raise {A} k e (Q : A -> nat -> Prop) : goes k (raise e) Q.
Proof. intros s L C. cbn. split; [lia|]. auto. Qed.
Lemma goes_pure {A} k (r : result A) (Q : A -> nat -> Prop) :
  (forall a k', r = Ok a -> (k <= k')%nat -> Q a k') -> goes k (pure r) Q.
Proof. intros H s L C. cbn. split; [lia|]. split; [assumption|]. destruct r; auto. Qed.
Lemma goes_weak {A} k (m : M A) (Q R : A -> nat -> Prop) : goes k m Q -> (forall a k', Q a k' -> R a k') -> goes k m R.
Proof. intros H W s L C. destruct (H s L C) as (L1 & C1 & Q1). destruct (fst (m s)); auto. Qed.
Lemma goes_later {A} k k' (m : M A) Q : goes k m Q -> (k <= k')%nat -> goes k' m Q.
Proof. intros H L s L' C. apply H; [lia|assumption]. Qed.
Lemma goes_look k r : goes k (look r) (fun c k' => allbelow (held (c_obj c)) k').
Proof.
  intros s L C. unfold look. destruct (nth_error s r) as [c|] eqn:E; cbn [fst snd]; (split; [lia|]); (split; [assumption|]); [|exact Logic.I].
  apply Forall_forall. intros x Hx. eapply C; eauto.
Qed.
Lemma goes_serialize k r : goes k (serialize_ r) any.
Proof. intros s L C. cbn. split; [lia|]. split; [assumption|]. destruct serialize; exact Logic.I. Qed.
Lemma goes_alloc k c o : allbelow (held o) k -> goes k (alloc c o) below.
Proof.
  intros H s L C. unfold alloc, below. cbn [fst snd]. rewrite app_length. cbn [List.length]. split; [lia|]. split; [|lia].
  intros r c0 x E Hx. rewrite app_length. cbn [List.length].
  destruct (Nat.lt_ge_cases r (List.length s)) as [Hl|Hl].
  - rewrite nth_error_app1 in E by assumption. specialize (C r c0 x E Hx). lia.
  - rewrite nth_error_app2 in E by assumption. destruct (r - List.length s)%nat as [|j]; cbn in E.
    + injection E as <-. cbn in Hx. unfold allbelow in H. rewrite Forall_forall in H. specialize (H x Hx). lia.
    + destruct j; discriminate.
Qed.
Lemma goes_put k r c : allbelow (held (c_obj c)) k -> goes k (put r c) any.
Proof.
  intros H s L C. unfold put. cbn [fst snd]. rewrite replace_length. split; [lia|]. split; [|exact Logic.I].
  intros r0 c0 x E Hx. rewrite replace_length. destruct (Nat.eq_dec r0 r) as [->|Hr].
  - assert (r < List.length s)%nat by (rewrite <- (replace_length s r c); eapply some_below; eauto).
    rewrite replace_same in E by assumption. injection E as <-.
    unfold allbelow in H. rewrite Forall_forall in H. specialize (H x Hx). lia.
  - rewrite replace_other in E by assumption. eauto.
Qed.
Lemma allbelow_later l k k' : allbelow l k -> (k <= k')%nat -> allbelow l k'.
Proof. intros H L. eapply Forall_impl; [|exact H]. cbv beta. intros; lia. Qed.
Lemma goes_each {A} k (f : A -> M ref) l : (forall a, In a l -> goes k (f a) below) -> goes k (each f l) allbelow.
Proof.
  revert k. induction l as [|x l IH]; intros k H; cbn [each].
  - apply goes_ret. intros; constructor.
  - eapply goes_then; [apply H; left; reflexivity|]. intros y k1 L1 Hy. cbv beta.
    eapply goes_then; [apply IH; intros a Ha; eapply goes_later; [apply H; right; exact Ha|exact L1]|].
    intros ys k2 L2 Hys. apply goes_ret. intros k' L'. constructor; [unfold below in Hy; lia|]. eapply allbelow_later; eauto.
Qed.

Ltac belows := unfold below, allbelow in *; repeat match goal with
  | H : Forall _ (_ :: _) |- _ => inversion H; subst; clear H
  | H : In _ [] |- _ => destruct H
  | |- Forall _ (_ :: _) => constructor
  | |- Forall _ [] => constructor
  end; try (eapply Forall_impl; [|eassumption]; cbv beta; intros); try lia.

Lemma goes_new_point k c h n : goes k (new_point c h n) below.
Proof.
  unfold new_point. eapply goes_then; [apply goes_pure with (Q := any); intros; exact Logic.I|].
  intros o k' L _. apply goes_alloc. constructor.
Qed.
Lemma goes_new_input k c p sc q : match p with Some r => below r k | None => True end -> goes (Nat.max 1 k) (new_input c p sc q) below.
Proof.
  intros H. unfold new_input. destruct negb; [apply goes_raise|].
  eapply goes_then with (Q := below).
  - destruct p as [p|]; [apply goes_ret; intros; belows|]. destruct c; [apply goes_ret; intros; unfold below, default_point; lia|apply goes_new_point].
  - intros a k' L Ha. apply goes_alloc. cbn [held]. belows.
Qed.
Lemma goes_new_output k c v sc : goes k (new_output c v sc) below.
Proof. apply goes_alloc. constructor. Qed.
Lemma goes_from_outpoint k c r : goes k (from_outpoint c r) below.
Proof.
  destruct c; cbn [from_outpoint]; [apply goes_raise|]. eapply goes_then; [apply goes_look|]. intros x k' L H.
  cbv beta in H; revert H; destruct (c_obj x); intros H; cbn [held] in H; try apply goes_raise. apply goes_new_point.
Qed.
Lemma goes_from_txin k c r : below r k -> goes (Nat.max 1 k) (from_txin c r) below.
Proof.
  intros Hr. unfold from_txin. eapply goes_then; [apply goes_look|]. intros x k' L H.
  destruct c.
  - destruct (c_cls x); [|apply goes_raise]. cbv beta in H; revert H; destruct (c_obj x); intros H; cbn [held] in H; try apply goes_raise. apply goes_ret. intros; belows.
  - cbv beta in H; revert H; destruct (c_obj x); intros H; cbn [held] in H; try apply goes_raise.
    eapply goes_then; [apply goes_from_outpoint|]. intros p' k2 L2 Hp.
    replace k2 with (Nat.max 1 k2) by lia. apply goes_new_input. exact Hp.
Qed.
Lemma goes_from_txout k c r : below r k -> goes k (from_txout c r) below.
Proof.
  intros Hr. unfold from_txout. eapply goes_then; [apply goes_look|]. intros x k' L H.
  cbv beta in H; revert H; destruct (c_obj x); intros H; cbn [held] in H; try apply goes_raise. destruct c; [|apply goes_new_output].
  destruct (c_cls x); [|apply goes_new_output]. apply goes_ret. intros; belows.
Qed.
Lemma goes_iterate k r : goes k (iterate r) allbelow.
Proof.
  unfold iterate. eapply goes_then; [apply goes_look|]. intros x k' L H.
  cbv beta in H; revert H; destruct (c_obj x); intros H; cbn [held] in H; try apply goes_raise. apply goes_ret. intros. cbv beta in H; cbn [held] in H. eapply allbelow_later; [exact H|assumption].
Qed.
Lemma goes_new_tx k c vi vo l v :
  match vi with Some r => below r k | None => True end -> match vo with Some r => below r k | None => True end ->
  goes (Nat.max 1 k) (new_tx c vi vo l v) below.
Proof.
  intros Hi Ho. unfold new_tx. destruct negb; [apply goes_raise|]. destruct c.
  - eapply goes_then with (Q := allbelow); [destruct vi; [apply goes_iterate|apply goes_ret; intros; constructor]|].
    intros li k1 L1 H1. eapply goes_then with (Q := allbelow).
    { apply goes_each. intros a Ha. replace k1 with (Nat.max 1 k1) by lia. apply goes_from_txin. unfold allbelow in H1. rewrite Forall_forall in H1. apply H1; exact Ha. }
    intros li' k2 L2 H2. eapply goes_then; [apply goes_alloc; exact H2|].
    intros r3 k3 L3 H3. eapply goes_then with (Q := allbelow); [destruct vo; [apply goes_iterate|apply goes_ret; intros; constructor]|].
    intros lo k4 L4 H4. eapply goes_then with (Q := allbelow).
    { apply goes_each. intros a Ha. apply goes_from_txout. unfold allbelow in H4. rewrite Forall_forall in H4. apply H4; exact Ha. }
    intros lo' k5 L5 H5. eapply goes_then; [apply goes_alloc; exact H5|].
    intros r6 k6 L6 H6. apply goes_alloc. cbn [held]. belows.
  - eapply goes_then with (Q := below); [destruct vi; [apply goes_ret; intros; belows|apply goes_alloc; constructor]|].
    intros r1 k1 L1 H1. eapply goes_then with (Q := below); [destruct vo; [apply goes_ret; intros; belows|apply goes_alloc; constructor]|].
    intros r2 k2 L2 H2. apply goes_alloc. cbn [held]. belows.
Qed.
Lemma goes_from_tx k c r : below r k -> goes (Nat.max 1 k) (from_tx c r) below.
Proof.
  intros Hr. unfold from_tx. eapply goes_then; [apply goes_look|]. intros x k1 L1 H1. cbv beta in H1.
  revert H1; destruct (c_obj x) as [| | |vi vo l v|]; intros H1; try apply goes_raise. cbn [held] in H1.
  assert (below vi k1 /\ below vo k1) as [Hv Hw] by (split; belows).
  destruct c.
  - destruct (c_cls x); [apply goes_ret; intros; belows|].
    replace k1 with (Nat.max 1 k1) by lia. apply goes_new_tx; assumption.
  - eapply goes_then; [apply goes_iterate|]. intros li k2 L2 H2. eapply goes_then with (Q := allbelow).
    { apply goes_each. intros a Ha. replace k2 with (Nat.max 1 k2) by lia. apply goes_from_txin. unfold allbelow in H2. rewrite Forall_forall in H2. apply H2; exact Ha. }
    intros li' k3 L3 H3. eapply goes_then; [apply goes_alloc; exact H3|].
    intros r4 k4 L4 H4. eapply goes_then; [apply goes_iterate|]. intros lo k5 L5 H5. eapply goes_then with (Q := allbelow).
    { apply goes_each. intros a Ha. apply goes_from_txout. unfold allbelow in H5. rewrite Forall_forall in H5. apply H5; exact Ha. }
    intros lo' k6 L6 H6. eapply goes_then; [apply goes_alloc; exact H6|].
    intros r7 k7 L7 H7. replace k7 with (Nat.max 1 k7) by lia. apply goes_new_tx; belows.
Qed.
Lemma goes_load_input k i : goes (Nat.max 1 k) (load_input i) below.
Proof.
  unfold load_input. eapply goes_then; [apply goes_new_point|]. intros p k1 L1 H1.
  replace k1 with (Nat.max 1 k1) by lia. apply goes_new_input. exact H1.
Qed.
Lemma goes_load_tx k c b : goes (Nat.max 1 k) (load_tx c b) below.
Proof.
  unfold load_tx. eapply goes_then; [apply goes_pure with (Q := any); intros; exact Logic.I|].
  intros t k1 L1 _. eapply goes_then with (Q := allbelow).
  { apply goes_each. intros a Ha. replace k1 with (Nat.max 1 k1) by lia. apply goes_load_input. }
  intros li' k3 L3 H3. eapply goes_then; [apply goes_alloc; exact H3|].
  intros r4 k4 L4 H4. eapply goes_then with (Q := allbelow).
  { apply goes_each. intros a Ha. apply goes_new_output. }
  intros lo' k6 L6 H6. eapply goes_then; [apply goes_alloc; exact H6|].
  intros r7 k7 L7 H7. replace k7 with (Nat.max 1 k7) by lia. apply goes_new_tx; belows.
Qed.
Lemma goes_set_attr k r f : match f with FPrevout x | FVin x | FVout x => below x k | _ => True end -> goes k (set_attr r f) any.
Proof.
  intros Hf. unfold set_attr. eapply goes_then; [apply goes_look|]. intros x k1 L1 H1. cbv beta in H1.
  destruct (c_cls x); [apply goes_raise|]. destruct (with_field (c_obj x) f) as [o|] eqn:W; [|apply goes_raise].
  apply goes_put. cbn [c_obj]. revert H1; destruct (c_obj x), f; intros H1; cbn [with_field] in W; try discriminate; injection W as <-; cbn [held] in *; belows.
Qed.
Lemma goes_change k r l : allbelow l k -> goes k (change r l) any.
Proof.
  intros Hl. unfold change. eapply goes_then; [apply goes_look|]. intros x k1 L1 H1. cbv beta in H1.
  revert H1; destruct (c_obj x); intros H1; cbn [held] in H1; try apply goes_raise. destruct (c_cls x); [apply goes_raise|].
  apply goes_put. cbn [c_obj held]. eapply allbelow_later; eauto.
Qed.
Lemma goes_append k r x : below x k -> goes k (append r x) any.
Proof.
  intros H. unfold append. eapply goes_then; [apply goes_iterate|]. intros l k1 L1 H1.
  apply goes_change. apply Forall_app. split; [exact H1|]. constructor; [unfold below in H; lia|constructor].
Qed.
Lemma goes_clear k l : goes k (clear_scripts l) any.
Proof.
  unfold clear_scripts. eapply goes_then with (Q := any); [|intros; apply goes_ret; intros; exact Logic.I].
  induction l as [|x l IH]; cbn [each]; [apply goes_ret; intros; exact Logic.I|].
  eapply goes_then; [apply goes_set_attr; exact Logic.I|]. intros a k1 L1 _.
  eapply goes_then; [eapply goes_later; [exact IH|exact L1]|]. intros ys k2 L2 _. apply goes_ret; intros; exact Logic.I.
Qed.
Lemma goes_zero_others k i j l : goes k (zero_others i j l) any.
Proof.
  revert j. induction l as [|r l IH]; intros j; cbn [zero_others]; [apply goes_ret; intros; exact Logic.I|].
  eapply goes_then with (Q := any); [destruct (j =? i)%Z; [apply goes_ret; intros; exact Logic.I|apply goes_set_attr; exact Logic.I]|].
  intros a k1 L1 _. eapply goes_later; [apply IH|exact L1].
Qed.
Lemma goes_slot k b r : goes k (slot b r) below.
Proof.
  unfold slot. eapply goes_then; [apply goes_look|]. intros x k1 L1 H1. cbv beta in H1.
  revert H1; destruct (c_obj x); intros H1; cbn [held] in H1; try apply goes_raise. cbn [held] in H1. apply goes_ret. intros. destruct b; belows.
Qed.
Lemma goes_append_defaults k r n : goes k (append_defaults r n) any.
Proof.
  revert k. induction n as [|n IH]; intros k; cbn [append_defaults]; [apply goes_ret; intros; exact Logic.I|].
  eapply goes_then; [apply goes_new_output|]. intros o k1 L1 H1.
  eapply goes_then; [apply goes_append; exact H1|]. intros u k2 L2 _. apply IH.
Qed.
Definition pos (len : nat) (i : Z) : nat := Z.to_nat (if (i <? 0)%Z then i + Z.of_nat len else i).
Lemma py_index_pos {A} (l : list A) i : py_index l i = match (if (i <? 0)%Z && (i + Z.of_nat (List.length l) <? 0)%Z then None else nth_error l (pos (List.length l) i)) with Some x => Ok x | None => Err IndexError end.
Proof.
  unfold py_index, znth, pos. destruct (i <? 0)%Z eqn:E; cbn [andb]; [|rewrite E]; reflexivity.
Qed.
Lemma py_index_In {A} (l : list A) i x : py_index l i = Ok x -> In x l.
Proof.
  rewrite py_index_pos. destruct (_ && _); [discriminate|]. destruct nth_error eqn:E; [|discriminate].
  intros [= <-]. eapply nth_error_In; eauto.
Qed.
Lemma goes_raw_signature_hash k sc r i h : below r k -> goes (Nat.max 1 k) (raw_signature_hash sc r i h) any.
Proof.
  intros Hr. unfold raw_signature_hash. cbv zeta.
  eapply goes_then; [apply goes_slot|]. intros v k1 L1 H1.
  eapply goes_then; [apply goes_iterate|]. intros l k2 L2 H2.
  destruct (_ <=? _)%Z; [apply goes_ret; intros; exact Logic.I|].
  eapply goes_then; [eapply goes_later; [apply goes_from_tx; exact Hr|lia]|]. intros tmp k3 L3 H3.
  eapply goes_then; [apply goes_slot|]. intros v4 k4 L4 H4.
  eapply goes_then; [apply goes_iterate|]. intros li k5 L5 H5.
  eapply goes_then; [apply goes_clear|]. intros _ k6 L6 _.
  eapply goes_then; [apply goes_pure with (Q := any); intros; exact Logic.I|]. intros sc' k7 L7 _.
  eapply goes_then; [apply goes_pure with (Q := any); intros; exact Logic.I|]. intros i' k8 L8 _.
  eapply goes_then; [apply goes_set_attr; exact Logic.I|]. intros _ k9 L9 _.
  assert (F : forall k', (k9 <= k')%nat -> goes k'
    (act _ <- (if (Z.land h 0x80 =? 0)%Z then ret tt
                else act v <- slot true tmp; act li <- iterate v; act tmp0 <- pure (py_index li i);
                     act n <- alloc Mut (OSeq []); act _ <- set_attr tmp (FVin n); append n tmp0);
      act b <- serialize_ tmp; act h0 <- pure (pack_u 4 h); ret (Hash (b ++ h0), false)) any).
  { intros k' L. eapply goes_then with (Q := any).
    - destruct (_ =? _)%Z; [apply goes_ret; intros; exact Logic.I|].
      eapply goes_then; [apply goes_slot|]. intros v10 k10 L10 H10.
      eapply goes_then; [apply goes_iterate|]. intros l11 k11 L11 H11.
      eapply goes_then with (Q := below).
      { apply goes_pure. intros a k0 E Lk. apply py_index_In in E. unfold allbelow in H11. rewrite Forall_forall in H11.
        specialize (H11 _ E). unfold below. lia. }
      intros t12 k12 L12 H12. eapply goes_then; [apply goes_alloc; constructor|]. intros n13 k13 L13 H13.
      eapply goes_then; [apply goes_set_attr; exact H13|]. intros _ k14 L14 _. apply goes_append. unfold below in *; lia.
    - intros _ k10 L10 _. eapply goes_then; [apply goes_serialize|]. intros b k11 L11 _.
      eapply goes_then; [apply goes_pure with (Q := any); intros; exact Logic.I|]. intros ? ? ? ?. apply goes_ret; intros; exact Logic.I. }
  destruct (_ =? 2)%Z; [|destruct (_ =? 3)%Z; [|apply F; lia]].
  - eapply goes_then; [apply goes_alloc; constructor|]. intros n k10 L10 H10.
    eapply goes_then; [apply goes_set_attr; exact H10|]. intros _ k11 L11 _.
    eapply goes_then; [apply goes_slot|]. intros v12 k12 L12 H12.
    eapply goes_then; [apply goes_iterate|]. intros l13 k13 L13 H13.
    eapply goes_then; [apply goes_zero_others|]. intros _ k14 L14 _. apply F; lia.
  - eapply goes_then; [apply goes_slot|]. intros w k10 L10 H10.
    eapply goes_then; [apply goes_iterate|]. intros lo k11 L11 H11.
    destruct (_ <=? _)%Z; [apply goes_ret; intros; exact Logic.I|].
    eapply goes_then with (Q := below).
    { apply goes_pure. intros a k0 E Lk. apply py_index_In in E. unfold allbelow in H11. rewrite Forall_forall in H11.
      specialize (H11 _ E). unfold below. lia. }
    intros t12 k12 L12 H12. eapply goes_then; [apply goes_alloc; constructor|]. intros n13 k13 L13 H13.
    eapply goes_then; [apply goes_set_attr; exact H13|]. intros _ k14 L14 _.
    eapply goes_then; [apply goes_append_defaults|]. intros _ k15 L15 _.
    eapply goes_then; [apply goes_append; unfold below in *; lia|]. intros _ k16 L16 _.
    eapply goes_then; [apply goes_slot|]. intros v17 k17 L17 H17.
    eapply goes_then; [apply goes_iterate|]. intros l18 k18 L18 H18.
    eapply goes_then; [apply goes_zero_others|]. intros _ k19 L19 _. apply F; lia.
Qed.
Lemma goes_equal k a b : goes k (equal a b) any.
Proof.
  unfold equal. eapply goes_then; [apply goes_look|]. intros x k1 L1 H1. eapply goes_then; [apply goes_look|]. intros y k2 L2 H2.
  destruct (_ || _); [apply goes_raise|]. destruct negb; [apply goes_ret; intros; exact Logic.I|].
  destruct (c_cls x), (c_cls y);
  (eapply goes_then; [apply goes_serialize|]; intros ? ? ? ?; eapply goes_then; [apply goes_serialize|]; intros ? ? ? ?; apply goes_ret; intros; exact Logic.I).
Qed.
Lemma goes_GetHash k r : goes k (GetHash r) any.
Proof.
  unfold GetHash. eapply goes_then; [apply goes_look|]. intros x k1 L1 H1. cbv beta in H1.
  destruct (c_cls x); [destruct (c_hash x); [apply goes_ret; intros; exact Logic.I|]|];
  (eapply goes_then; [apply goes_serialize|]; intros ? ? ? ?).
  - eapply goes_then; [apply goes_put; eapply allbelow_later; [exact H1|assumption]|]. intros; apply goes_ret; intros; exact Logic.I.
  - apply goes_ret; intros; exact Logic.I.
Qed.
Section H.
Context (pyhash : bytes -> Z).
Lemma goes_hash_of k r : goes k (hash_of pyhash r) any.
Proof.
  unfold hash_of. eapply goes_then; [apply goes_look|]. intros x k1 L1 H1. cbv beta in H1.
  destruct (c_cls x); [destruct (c_pyhash x); [apply goes_ret; intros; exact Logic.I|]|];
  (eapply goes_then; [apply goes_serialize|]; intros ? ? ? ?).
  - eapply goes_then; [apply goes_put; eapply allbelow_later; [exact H1|assumption]|]. intros; apply goes_ret; intros; exact Logic.I.
  - apply goes_ret; intros; exact Logic.I.
Qed.
Lemma goes_giving {A} k (f : A -> out) m Q : goes k m Q -> goes k (giving f m) any.
Proof. intros H. unfold giving. eapply goes_then; [exact H|]. intros. apply goes_ret. intros; exact Logic.I. Qed.
Lemma closed_step o s : (1 <= List.length s)%nat -> closed s -> closed (snd (step pyhash o s)) /\ (1 <= List.length (snd (step pyhash o s)))%nat.
Proof.
  intros L C. unfold step. destruct (forallb _ _) eqn:E; [|auto]. rewrite forallb_forall in E.
  assert (N : forall r, In r (named o) -> below r (List.length s)) by (intros r Hr; specialize (E r Hr); unfold below; lia).
  assert (G : goes (Nat.max 1 (List.length s)) (act_on pyhash o) any).
  { destruct o; cbn [act_on named] in *.
    - eapply goes_giving, goes_new_point.
    - eapply goes_giving, goes_new_input. destruct prevout; [apply N; left; reflexivity|exact Logic.I].
    - eapply goes_giving, goes_new_output.
    - eapply goes_giving, goes_alloc. cbn [held]. apply Forall_forall. intros x Hx. specialize (N x Hx). unfold below in N. lia.
    - eapply goes_giving, goes_new_tx; [destruct vin|destruct vout]; try exact Logic.I; apply N; apply in_or_app; cbn; auto.
    - eapply goes_giving, goes_load_tx.
    - eapply goes_giving, goes_from_outpoint.
    - eapply goes_giving, goes_from_txin. apply N; left; reflexivity.
    - eapply goes_giving. eapply goes_later; [apply goes_from_txout; apply N; left; reflexivity|lia].
    - eapply goes_giving, goes_from_tx. apply N; left; reflexivity.
    - eapply goes_giving. eapply goes_later; [apply goes_set_attr with (k := List.length s)|lia]. destruct f; try exact Logic.I; apply N; right; left; reflexivity.
    - eapply goes_giving. eapply goes_later; [apply goes_change with (k := List.length s)|lia]. apply Forall_forall. intros x Hx. apply N. right. exact Hx.
    - eapply goes_giving, goes_serialize.
    - eapply goes_giving, goes_GetHash.
    - eapply goes_giving, goes_hash_of.
    - eapply goes_giving, goes_equal.
    - eapply goes_giving, goes_raw_signature_hash. apply N; left; reflexivity. }
  destruct (G s ltac:(lia) C) as (L1 & C1 & _). split; [assumption|lia].
Qed.
End H.
