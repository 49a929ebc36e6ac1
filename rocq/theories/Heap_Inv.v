(** Proofs about Heap_Model.v, part 1: what is true of every state a program can reach. *)
From Verif Require Import Base Sha256 Serialize_Model Tx_Model Proof_Model Proof_Spec Cache_Model Construct_Proofs
  Proof_Proofs ProofView_Proofs Heap_Model Heap_Spec.
From Coq Require Import ZifyBool ZifyNat ZifyN.

(** ** Lists *)

Lemma nth_error_snoc {A} (l : list A) x k : nth_error (l ++ [x]) k = if k =? List.length l then Some x else nth_error l k.
Proof.
  destruct (Nat.eqb_spec k (List.length l)) as [->|N].
  - rewrite nth_error_app2 by lia. rewrite Nat.sub_diag. reflexivity.
  - destruct (Nat.lt_ge_cases k (List.length l)) as [L|G]; [apply nth_error_app1, L|].
    rewrite nth_error_app2 by lia. destruct (k - List.length l) as [|m] eqn:E; [lia|]. cbn. destruct m; symmetry; apply nth_error_None; lia.
Qed.

Lemma nth_error_lt {A} (l : list A) k x : nth_error l k = Some x -> k < List.length l.
Proof. intros H. apply nth_error_Some. congruence. Qed.

Lemma assoc_snoc {A} n (l : list (string * A)) m x : assoc n (l ++ [(m, x)]) = match assoc n l with Some y => Some y | None => if String.eqb m n then Some x else None end.
Proof. induction l as [|[k y] l IH]; cbn; [reflexivity|]. destruct (String.eqb k n); [reflexivity|exact IH]. Qed.

Lemma assoc_in {A} n (l : list (string * A)) x : assoc n l = Some x -> In (n, x) l.
Proof. induction l as [|[k y] l IH]; cbn; [discriminate|]. destruct (String.eqb_spec k n) as [->|_]; intros H; [inversion H; auto|auto]. Qed.

Lemma in_assoc {A} n (l : list (string * A)) x : NoDup (map fst l) -> In (n, x) l -> assoc n l = Some x.
Proof.
  induction l as [|[k y] l IH]; cbn; [contradiction|]. intros D [H|H].
  - inversion H; subst. rewrite String.eqb_refl. reflexivity.
  - inversion D as [|? ? N D']; subst. destruct (String.eqb_spec k n) as [->|_]; [|auto].
    exfalso. apply N. apply in_map_iff. exists (n, x). auto.
Qed.

Lemma assoc_none {A} n (l : list (string * A)) : assoc n l = None <-> ~ In n (map fst l).
Proof.
  induction l as [|[k y] l IH]; cbn; [tauto|]. destruct (String.eqb_spec k n) as [->|N]; [split; [discriminate|tauto]|]. rewrite IH. tauto.
Qed.

(** ** What an object stands for *)

(** The value an object stands for: that of its original if it is a view, else its attributes, or
    only its data hash. *)
Inductive content (h : list obj) : hval -> val -> Prop :=
| Ct_leaf v : is_proof v = false -> content h (HLeaf v) v
| Ct_view r o p v : nth_error h r = Some o -> b_orig o = Some p -> content h (HRef p) v -> content h (HRef r) v
| Ct_hash r o d : nth_error h r = Some o -> b_orig o = None -> b_fully o = true -> b_dhash o = Some d -> content h (HRef r) (PHash (b_class o) d)
| Ct_full r o fs : nth_error h r = Some o -> b_orig o = None -> b_fully o = false -> contents h (map snd (b_attrs o)) fs ->
    content h (HRef r) (PFull (b_class o) fs)
with contents (h : list obj) : list hval -> list val -> Prop :=
| Cts_nil : contents h [] []
| Cts_cons x v xs vs : content h x v -> contents h xs vs -> contents h (x :: xs) (v :: vs).

Scheme content_mind := Induction for content Sort Prop
  with contents_mind := Induction for contents Sort Prop.
Combined Scheme content_both from content_mind, contents_mind.

Lemma content_det h : (forall x v, content h x v -> forall w, content h x w -> v = w) /\
  (forall xs vs, contents h xs vs -> forall ws, contents h xs ws -> vs = ws).
Proof.
  apply content_both.
  - intros v L w H. inversion H; reflexivity.
  - intros r o p v E1 E2 C IH w H. inversion H as [|? o' p' ? F1 F2 F3|? o' d' F1 F2 F3 F4|? o' fs' F1 F2 F3 F4]; subst; rewrite E1 in F1; inversion F1; subst o'; try congruence.
    rewrite E2 in F2. inversion F2; subst. apply IH, F3.
  - intros r o d E1 E2 E3 E4 w H. inversion H as [|? o' p' ? F1 F2 F3|? o' d' F1 F2 F3 F4|? o' fs' F1 F2 F3 F4]; subst; rewrite E1 in F1; inversion F1; subst o'; congruence.
  - intros r o fs E1 E2 E3 C IH w H. inversion H as [|? o' p' ? F1 F2 F3|? o' d' F1 F2 F3 F4|? o' fs' F1 F2 F3 F4]; subst; rewrite E1 in F1; inversion F1; subst o'; try congruence.
    f_equal. apply IH, F4.
  - intros ws H. inversion H; reflexivity.
  - intros x v xs vs C1 I1 C2 I2 ws H. inversion H; subst. f_equal; auto.
Qed.
Lemma content_fun h x v w : content h x v -> content h x w -> v = w.
Proof. intros H. apply (proj1 (content_det h) x v H). Qed.

Lemma contents_nth h xs vs : contents h xs vs -> forall i x, nth_error xs i = Some x -> exists v, nth_error vs i = Some v /\ content h x v.
Proof. induction 1 as [|x v xs vs C _ IH]; intros [|i] y E; cbn in *; try discriminate; [inversion E; subst; eauto|eauto]. Qed.
Lemma contents_nth' h xs vs : contents h xs vs -> forall i v, nth_error vs i = Some v -> exists x, nth_error xs i = Some x /\ content h x v.
Proof. induction 1 as [|x v xs vs C _ IH]; intros [|i] y E; cbn in *; try discriminate; [inversion E; subst; eauto|eauto]. Qed.
Lemma contents_length h xs vs : contents h xs vs -> List.length vs = List.length xs.
Proof. induction 1; cbn; congruence. Qed.

(** The value is a proof exactly when a reference stands for it. *)
Lemma content_leaf h v w : content h (HLeaf v) w -> w = v /\ is_proof v = false.
Proof. intros H. inversion H; auto. Qed.
Lemma content_not_view h x v : content h x v -> match v with PView _ _ _ => False | _ => True end.
Proof. induction 1 as [v L| | |]; try assumption; try exact Logic.I. destruct v; try discriminate L; exact Logic.I. Qed.

(** ** Later states *)

(** What never changes in an object: class, original, is_pruned, the attributes set, hashes that were
    computed; nothing about the attributes if it is not a view. *)
Record later (o o' : obj) : Prop := {
  la_class : b_class o' = b_class o;
  la_orig : b_orig o' = b_orig o;
  la_pruned : b_pruned o' = b_pruned o;
  la_attrs : forall n x, assoc n (b_attrs o) = Some x -> assoc n (b_attrs o') = Some x;
  la_full : b_orig o = None -> b_attrs o' = b_attrs o /\ b_fully o' = b_fully o;
  la_dhash : forall d, b_dhash o = Some d -> b_dhash o' = Some d;
  la_hash : forall d, b_hash o = Some d -> b_hash o' = Some d }.

Definition grows (h h' : list obj) : Prop := forall r o, nth_error h r = Some o -> exists o', nth_error h' r = Some o' /\ later o o'.

Lemma later_refl o : later o o.
Proof. constructor; auto. Qed.
Lemma later_trans a b c : later a b -> later b c -> later a c.
Proof.
  intros [A1 A2 A3 A4 A5 A6 A7] [B1 B2 B3 B4 B5 B6 B7]. constructor; try congruence; auto.
  intros N. destruct (A5 N) as (X & Y). rewrite A2 in B5. destruct (B5 N) as (X' & Y'). split; congruence.
Qed.
Lemma grows_refl h : grows h h.
Proof. intros r o H. exists o. split; [exact H|apply later_refl]. Qed.
Lemma grows_trans a b c : grows a b -> grows b c -> grows a c.
Proof. intros A B r o H. destruct (A r o H) as (o1 & H1 & L1). destruct (B r o1 H1) as (o2 & H2 & L2). exists o2. split; [exact H2|]. eapply later_trans; eassumption. Qed.
Lemma grows_snoc h o : grows h (h ++ [o]).
Proof. intros r x H. exists x. split; [|apply later_refl]. rewrite nth_error_app1; [exact H|]. eapply nth_error_lt, H. Qed.
Lemma grows_set h r o o' : nth_error h r = Some o -> later o o' -> grows h (set_nth r o' h).
Proof.
  intros H L k x Hk. destruct (Nat.eq_dec r k) as [->|N].
  - rewrite H in Hk. inversion Hk; subst. exists o'. split; [|exact L]. apply set_nth_same. eapply nth_error_lt, H.
  - exists x. split; [|apply later_refl]. rewrite set_nth_other; auto.
Qed.
Lemma grows_length h h' : grows h h' -> List.length h <= List.length h'.
Proof.
  intros G. destruct (List.length h) as [|n] eqn:E; [lia|].
  destruct (nth_error h n) as [o|] eqn:En; [|apply nth_error_None in En; lia].
  destruct (G n o En) as (o' & H & _). apply nth_error_lt in H. lia.
Qed.

Lemma content_grows h h' : grows h h' -> (forall x v, content h x v -> content h' x v) /\ (forall xs vs, contents h xs vs -> contents h' xs vs).
Proof.
  intros G. apply content_both.
  - intros v L. apply Ct_leaf, L.
  - intros r o p v E1 E2 _ IH. destruct (G r o E1) as (o' & E' & L). eapply Ct_view; [exact E'|rewrite (la_orig _ _ L); exact E2|exact IH].
  - intros r o d E1 E2 E3 E4. destruct (G r o E1) as (o' & E' & L). rewrite <- (la_class _ _ L).
    eapply Ct_hash; [exact E'|rewrite (la_orig _ _ L); exact E2|destruct (la_full _ _ L E2); congruence|apply (la_dhash _ _ L), E4].
  - intros r o fs E1 E2 E3 _ IH. destruct (G r o E1) as (o' & E' & L). rewrite <- (la_class _ _ L). destruct (la_full _ _ L E2) as (X & Y).
    eapply Ct_full; [exact E'|rewrite (la_orig _ _ L); exact E2|congruence|rewrite X; exact IH].
  - constructor.
  - intros. constructor; assumption.
Qed.
Lemma content_grow h h' x v : grows h h' -> content h x v -> content h' x v.
Proof. intros G. apply (proj1 (content_grows h h' G)). Qed.
Lemma contents_grow h h' x v : grows h h' -> contents h x v -> contents h' x v.
Proof. intros G. apply (proj2 (content_grows h h' G)). Qed.

(** ** Sound states *)

Section Inv.
Context (ct : ctable) (made : cid -> Prop).

(** [x] is what a view holds where its original holds [y]. *)
Definition view_of (h : list obj) (y x : hval) : Prop :=
  match y, x with
  | HLeaf a, HLeaf b => a = b
  | HRef c, HRef k => exists o, nth_error h k = Some o /\ b_orig o = Some c
  | _, _ => False
  end.

(** is_pruned of what an attribute holds, if it is declared with a proof class. *)
Definition flag (h : list obj) (a : string * ser) (b : string * hval) : bool :=
  match snd a, snd b with
  | SerProof _, HRef c => match nth_error h c with Some q => b_pruned q | None => false end
  | _, _ => false
  end.
Fixpoint flags (h : list obj) (attrs : list (string * ser)) (bs : list (string * hval)) : bool :=
  match attrs, bs with a :: attrs', b :: bs' => flag h a b || flags h attrs' bs' | _, _ => false end.

(** An attribute that passed the checks of the constructor. *)
Definition passed (h : list obj) (r : ref) (a : string * ser) (b : string * hval) : Prop :=
  fst a = fst b /\ check ct (snd a) (shadow h (snd b)) = Ok tt /\
  match snd b with
  | HLeaf v => is_proof v = false /\ match snd a with SerProof _ => False | _ => True end
  | HRef c => c < r
  end.

(** What is true of an object depending on how it was made. *)
Definition formed (s : state) (r : ref) (o : obj) : Prop :=
  match b_orig o with
  | Some p => p < r /\ b_pruned o = true /\ b_fully o = match b_attrs o with [] => true | _ => false end /\
      NoDup (map fst (b_attrs o)) /\
      exists q, nth_error (s_heap s) p = Some q /\ b_class q = b_class o /\
        forall n x, assoc n (b_attrs o) = Some x -> exists y, assoc n (b_attrs q) = Some y /\ view_of (s_heap s) y x
  | None =>
    if b_fully o then b_attrs o = [] /\ b_pruned o = true /\ exists d, b_dhash o = Some d
    else Forall2 (passed (s_heap s) r) (c_attrs (ct (b_class o))) (b_attrs o) /\
      b_pruned o = flags (s_heap s) (c_attrs (ct (b_class o))) (b_attrs o) /\
      made (b_class o) /\ cached (s_cache s) (c_supers (ct (b_class o))) <> None
  end.

(** Hashes that were kept are those of the value. *)
Definition kept (h : list obj) (r : ref) (o : obj) : Prop :=
  (forall d, b_dhash o = Some d -> exists v, content h (HRef r) v /\ data_hash ct v = Ok d) /\
  (forall d, b_hash o = Some d -> exists v, content h (HRef r) v /\ phash ct v = Ok d).

Record sound (s : state) : Prop := {
  so_formed : forall r o, nth_error (s_heap s) r = Some o -> formed s r o;
  so_kept : forall r o, nth_error (s_heap s) r = Some o -> kept (s_heap s) r o;
  so_cache : Construct_Proofs.sound ct made (s_cache s) }.

(** The cache only gains entries. *)
Definition fills (ca ca' : cache) : Prop := forall mro, cached ca mro <> None -> cached ca' mro <> None.

Lemma view_of_grow h h' y x : grows h h' -> view_of h y x -> view_of h' y x.
Proof.
  intros G. destruct y, x; cbn; auto. intros (o & H & E). destruct (G _ _ H) as (o' & H' & L). exists o'. split; [exact H'|]. rewrite (la_orig _ _ L). exact E.
Qed.

Lemma shadow_grow h h' x : grows h h' -> match x with HRef c => c < List.length h | _ => True end -> shadow h' x = shadow h x.
Proof.
  intros G L. destruct x as [v|c]; [reflexivity|]. cbn. destruct (nth_error h c) as [o|] eqn:E; [|apply nth_error_None in E; lia].
  destruct (G c o E) as (o' & -> & La). rewrite (la_class _ _ La). reflexivity.
Qed.

Lemma passed_grow h h' r a b : grows h h' -> r < List.length h -> passed h r a b -> passed h' r a b.
Proof.
  intros G L (E & C & X). split; [exact E|]. split; [|exact X]. rewrite (shadow_grow h h'); [exact C|exact G|]. destruct (snd b); [exact Logic.I|lia].
Qed.

Lemma flags_grow h h' r attrs bs : grows h h' -> r < List.length h -> Forall2 (passed h r) attrs bs -> flags h' attrs bs = flags h attrs bs.
Proof.
  intros G L F. induction F as [|a b attrs bs P F IH]; [reflexivity|]. cbn. rewrite IH. f_equal. unfold flag.
  destruct P as (_ & _ & X). destruct (snd a); try reflexivity. destruct (snd b) as [|c0]; [reflexivity|].
  destruct (nth_error h c0) as [q|] eqn:E; [|apply nth_error_None in E; lia]. destruct (G _ _ E) as (q' & -> & La). apply (la_pruned _ _ La).
Qed.

Lemma formed_grow s s' r o : grows (s_heap s) (s_heap s') -> fills (s_cache s) (s_cache s') -> r < List.length (s_heap s) -> formed s r o -> formed s' r o.
Proof.
  intros G K Lr. unfold formed. destruct (b_orig o) as [p|].
  - intros (L & P & F & D & q & Hq & C & A). do 4 (split; [assumption|]). destruct (G p q Hq) as (q' & Hq' & La).
    exists q'. split; [exact Hq'|]. split; [rewrite (la_class _ _ La); exact C|]. intros n x Hx. destruct (A n x Hx) as (y & Hy & V).
    exists y. split; [apply (la_attrs _ _ La), Hy|]. eapply view_of_grow; eassumption.
  - destruct (b_fully o); [auto|]. intros (F & P & M & C).
    split; [|split; [|split; [exact M|apply K, C]]].
    + clear P. induction F as [|a b attrs bs Hp F IH]; constructor; [|exact IH]. eapply passed_grow; eassumption.
    + rewrite P. symmetry. eapply flags_grow; eassumption.
Qed.

Lemma kept_grow h h' r o : grows h h' -> kept h r o -> kept h' r o.
Proof. intros G (A & B). split; [intros d H; destruct (A d H) as (v & C & E)|intros d H; destruct (B d H) as (v & C & E)]; exists v; (split; [eapply content_grow; eassumption|exact E]). Qed.

End Inv.
