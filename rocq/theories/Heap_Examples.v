(** Class tables and programs used in the examples of Heap_Props.v. *)
From Verif Require Import Base Serialize_Model Serialize_Spec Tx_Model Proof_Model Proof_Spec Cache_Model Proof_Examples Heap_Model Heap_Spec.

(** The classes of Proof_Examples.v; the base class of the variants and that of the seals are not instantiated. *)
Definition concrete (c : cid) : Prop := c <> VAR /\ c <> SEAL.

Lemma shop_program : program_table shop concrete.
Proof.
  constructor.
  - intros c. each c; cbn; repeat constructor; cbn; intuition discriminate.
  - intros c. unfold subclass. each c; cbn; auto.
  - intros c H. each c; cbn in H; try discriminate. reflexivity.
  - intros c d d' (N1 & N2) (N1' & N2') H H'. unfold subclass, VAR, SEAL in *. each c; cbn in H, H'; unfold FOO, BAR, VAR, EMPTY, LEAF, INNER, TXPROOF, OUTPOINT, EITHER, FLAGS, SEAL, FAKE in *; intuition (subst; congruence).
  - intros c name sr k H St. unfold concrete, VAR, SEAL. each c; cbn in H; intuition (try match goal with E : (_, _) = (_, _) |- _ => inversion E; subst; cbn in St end);
      try contradiction; unfold declared, FOO, BAR, VAR, EMPTY, LEAF, INNER, TXPROOF, OUTPOINT in *; cbn in *; intuition (subst; try discriminate);
      match goal with E : exists _, _ |- _ => destruct E as (? & Hi & Hd); cbn in Hi; intuition (subst; cbn in Hd; subst; discriminate) end.
Qed.

(** Foo, Bar and a class with a union only: none of them is a variant, all of them have tags. *)
Definition store : ctable := fun c => match c with 0 | 1 | 8 => shop c | _ => mkClass [] Plain (HTag None) [c] end.
Definition every (c : cid) : Prop := True.

Ltac each9 c := destruct c as [|[|[|[|[|[|[|[|[|c]]]]]]]]].

Lemma store_attr c name sr : In (name, sr) (c_attrs (store c)) -> match sr with SerProof k => k = FOO | SerUnion ks => ks = [FOO; BAR] | SerPrim _ => True | _ => False end.
Proof. each9 c; cbn; intuition (try match goal with E : (_, _) = (_, _) |- _ => inversion E; subst end; cbn; auto). Qed.
Lemma store_kind c : c_kind (store c) = Plain.
Proof. each9 c; reflexivity. Qed.
Lemma store_supers c : c_supers (store c) = [c].
Proof. each9 c; reflexivity. Qed.
Lemma store_tagged k : In k [FOO; BAR] -> plain_tagged store k.
Proof. intros [<-|[<-|[]]]; (split; [reflexivity|eexists; reflexivity]). Qed.

Lemma store_program : program_table store every.
Proof.
  constructor.
  - intros c. each9 c; cbn; repeat constructor; cbn; intuition discriminate.
  - intros c. unfold subclass. rewrite store_supers. left. reflexivity.
  - intros c H. each9 c; cbn in H; discriminate.
  - intros c d d' _ _. unfold subclass. rewrite store_supers. intros [<-|[]] [<-|[]]. reflexivity.
  - intros. exact I.
Qed.

Lemma store_plain : plain_table store.
Proof.
  intros c name sr H. pose proof (store_attr c name sr H) as X. destruct sr; auto; subst; [apply store_tagged; left; reflexivity|]. intros k Hk. apply store_tagged, Hk.
Qed.

Lemma store_wf : wf_table store.
Proof.
  constructor.
  - intros c. apply (pt_names _ _ store_program).
  - intros c. apply (pt_self _ _ store_program).
  - intros c u i k Hc. rewrite store_kind in Hc. discriminate.
  - intros c name cs i m k Ha Hi Hd. pose proof (store_attr c name _ Ha) as X. cbn in X. subst cs. clear Ha.
    destruct i as [|[|i]]; cbn in Hi; inversion Hi; subst; try (destruct i; discriminate); cbn in Hd; unfold declared in Hd; cbn in Hd; subst;
      (split; [cbn; auto|]); intros j m' Hj Hm; destruct j as [|j]; try lia; cbn in Hm; inversion Hm; subst; intros H; cbn in H; intuition discriminate.
  - intros c H. each9 c; cbn in H; discriminate.
Qed.

(** Foo and Bar. *)
Definition stall : ctable := fun c => match c with 0 | 1 => shop c | _ => mkClass [] Plain (HTag None) [c] end.
Ltac each2 c := destruct c as [|[|c]].
Lemma stall_program : program_table stall every.
Proof.
  constructor.
  - intros c. each2 c; cbn; repeat constructor; cbn; intuition discriminate.
  - intros c. unfold subclass. each2 c; cbn; auto.
  - intros c H. each2 c; cbn in H; discriminate.
  - intros c d d' _ _. unfold subclass. each2 c; cbn; intros [<-|[]] [<-|[]]; reflexivity.
  - intros. exact I.
Qed.
Lemma stall_unions : no_unions stall.
Proof. intros c name cs. each2 c; cbn; intuition congruence. Qed.

(** x = Foo(n=1); y = Foo(n=2); z = Bar(left=x, right=y, nonproof_attr=3) *)
Definition int_arg (n : Z) : arg := ALeaf (VPrim (PyInt n)).
Definition make_bar : list cmd :=
  [CNew FOO [("n", int_arg 1)]; CNew FOO [("n", int_arg 2)]; CNew BAR [("left", AUse 0); ("right", AUse 1); ("nonproof_attr", int_arg 3)]]%string.

Lemma all_every ct p : Forall (instantiates ct every) p.
Proof. induction p as [|[] p IH]; constructor; cbn; auto; intros; exact I. Qed.

(** The state and the handles after a program. *)
Definition after (ct : ctable) (p : list cmd) : state := snd (fst (run_all ct start [] p)).
Definition held (ct : ctable) (p : list cmd) : env := snd (run_all ct start [] p).
Lemma reach_after ct made p : Forall (instantiates ct made) p -> reach ct made (after ct p) (held ct p).
Proof. intros I. unfold after, held. destruct (run_all ct start [] p) as [[us s] e] eqn:E. exists p, us. auto. Qed.
Definition size (u : out) : nat := match u with UBytes b => List.length b | _ => 0 end.
