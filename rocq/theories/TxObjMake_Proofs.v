(** Proofs about transaction objects: the ones made by copying, by constructing and by reading. *)
From Verif Require Import Base PySlice Sha256 Tx_Model Tx_Spec Script_Model Block_Model SigHash_Model SigHash_Proofs Money_Model TxObj_Model TxObj_Spec TxObj_Proofs TxObjSig_Proofs TxObjUse_Proofs.

(** ** Mutable copies *)

Lemma Forall2_left {A B} (P : A -> B -> Prop) l m a : Forall2 P l m -> In a l -> exists b, P a b.
Proof. intros F. induction F as [|x y l m H F IH]; intros []; subst; eauto. Qed.
Lemma leaf_part s x c y : nth_error s x = Some c -> held (c_obj c) = [] -> part s x y -> y = x.
Proof. intros E H P. destruct P as [x|x c' y z E' Hy P]; [reflexivity|]. rewrite E in E'. injection E' as <-. rewrite H in Hy. destruct Hy. Qed.
Lemma copy_parts n s x vi vo li lo t y : copy_of n s x vi vo li lo t -> part s x y ->
  exists c, nth_error s y = Some c /\ c_cls c = Mut /\ (n <= y)%nat.
Proof.
  intros (A & B & C & D & _ & F & G1 & G2 & G3 & _) P.
  assert (LI : forall r z, In r li -> part s r z -> exists c, nth_error s z = Some c /\ c_cls c = Mut /\ (n <= z)%nat).
  { intros r z Hr Pz. destruct (Forall2_left _ _ _ _ D Hr) as (i & p & I1 & I2 & I3 & I4).
    inversion Pz as [|? c ? ? E Hy Pz']; subst; [eauto|]. rewrite I1 in E. injection E as <-. destruct Hy as [<-|[]].
    rewrite (leaf_part _ _ _ _ I2 eq_refl Pz'). eauto. }
  assert (LO : forall r z, In r lo -> part s r z -> exists c, nth_error s z = Some c /\ c_cls c = Mut /\ (n <= z)%nat).
  { intros r z Hr Pz. destruct (Forall2_left _ _ _ _ F Hr) as (o & O1 & O2). rewrite (leaf_part _ _ _ _ O1 eq_refl Pz). eauto. }
  inversion P as [|? c ? ? E Hy P']; subst; [eauto|]. rewrite A in E. injection E as <-. destruct Hy as [<-|[<-|[]]].
  - inversion P' as [|? c ? ? E Hy P'']; subst; [eauto|]. rewrite B in E. injection E as <-. eauto.
  - inversion P' as [|? c ? ? E Hy P'']; subst; [eauto|]. rewrite C in E. injection E as <-. eauto.
Qed.
Lemma copy_tx_at n s x vi vo li lo t : copy_of n s x vi vo li lo t -> tx_at s x = Ok t.
Proof. intros H. eapply work_tx_at, copy_work; eauto. Qed.
Lemma txin_copy_same i i' : txin_copy i = Ok i' -> i' = i.
Proof.
  unfold txin_copy. destruct (outpoint_new _ _) as [p|] eqn:E; cbn [bind]; [|discriminate]. apply outpoint_new_same in E. subst p.
  unfold txin_new. destruct negb; [discriminate|]. intros [= <-]. destruct i as [[]]. reflexivity.
Qed.
Lemma tx_copy_same t t' : tx_copy t = Ok t' -> t' = t.
Proof.
  unfold tx_copy. destruct (mapM txin_copy (t_vin t)) as [vi|] eqn:E; cbn [bind]; [|discriminate].
  assert (vi = t_vin t) as ->.
  { revert vi E. induction (t_vin t) as [|i l IH]; intros vi; cbn [mapM]; [congruence|]. destruct (txin_copy i) eqn:Ei; cbn [bind]; [|discriminate].
    destruct (mapM txin_copy l) as [vl|]; cbn [bind]; [|discriminate]. intros [= <-]. rewrite (txin_copy_same _ _ Ei), (IH _ eq_refl). reflexivity. }
  unfold tx_new. destruct negb; [discriminate|]. intros [= <-]. destruct t. reflexivity.
Qed.

Section H.
Context (pyhash : bytes -> Z).

Lemma step_ok {A} o (f : A -> out) (m : M A) s v s' : act_on pyhash o = giving f m -> step pyhash o s = (Ok v, s') -> exists a, m s = (Ok a, s') /\ v = f a.
Proof.
  intros E. unfold step. destruct (forallb _ _); [|discriminate]. rewrite E. unfold giving, andthen. destruct (m s) as [[a|e] s1]; [|discriminate].
  unfold ret. intros [= <- <-]. eauto.
Qed.
Lemma step_named o s v s' r : step pyhash o s = (Ok v, s') -> In r (named o) -> (r < List.length s)%nat.
Proof. unfold step. destruct (forallb _ _) eqn:E; [|discriminate]. rewrite forallb_forall in E. intros _ H. specialize (E r H). lia. Qed.

(** A mutable copy is new, mutable throughout and of the same value; the rest is as it was. *)
Lemma copy_spec s r x s' : step pyhash (FromTx Mut r) s = (Ok (VRef x), s') ->
  throughout Mut s' x /\ (forall y, part s' x y -> nth_error s y = None) /\
  (exists t, tx_at s' x = Ok t /\ forall u, tx_at s r = Ok u -> t = u) /\
  (forall y c, nth_error s y = Some c -> nth_error s' y = Some c).
Proof.
  intros H. destruct (step_ok (FromTx Mut r) VRef (from_tx Mut r) _ _ _ eq_refl H) as (a & E & V). injection V as <-.
  pose proof (from_tx_mut s r) as F. rewrite E in F. destruct F as (vi & vo & li & lo & t & C & T).
  split; [|split; [|split]].
  - intros y P. destruct (copy_parts _ _ _ _ _ _ _ _ _ C P) as (c & Ec & Cc & _). eauto.
  - intros y P. destruct (copy_parts _ _ _ _ _ _ _ _ _ C P) as (c & _ & _ & L). apply nth_error_None. exact L.
  - exists t. split; [eapply copy_tx_at; eauto|]. intros u Hu. apply tx_copy_same. auto.
  - destruct (appends_from_tx Mut r s) as [l El]. rewrite E in El. cbn [snd] in El. subst s'. apply ext_app.
Qed.
Lemma copy_succeeds s r t : tx_at s r = Ok t -> wf_tx t -> exists x s', step pyhash (FromTx Mut r) s = (Ok (VRef x), s').
Proof.
  intros T W. unfold step. cbn [named forallb]. 
  assert (L : (r < List.length s)%nat) by (unfold tx_at in T; apply nth_error_Some; destruct (nth_error s r); [discriminate|congruence]).
  replace (r <? List.length s)%nat with true by (symmetry; apply Nat.ltb_lt; exact L). cbn [andb act_on]. unfold giving, andthen.
  pose proof (from_tx_mut s r) as F. destruct (from_tx Mut r s) as [[x|e] s']; [unfold ret; eauto|].
  specialize (F t T). rewrite (tx_copy_wf t W) in F. discriminate.
Qed.

(** ** Objects that are immutable throughout *)

Lemma throughout_ext s s' x : ext s s' -> throughout Imm s x -> throughout Imm s' x.
Proof. intros X F. eapply agree_throughout; [eapply kept_frozen; [apply (kept_ext (fun _ => False)); exact X|exact F]|exact F]. Qed.
Lemma throughout_leaf k s x c : nth_error s x = Some c -> c_cls c = k -> held (c_obj c) = [] -> throughout k s x.
Proof. intros E C H y P. rewrite (leaf_part _ _ _ _ E H P). eauto. Qed.
Lemma throughout_node k s x c : nth_error s x = Some c -> c_cls c = k -> Forall (throughout k s) (held (c_obj c)) -> throughout k s x.
Proof.
  intros E C F y P. inversion P as [|? c' ? ? E' Hy P']; subst; [eauto|]. rewrite E in E'. injection E' as <-.
  rewrite Forall_forall in F. exact (F _ Hy y P').
Qed.
Lemma each_from_txin_imm l s : forall l' s', each (from_txin Imm) l s = (Ok l', s') -> l' = l /\ s' = s.
Proof.
  induction l as [|r l IH]; intros l' s'; cbn [each].
  - unfold ret. intros [= <- <-]. auto.
  - unfold andthen at 1. unfold from_txin at 1, andthen at 1, look. destruct (nth_error s r) as [x|]; [|discriminate].
    destruct (c_cls x); [|discriminate]. destruct (c_obj x); try discriminate. unfold ret at 1, andthen at 1.
    destruct (each (from_txin Imm) l s) as [[ys|e] s1]; [|discriminate]. destruct (IH _ _ eq_refl) as [-> ->]. unfold ret. intros [= <- <-]. auto.
Qed.
Lemma each_from_txout_imm l : forall s l' s', each (from_txout Imm) l s = (Ok l', s') -> ext s s' /\ Forall (throughout Imm s') l'.
Proof.
  induction l as [|r l IH]; intros s l' s'; cbn [each].
  - unfold ret. intros [= <- <-]. split; [apply ext_refl|constructor].
  - unfold andthen at 1. destruct (from_txout Imm r s) as [[r'|e] s1] eqn:E; [|discriminate].
    assert (T : ext s s1 /\ throughout Imm s1 r').
    { unfold from_txout, andthen, look in E. destruct (nth_error s r) as [x|] eqn:Er; [|discriminate]. destruct (c_obj x) eqn:O; try discriminate.
      destruct (c_cls x) eqn:C; unfold ret, new_output, alloc in E; injection E as <- <-.
      - split; [apply ext_refl|]. eapply throughout_leaf; [exact Er|exact C|rewrite O; reflexivity].
      - split; [apply ext_app|]. eapply throughout_leaf; [apply nth_last|reflexivity|reflexivity]. }
    destruct T as [X T]. unfold andthen. destruct (each (from_txout Imm) l s1) as [[ys|e] s2] eqn:E2; [|discriminate]. unfold ret. intros [= <- <-].
    destruct (IH _ _ _ E2) as [X2 T2]. split; [eapply ext_trans; eauto|]. constructor; [eapply throughout_ext; eauto|exact T2].
Qed.
Lemma new_tx_frozen vi vo l v s x s' : new_tx Imm vi vo l v s = (Ok x, s') ->
  (forall r li, vi = Some r -> seq_at s r = Ok li -> Forall (throughout Imm s) li) -> throughout Imm s' x.
Proof.
  unfold new_tx. destruct negb; [discriminate|]. intros H F.
  assert (I : forall r (s : store), iterate r s = match nth_error s r with Some (Cell _ (OSeq l) _ _) => (Ok l, s) | Some _ => (Err TypeError, s) | None => (Err NameError, s) end).
  { intros r s0. unfold iterate, andthen, look. destruct (nth_error s0 r) as [[c o a b]|]; [|reflexivity]. destruct o; reflexivity. }
  unfold andthen at 1 in H.
  assert (G : exists li, (match vi with Some r => iterate r | None => ret [] end) s = (Ok li, s) /\ Forall (throughout Imm s) li).
  { destruct vi as [r|]; [|exists []; split; [reflexivity|constructor]]. rewrite I in *. specialize (F r). unfold seq_at in F.
    destruct (nth_error s r) as [[c o a b]|]; [|discriminate]. destruct o; try discriminate. eexists. split; [reflexivity|]. apply F; reflexivity. }
  destruct G as (li & Gl & Fl). rewrite Gl in H. unfold andthen at 1 in H. destruct (each (from_txin Imm) li s) as [[li'|e] s1] eqn:E1; [|discriminate].
  apply each_from_txin_imm in E1 as [-> ->]. unfold andthen at 1, alloc at 1 in H. set (s1 := s ++ [Cell Imm (OSeq li) None None]) in *.
  unfold andthen at 1 in H.
  assert (G : forall q s2, (match vo with Some r => iterate r | None => ret [] end) s1 = (Ok q, s2) -> s2 = s1).
  { intros q s2. destruct vo as [r|]; [rewrite I; destruct (nth_error s1 r) as [[c o a b]|]; [destruct o|]; congruence|unfold ret; congruence]. }
  destruct ((match vo with Some r => iterate r | None => ret [] end) s1) as [[lo|e] s2] eqn:E2; [|discriminate]. specialize (G _ _ eq_refl). subst s2.
  unfold andthen at 1 in H. destruct (each (from_txout Imm) lo s1) as [[lo'|e] s3] eqn:E3; [|discriminate].
  destruct (each_from_txout_imm _ _ _ _ E3) as [X3 T3]. unfold andthen, alloc in H. set (s4 := s3 ++ [Cell Imm (OSeq lo') None None]) in *.
  injection H as <- <-. set (s5 := s4 ++ _).
  assert (X1 : ext s s1) by apply ext_app. assert (X4 : ext s3 s4) by apply ext_app. assert (X5 : ext s4 s5) by apply ext_app.
  eapply throughout_node; [apply nth_last|reflexivity|]. cbn [c_obj held].
  constructor; [|constructor; [|constructor]].
  - eapply throughout_node; [apply X5, X4, X3; apply nth_last|reflexivity|]. cbn [c_obj held].
    eapply Forall_impl; [|exact Fl]. intros y. apply throughout_ext. intros r c Er. apply X5, X4, X3, X1. exact Er.
  - eapply throughout_node; [apply X5; apply nth_last|reflexivity|]. cbn [c_obj held].
    eapply Forall_impl; [|exact T3]. intros y. apply throughout_ext. intros r c Er. apply X5, X4. exact Er.
Qed.
Lemma load_input_spec i s r s' : load_input i s = (Ok r, s') -> ext s s' /\ throughout Imm s' r /\ input_at s' r = Ok i.
Proof.
  intros H. pose proof (appends_ext _ _ _ _ (appends_load_input i) H) as [X _]. split; [exact X|].
  unfold load_input, new_point in H. unfold andthen at 1 2, pure in H. destruct (outpoint_new _ _) as [o|] eqn:E; [|discriminate].
  apply outpoint_new_same in E. subst o. unfold alloc in H. cbn [o_hash o_n] in H. unfold new_input in H. destruct negb; [discriminate|].
  unfold andthen, ret, alloc in H. injection H as <- <-. set (s1 := s ++ _).
  assert (P : nth_error s1 (List.length s) = Some (Cell Imm (OPoint (o_hash (i_prevout i)) (o_n (i_prevout i))) None None)) by apply nth_last.
  set (s2 := s1 ++ _). assert (X2 : ext s1 s2) by apply ext_app.
  assert (Q : nth_error s2 (List.length s1) = Some (Cell Imm (OInput (List.length s) (i_scriptSig i) (i_nSequence i)) None None)) by apply nth_last.
  split.
  - eapply throughout_node; [exact Q|reflexivity|]. constructor; [|constructor]. eapply throughout_leaf; [apply X2; exact P|reflexivity|reflexivity].
  - unfold input_at, point_at. rewrite Q, (X2 _ _ P). destruct i as [[]]. reflexivity.
Qed.
Lemma each_load l : forall s l' s', each load_input l s = (Ok l', s') ->
  ext s s' /\ Forall (throughout Imm s') l' /\ Forall2 (fun r i => input_at s' r = Ok i) l' l.
Proof.
  induction l as [|i l IH]; intros s l' s'; cbn [each].
  - unfold ret. intros [= <- <-]. split; [apply ext_refl|]. split; constructor.
  - unfold andthen at 1. destruct (load_input i s) as [[r|e] s1] eqn:E; [|discriminate]. destruct (load_input_spec _ _ _ _ E) as (X & T & V).
    unfold andthen. destruct (each load_input l s1) as [[ys|e] s2] eqn:E2; [|discriminate]. unfold ret. intros [= <- <-].
    destruct (IH _ _ _ E2) as (X2 & T2 & V2). split; [eapply ext_trans; eauto|]. split.
    + constructor; [eapply throughout_ext; eauto|exact T2].
    + constructor; [eapply input_at_ext; eauto|exact V2].
Qed.
Lemma each_outputs l : forall s l' s', each (fun o => new_output Imm (o_nValue o) (o_scriptPubKey o)) l s = (Ok l', s') ->
  ext s s' /\ Forall (throughout Imm s') l' /\ Forall2 (fun r o => output_at s' r = Ok o) l' l.
Proof.
  induction l as [|i l IH]; intros s l' s'; cbn [each].
  - unfold ret. intros [= <- <-]. split; [apply ext_refl|]. split; constructor.
  - unfold andthen at 1, new_output at 1, alloc. set (s1 := s ++ _). assert (X : ext s s1) by apply ext_app.
    assert (P : nth_error s1 (List.length s) = Some (Cell Imm (OOutput (o_nValue i) (o_scriptPubKey i)) None None)) by apply nth_last.
    unfold andthen. destruct (each _ l s1) as [[ys|e] s2] eqn:E2; [|discriminate]. unfold ret. intros [= <- <-].
    destruct (IH _ _ _ E2) as (X2 & T2 & V2). split; [eapply ext_trans; eauto|]. split.
    + constructor; [|exact T2]. eapply throughout_leaf; [apply X2; exact P|reflexivity|reflexivity].
    + constructor; [|exact V2]. unfold output_at. rewrite (X2 _ _ P). destruct i. reflexivity.
Qed.
Lemma each_from_txout_same l : forall s l' s', each (from_txout Imm) l s = (Ok l', s') -> Forall (has_class Imm s) l -> l' = l /\ s' = s.
Proof.
  induction l as [|r l IH]; intros s l' s'; cbn [each].
  - unfold ret. intros [= <- <-]. auto.
  - intros H F. inversion F as [|? ? (c & E & C) F']; subst. revert H. unfold andthen at 1. unfold from_txout at 1, andthen at 1, look. rewrite E.
    destruct (c_obj c); try discriminate. rewrite C. unfold ret at 1, andthen at 1.
    destruct (each (from_txout Imm) l s) as [[ys|e] s1] eqn:E1; [|discriminate]. destruct (IH _ _ _ E1 F') as [-> ->]. unfold ret. intros [= <- <-]. auto.
Qed.
Lemma load_spec c b s x s' : step pyhash (LoadTx c b) s = (Ok (VRef x), s') ->
  (exists t, bdeserialize tx_de false b = Ok t /\ tx_at s' x = Ok t) /\ has_class c s' x /\ (c = Imm -> throughout Imm s' x) /\
  (forall y c0, nth_error s y = Some c0 -> nth_error s' y = Some c0) /\
  exists vi vo li lo lock ver h1 h2, nth_error s' x = Some (Cell c (OTrans vi vo lock ver) h1 h2) /\
    seq_at s' vi = Ok li /\ seq_at s' vo = Ok lo /\ Forall (throughout Imm s') li /\ Forall (throughout Imm s') lo.
Proof.
  intros H. destruct (step_ok (LoadTx c b) VRef (load_tx c b) _ _ _ eq_refl H) as (a & E & V). injection V as <-. clear H.
  pose proof (appends_ext _ _ _ _ (appends_load_tx c b) E) as [X _].
  unfold load_tx in E. unfold andthen at 1, pure in E. destruct (bdeserialize tx_de false b) as [t|]; [|discriminate].
  unfold andthen at 1 in E. destruct (each load_input (t_vin t) s) as [[li|e] s1] eqn:E1; [|discriminate].
  destruct (each_load _ _ _ _ E1) as (X1 & T1 & V1). unfold andthen at 1, alloc at 1 in E. set (s2 := s1 ++ [Cell Mut (OSeq li) None None]) in *.
  unfold andthen at 1 in E. destruct (each _ (t_vout t) s2) as [[lo|e] s3] eqn:E3; [|discriminate].
  destruct (each_outputs _ _ _ _ E3) as (X3 & T3 & V3). unfold andthen at 1, alloc at 1 in E. set (s4 := s3 ++ [Cell Mut (OSeq lo) None None]) in *.
  assert (X2 : ext s1 s2) by apply ext_app. assert (X4 : ext s3 s4) by apply ext_app.
  assert (N1 : nth_error s4 (List.length s1) = Some (Cell Mut (OSeq li) None None)) by (apply X4, X3; apply nth_last).
  assert (N3 : nth_error s4 (List.length s3) = Some (Cell Mut (OSeq lo) None None)) by apply nth_last.
  assert (X14 : ext s1 s4) by (intros r c0 Er; apply X4, X3, X2; exact Er).
  assert (T14 : Forall (throughout Imm s4) li) by (eapply Forall_impl; [|exact T1]; intros y; apply throughout_ext; exact X14).
  assert (T34 : Forall (throughout Imm s4) lo) by (eapply Forall_impl; [|exact T3]; intros y; apply throughout_ext; exact X4).
  assert (V14 : Forall2 (fun r i => input_at s4 r = Ok i) li (t_vin t)) by (eapply Forall2_mono; [|exact V1]; intros ? ?; apply input_at_ext; exact X14).
  assert (V34 : Forall2 (fun r i => output_at s4 r = Ok i) lo (t_vout t)) by (eapply Forall2_mono; [|exact V3]; intros ? ?; apply output_at_ext; exact X4).
  assert (End : forall s5 vi vo, ext s4 s5 -> nth_error s5 x = Some (Cell c (OTrans vi vo (t_nLockTime t) (t_nVersion t)) None None) ->
     seq_at s5 vi = Ok li -> seq_at s5 vo = Ok lo -> tx_at s5 x = Ok t /\ Forall (throughout Imm s5) li /\ Forall (throughout Imm s5) lo).
  { intros s5 vi vo X5 A B C. split; [|split].
    - unfold tx_at. rewrite A, B, C. cbn [bind].
      rewrite (mapM_Forall2 (input_at s5) li (t_vin t)) by (eapply Forall2_mono; [|exact V14]; intros ? ?; apply input_at_ext; exact X5). cbn [bind].
      rewrite (mapM_Forall2 (output_at s5) lo (t_vout t)) by (eapply Forall2_mono; [|exact V34]; intros ? ?; apply output_at_ext; exact X5).
      destruct t. reflexivity.
    - eapply Forall_impl; [|exact T14]; intros y; apply throughout_ext; exact X5.
    - eapply Forall_impl; [|exact T34]; intros y; apply throughout_ext; exact X5. }
  assert (Fin : exists vi vo, nth_error s' x = Some (Cell c (OTrans vi vo (t_nLockTime t) (t_nVersion t)) None None) /\
     seq_at s' vi = Ok li /\ seq_at s' vo = Ok lo /\ ext s4 s').
  { pose proof (appends_ext _ _ _ _ (appends_new_tx c (Some (List.length s1)) (Some (List.length s3)) (t_nLockTime t) (t_nVersion t)) E) as [X5 _].
    revert E. unfold new_tx. destruct negb; [discriminate|]. destruct c.
    - assert (I : forall r s l, seq_at s r = Ok l -> iterate r s = (Ok l, s)).
      { intros r s0 l. unfold iterate, andthen, look, seq_at. destruct (nth_error s0 r) as [[c o a b0]|]; [|discriminate]. destruct o; try discriminate. intros [= ->]. reflexivity. }
      unfold andthen at 1. rewrite (I _ _ li) by (unfold seq_at; rewrite N1; reflexivity). unfold andthen at 1.
      destruct (each (from_txin Imm) li s4) as [[li'|e] s5] eqn:E5; [|discriminate]. apply each_from_txin_imm in E5 as [-> ->].
      unfold andthen at 1, alloc at 1. set (s5 := s4 ++ [Cell Imm (OSeq li) None None]). assert (X45 : ext s4 s5) by apply ext_app.
      unfold andthen at 1. rewrite (I _ _ lo) by (unfold seq_at; rewrite (X45 _ _ N3); reflexivity). unfold andthen at 1.
      destruct (each (from_txout Imm) lo s5) as [[lo'|e] s6] eqn:E6; [|discriminate].
      apply each_from_txout_same in E6 as [-> ->].
      2:{ eapply Forall_impl; [|exact T34]. intros y Fy. apply (throughout_ext _ _ _ X45) in Fy. destruct (Fy y (part_self _ y)) as (c0 & ? & ?). exists c0. auto. }
      unfold andthen, alloc. set (s6 := s5 ++ [Cell Imm (OSeq lo) None None]). assert (X56 : ext s5 s6) by apply ext_app.
      intros [= <- <-]. eexists _, _. split; [apply nth_last|]. set (s7 := s6 ++ _). assert (X67 : ext s6 s7) by apply ext_app. unfold seq_at.
      assert (nth_error s7 (List.length s4) = Some (Cell Imm (OSeq li) None None)) as -> by (apply X67, X56, nth_last).
      assert (nth_error s7 (List.length s5) = Some (Cell Imm (OSeq lo) None None)) as -> by (apply X67, nth_last).
      split; [reflexivity|]. split; [reflexivity|]. exact X5.
    - unfold andthen, ret, alloc. intros [= <- <-]. eexists _, _. split; [apply nth_last|]. set (s7 := s4 ++ _) in *. unfold seq_at.
      rewrite (X5 _ _ N1), (X5 _ _ N3). auto. }
  destruct Fin as (vi & vo & A & B & C & X5). destruct (End _ _ _ X5 A B C) as (T & TI & TO).
  split; [eauto|]. split; [eexists; split; [exact A|reflexivity]|]. split.
  - intros ->. eapply new_tx_frozen; [exact E|]. intros r l [= <-]. unfold seq_at. rewrite N1. intros [= <-]. exact T14.
  - split; [exact X|]. exists vi, vo, li, lo. eauto 10.
Qed.
End H.

(** ** As statements of a program *)

Section S.
Context (pyhash : bytes -> Z).

Lemma step_exists1 o s r : named o = [r] -> (exists c, nth_error s r = Some c) -> step pyhash o s = act_on pyhash o s.
Proof.
  intros N [c E]. unfold step. rewrite N. cbn [forallb]. replace (r <? List.length s)%nat with true; [reflexivity|].
  symmetry. apply Nat.ltb_lt. eapply some_below; eauto.
Qed.
Lemma fst_giving {A} (f : A -> out) (m : M A) s : fst (giving f m s) = match fst (m s) with Ok a => Ok (f a) | Err e => Err e end.
Proof. unfold giving, andthen. destruct (m s) as [[a|e] s']; reflexivity. Qed.
Lemma sound_exists s x : sound s x -> exists c, nth_error s x = Some c.
Proof. intros [F|(c & E & _)]; [|eauto]. destruct (F x (part_self s x)) as (c & E & _). eauto. Qed.
Lemma ask_sound s x : reached pyhash s -> sound s x ->
  fst (step pyhash (AskHash x) s) = (do b <- serialize s x; Ok (VBytes (Hash b))) /\
  fst (step pyhash (AskPyHash x) s) = (do b <- serialize s x; Ok (VInt (pyhash b))).
Proof.
  intros R S. rewrite (step_exists1 (AskHash x) s x eq_refl (sound_exists s x S)), (step_exists1 (AskPyHash x) s x eq_refl (sound_exists s x S)). cbn [act_on]. rewrite !fst_giving, (GetHash_sound pyhash), hash_of_sound by assumption.
  destruct (serialize s x); auto.
Qed.
Lemma immutable_partial s x prog : reached pyhash s -> throughout Imm s x ->
  let s' := snd (run pyhash prog s) in
  looks s s' x /\ throughout Imm s' x /\
  fst (step pyhash (AskHash x) s') = (do b <- serialize s x; Ok (VBytes (Hash b))) /\
  fst (step pyhash (AskPyHash x) s') = (do b <- serialize s x; Ok (VInt (pyhash b))).
Proof.
  intros R F s'. destruct (frozen_constant pyhash s x prog F) as [L F']. fold s' in L, F'. split; [exact L|]. split; [exact F'|].
  destruct L as [L _]. rewrite <- L. apply ask_sound; [apply reached_run; exact R|left; exact F'].
Qed.
Lemma mutable_ask s x : reached pyhash s -> has_class Mut s x ->
  step pyhash (AskHash x) s = (do b <- serialize s x; Ok (VBytes (Hash b)), s) /\
  step pyhash (AskPyHash x) s = (do b <- serialize s x; Ok (VInt (pyhash b)), s).
Proof.
  intros R (c & E & C). rewrite (step_exists1 (AskHash x) s x eq_refl (ex_intro _ c E)), (step_exists1 (AskPyHash x) s x eq_refl (ex_intro _ c E)). cbn [act_on].
  unfold giving, andthen, GetHash, hash_of, andthen, look, serialize_, ret. rewrite E, C. destruct (serialize s x); auto.
Qed.
Lemma step_exists2 a b s : (exists c, nth_error s a = Some c) -> (exists c, nth_error s b = Some c) -> step pyhash (Equal a b) s = act_on pyhash (Equal a b) s.
Proof.
  intros [c E] [d D]. unfold step. cbn [named forallb]. replace (a <? List.length s)%nat with true by (symmetry; apply Nat.ltb_lt; eapply some_below; eauto).
  replace (b <? List.length s)%nat with true by (symmetry; apply Nat.ltb_lt; eapply some_below; eauto). reflexivity.
Qed.
Lemma equal_same s a b : fst (step pyhash (Equal a b) s) = Ok (VBool true) -> exists v, serialize s a = Ok v /\ serialize s b = Ok v.
Proof.
  unfold step. destruct (forallb _ _); [|discriminate]. cbn [act_on]. rewrite fst_giving.
  unfold equal, andthen, look, serialize_, raise, ret. destruct (nth_error s a) as [x|]; [|discriminate]. destruct (nth_error s b) as [y|]; [|discriminate].
  destruct (_ || _); [discriminate|]. destruct negb; [discriminate|].
  destruct (c_cls x), (c_cls y), (serialize s a) as [u|], (serialize s b) as [v|]; cbn [fst]; try discriminate; intros [= H]; apply bytes_eqb_eq in H; subst; eauto.
Qed.
Lemma equal_hash s a b : reached pyhash s -> sound s a -> sound s b -> fst (step pyhash (Equal a b) s) = Ok (VBool true) ->
  exists v, fst (step pyhash (AskHash a) s) = Ok (VBytes (Hash v)) /\ fst (step pyhash (AskHash b) s) = Ok (VBytes (Hash v)) /\
            fst (step pyhash (AskPyHash a) s) = Ok (VInt (pyhash v)) /\ fst (step pyhash (AskPyHash b) s) = Ok (VInt (pyhash v)).
Proof.
  intros R A B H. destruct (equal_same _ _ _ H) as (v & Va & Vb). exists v.
  destruct (ask_sound s a R A) as [-> ->]. destruct (ask_sound s b R B) as [-> ->]. rewrite Va, Vb. auto.
Qed.
Lemma set_refused s x f l : has_class Imm s x ->
  (exists e, step pyhash (SetAttr x f) s = (Err e, s)) /\ (exists e, step pyhash (Change x l) s = (Err e, s)).
Proof.
  intros (c & E & C). split; unfold step; (destruct (forallb _ _); [|eauto]); cbn [act_on]; unfold giving, andthen at 1.
  - unfold set_attr, andthen, look. rewrite E, C. eexists. reflexivity.
  - unfold change, andthen, look. rewrite E. destruct (c_obj c); try (eexists; reflexivity). rewrite C. eexists. reflexivity.
Qed.
Lemma new_tx_made s vi vo l v x s' : step pyhash (NewTx Imm vi vo l v) s = (Ok (VRef x), s') ->
  (forall r li, vi = Some r -> seq_at s r = Ok li -> Forall (throughout Imm s) li) -> throughout Imm s' x.
Proof.
  intros H F. destruct (step_ok pyhash (NewTx Imm vi vo l v) VRef (new_tx Imm vi vo l v) _ _ _ eq_refl H) as (a & E & V). injection V as <-.
  eapply new_tx_frozen; eauto.
Qed.
Lemma independent s r x s' prog : reached pyhash s -> step pyhash (FromTx Mut r) s = (Ok (VRef x), s') ->
  (forall o y, In o prog -> In y (written o) -> nth_error s y = None) ->
  forall y c, nth_error s y = Some c -> looks s (snd (run pyhash prog s')) y.
Proof.
  intros R H P y c E. destruct (copy_spec pyhash s r x s' H) as (_ & _ & _ & X). destruct (reached_closed pyhash s R) as [C _].
  assert (A1 : agree s s' y) by (eapply kept_alone; [apply (kept_ext (fun _ => False)); exact X|exact C|eapply some_below; eauto|auto]).
  assert (A2 : agree s (snd (run pyhash prog s')) y).
  { intros z Pz. destruct (A1 z Pz) as (c1 & c2 & E1 & E2 & C2 & O2). destruct (kept_run pyhash prog s' z c2 E2) as (c3 & E3 & C3 & O3).
    exists c1, c3. split; [exact E1|]. split; [exact E3|]. split; [congruence|]. rewrite O3; [exact O2|]. right. intros (o & Ho & Hz). specialize (P o z Ho Hz). congruence. }
  apply agree_looks. exact A2.
Qed.
Lemma sighash_step s sc r i h :
  (forall t, tx_at s r = Ok t -> fst (step pyhash (SigHash sc r i h) s) = (do p <- RawSignatureHash sc t i h; Ok (VPair (fst p) (snd p)))) /\
  (forall y c, nth_error s y = Some c -> nth_error (snd (step pyhash (SigHash sc r i h) s)) y = Some c).
Proof.
  destruct (raw_signature_hash_spec sc r i h s) as [V B]. split.
  - intros t T. rewrite (step_exists1 (SigHash sc r i h) s r eq_refl) by (unfold tx_at in T; destruct (nth_error s r); [eauto|discriminate]).
    cbn [act_on]. rewrite fst_giving, (V t T). destruct RawSignatureHash; reflexivity.
  - intros y c E. unfold step. destruct (forallb _ _); [|exact E]. cbn [act_on]. rewrite snd_giving, B; [exact E|eapply some_below; eauto].
Qed.
End S.
