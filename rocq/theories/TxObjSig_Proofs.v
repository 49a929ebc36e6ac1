(** Proofs about transaction objects: copies, and signature hashes. *)
From Verif Require Import Base PySlice Sha256 Tx_Model Script_Model Block_Model SigHash_Model Money_Model TxObj_Model TxObj_Spec TxObj_Proofs.

(** ** Adding objects *)

Definition appends {A} (m : M A) : Prop := forall s, exists l, snd (m s) = s ++ l.
Lemma appends_same {A} (m : M A) : (forall s, snd (m s) = s) -> appends m.
Proof. intros H s. exists []. rewrite H, app_nil_r. reflexivity. Qed.
Lemma appends_ret {A} (a : A) : appends (ret a). Proof. apply appends_same. reflexivity. Qed.
Lemma appends_raise {A} e : appends (@raise A e). Proof. apply appends_same. reflexivity. Qed.
Lemma appends_pure {A} (r : result A) : appends (pure r). Proof. apply appends_same. reflexivity. Qed.
Lemma appends_look r : appends (look r). Proof. apply appends_same. intros s. unfold look. destruct nth_error; reflexivity. Qed.
Lemma appends_alloc c o : appends (alloc c o). Proof. intros s. eexists. reflexivity. Qed.
Lemma appends_then {A B} (m : M A) (f : A -> M B) : appends m -> (forall a, appends (f a)) -> appends (andthen m f).
Proof.
  intros Hm Hf s. unfold andthen. destruct (Hm s) as [l1 E1]. destruct (m s) as [[a|e] s1]; cbn [snd] in *; [|eauto].
  destruct (Hf a s1) as [l2 E2]. exists (l1 ++ l2). rewrite E2, E1, app_assoc. reflexivity.
Qed.
Lemma appends_each {A B} (f : A -> M B) l : (forall a, appends (f a)) -> appends (each f l).
Proof.
  intros H. induction l as [|x l IH]; cbn [each]; [apply appends_ret|].
  apply appends_then; [apply H|intros y]. apply appends_then; [exact IH|intros ys]. apply appends_ret.
Qed.
Create HintDb appends.
#[export] Hint Resolve appends_ret appends_raise appends_pure appends_look appends_alloc appends_each : appends.
Ltac appends := repeat first [ solve [auto with appends] | apply appends_then; [|intros ?]
  | match goal with |- appends (match ?x with _ => _ end) => destruct x end ].
Lemma appends_new_point c h n : appends (new_point c h n). Proof. unfold new_point. appends. Qed.
#[export] Hint Resolve appends_new_point : appends.
Lemma appends_new_input c p sc q : appends (new_input c p sc q). Proof. unfold new_input. appends. Qed.
Lemma appends_new_output c v sc : appends (new_output c v sc). Proof. unfold new_output. appends. Qed.
#[export] Hint Resolve appends_new_input appends_new_output : appends.
Lemma appends_from_outpoint c r : appends (from_outpoint c r). Proof. unfold from_outpoint. appends. Qed.
#[export] Hint Resolve appends_from_outpoint : appends.
Lemma appends_from_txin c r : appends (from_txin c r). Proof. unfold from_txin. appends. Qed.
Lemma appends_from_txout c r : appends (from_txout c r). Proof. unfold from_txout. appends. Qed.
Lemma appends_iterate r : appends (iterate r). Proof. unfold iterate. appends. Qed.
#[export] Hint Resolve appends_from_txin appends_from_txout appends_iterate : appends.
Lemma appends_new_tx c vi vo l v : appends (new_tx c vi vo l v). Proof. unfold new_tx. appends. Qed.
#[export] Hint Resolve appends_new_tx : appends.
Lemma appends_from_tx c r : appends (from_tx c r). Proof. unfold from_tx. appends. Qed.
Lemma appends_load_input i : appends (load_input i). Proof. unfold load_input. appends. Qed.
#[export] Hint Resolve appends_from_tx appends_load_input : appends.
Lemma appends_load_tx c b : appends (load_tx c b). Proof. unfold load_tx. appends. Qed.
Lemma appends_slot b r : appends (slot b r). Proof. unfold slot. appends. Qed.

(** Reading goes on as before when objects are added. *)
Definition ext (s s' : store) : Prop := forall r c, nth_error s r = Some c -> nth_error s' r = Some c.
Lemma ext_refl s : ext s s. Proof. intros r c H. exact H. Qed.
Lemma ext_trans a b c : ext a b -> ext b c -> ext a c. Proof. intros H K r x E. auto. Qed.
Lemma ext_app s l : ext s (s ++ l). Proof. intros r c E. rewrite nth_error_app1; [exact E|eapply some_below; eauto]. Qed.
Lemma appends_ext {A} (m : M A) s r s' : appends m -> m s = (r, s') -> ext s s' /\ (List.length s <= List.length s')%nat.
Proof. intros H E. destruct (H s) as [l El]. rewrite E in El. cbn [snd] in El. subst. split; [apply ext_app|rewrite app_length; lia]. Qed.
Lemma mapM_mono {A B} (f g : A -> result B) l v : (forall a b, f a = Ok b -> g a = Ok b) -> mapM f l = Ok v -> mapM g l = Ok v.
Proof.
  intros H. revert v. induction l as [|x l IH]; intros v; cbn [mapM]; [auto|].
  destruct (f x) as [b|] eqn:E; cbn [bind]; [|discriminate]. rewrite (H _ _ E). cbn [bind].
  destruct (mapM f l) as [bs|] eqn:E2; cbn [bind]; [|discriminate]. rewrite (IH _ eq_refl). auto.
Qed.
Lemma point_at_ext s s' r p : ext s s' -> point_at s r = Ok p -> point_at s' r = Ok p.
Proof.
  intros X. unfold point_at. destruct (nth_error s r) as [c|] eqn:E; [|discriminate]. rewrite (X _ _ E). auto.
Qed.
Lemma input_at_ext s s' r p : ext s s' -> input_at s r = Ok p -> input_at s' r = Ok p.
Proof.
  intros X. unfold input_at. destruct (nth_error s r) as [[c []]|] eqn:E; try discriminate. rewrite (X _ _ E).
  destruct (point_at s prevout) as [o|] eqn:P; cbn [bind]; [|discriminate]. rewrite (point_at_ext _ _ _ _ X P). auto.
Qed.
Lemma output_at_ext s s' r p : ext s s' -> output_at s r = Ok p -> output_at s' r = Ok p.
Proof.
  intros X. unfold output_at. destruct (nth_error s r) as [c|] eqn:E; [|discriminate]. rewrite (X _ _ E). auto.
Qed.

Lemma seq_at_ext s s' r p : ext s s' -> seq_at s r = Ok p -> seq_at s' r = Ok p.
Proof.
  intros X. unfold seq_at. destruct (nth_error s r) as [c|] eqn:E; [|discriminate]. rewrite (X _ _ E). auto.
Qed.

(** ** Copies *)

(** A mutable input with its own mutable outpoint, both not below [n]. *)
Definition mut_input (n : nat) (s : store) (r : ref) (i : txin) : Prop :=
  exists p, nth_error s r = Some (Cell Mut (OInput p (i_scriptSig i) (i_nSequence i)) None None) /\
            nth_error s p = Some (Cell Mut (OPoint (o_hash (i_prevout i)) (o_n (i_prevout i))) None None) /\
            (n <= r)%nat /\ (n <= p)%nat.
Definition mut_output (n : nat) (s : store) (r : ref) (o : txout) : Prop :=
  nth_error s r = Some (Cell Mut (OOutput (o_nValue o) (o_scriptPubKey o)) None None) /\ (n <= r)%nat.
Lemma mut_input_ext n s s' r i : ext s s' -> mut_input n s r i -> mut_input n s' r i.
Proof. intros X (p & A & B & C). exists p. auto. Qed.
Lemma mut_output_ext n s s' r i : ext s s' -> mut_output n s r i -> mut_output n s' r i.
Proof. intros X (A & B). split; auto. Qed.
Lemma mut_input_at n s r i : mut_input n s r i -> input_at s r = Ok i.
Proof. intros (p & A & B & _). unfold input_at, point_at. rewrite A, B. cbn [bind]. destruct i as [[]]. reflexivity. Qed.
Lemma mut_output_at n s r i : mut_output n s r i -> output_at s r = Ok i.
Proof. intros (A & _). unfold output_at. rewrite A. destruct i. reflexivity. Qed.

Lemma nth_last {A} (l : list A) x : nth_error (l ++ [x]) (List.length l) = Some x.
Proof. rewrite nth_error_app2 by lia. rewrite Nat.sub_diag. reflexivity. Qed.

Lemma outpoint_new_same h n o : outpoint_new h n = Ok o -> o = mkOutPoint h n.
Proof. unfold outpoint_new. destruct negb; [discriminate|]. destruct negb; [discriminate|]. congruence. Qed.

Lemma from_txin_mut s r n : (n <= List.length s)%nat ->
  match from_txin Mut r s with
  | (Ok r', s') => exists i', mut_input n s' r' i' /\ (List.length s <= r' < List.length s')%nat /\
      forall i, input_at s r = Ok i -> txin_copy i = Ok i'
  | (Err e, s') => forall i, input_at s r = Ok i -> txin_copy i = Err e
  end.
Proof.
  intros Ln. unfold from_txin, andthen, look. destruct (nth_error s r) as [[c o h1 h2]|] eqn:E.
  2:{ unfold input_at. rewrite E. discriminate. }
  cbn [c_obj]. destruct o as [| p sc q | | |]; cbn [raise]; try (unfold input_at; rewrite E; discriminate).
  unfold from_outpoint, andthen, look. destruct (nth_error s p) as [[c2 o2 h3 h4]|] eqn:E2.
  2:{ unfold input_at, point_at. rewrite E, E2. discriminate. }
  cbn [c_obj]. destruct o2 as [h n0| | | |]; cbn [raise]; try (unfold input_at, point_at; rewrite E, E2; discriminate).
  assert (I : input_at s r = Ok (mkTxIn (mkOutPoint h n0) sc q)) by (unfold input_at, point_at; rewrite E, E2; reflexivity).
  unfold new_point, andthen, pure. destruct (outpoint_new h n0) as [o3|e] eqn:N.
  2:{ intros i Hi. rewrite I in Hi. injection Hi as <-. unfold txin_copy. cbn [i_prevout o_hash o_n]. rewrite N. reflexivity. }
  apply outpoint_new_same in N as N'. subst o3. unfold alloc. cbn [o_hash o_n].
  unfold new_input. destruct (negb _) eqn:Q.
  { cbn. intros i Hi. rewrite I in Hi. injection Hi as <-. unfold txin_copy. cbn [i_prevout o_hash o_n i_scriptSig i_nSequence]. rewrite N. cbn [bind].
    unfold txin_new. rewrite Q. reflexivity. }
  cbn [andthen ret alloc]. unfold andthen, ret, alloc.
  exists (mkTxIn (mkOutPoint h n0) sc q). rewrite !app_length. cbn [List.length]. split; [|split; [lia|]].
  - exists (List.length s). cbn [i_prevout o_hash o_n i_scriptSig i_nSequence].
    replace (List.length s + 1)%nat with (List.length (s ++ [Cell Mut (OPoint h n0) None None])) by (rewrite app_length; reflexivity).
    rewrite nth_last. split; [reflexivity|]. rewrite nth_error_app1 by (rewrite app_length; cbn; lia). rewrite nth_last.
    rewrite app_length. cbn [List.length]. repeat split; lia.
  - intros i Hi. rewrite I in Hi. injection Hi as <-. unfold txin_copy. cbn [i_prevout o_hash o_n i_scriptSig i_nSequence]. rewrite N. cbn [bind].
    unfold txin_new. rewrite Q. reflexivity.
Qed.
Lemma from_txout_mut s r n : (n <= List.length s)%nat ->
  match from_txout Mut r s with
  | (Ok r', s') => exists o', mut_output n s' r' o' /\ (List.length s <= r' < List.length s')%nat /\
      forall o, output_at s r = Ok o -> o = o'
  | (Err e, s') => forall o, output_at s r <> Ok o
  end.
Proof.
  intros Ln. unfold from_txout, andthen, look. destruct (nth_error s r) as [[c o h1 h2]|] eqn:E.
  2:{ unfold output_at. rewrite E. discriminate. }
  cbn [c_obj]. destruct o as [| | v sc | |]; cbn [raise]; try (unfold output_at; rewrite E; discriminate).
  unfold new_output, alloc. exists (mkTxOut v sc). rewrite app_length. cbn [List.length]. split; [|split; [lia|]].
  - split; [apply nth_last|lia].
  - intros o. unfold output_at. rewrite E. congruence.
Qed.
Lemma copy_inputs l : forall s0 s n, (n <= List.length s)%nat -> ext s0 s ->
  match each (from_txin Mut) l s with
  | (Ok l', s') => exists vi', Forall2 (mut_input n s') l' vi' /\ NoDup l' /\ Forall (fun r => List.length s <= r < List.length s')%nat l' /\
      forall vi, mapM (input_at s0) l = Ok vi -> mapM txin_copy vi = Ok vi'
  | (Err e, s') => forall vi, mapM (input_at s0) l = Ok vi -> mapM txin_copy vi = Err e
  end.
Proof.
  induction l as [|r l IH]; intros s0 s n Ln X; cbn [each].
  - cbn [ret]. exists []. split; [constructor|]. split; [constructor|]. split; [constructor|]. intros vi [= <-]. reflexivity.
  - unfold andthen. pose proof (from_txin_mut s r n Ln) as H. destruct (from_txin Mut r s) as [[r'|e] s1] eqn:E.
    + destruct H as (i' & Hi & [Hr1 Hr2] & Hc). destruct (appends_ext _ _ _ _ (appends_from_txin Mut r) E) as [X1 L1].
      specialize (IH s0 s1 n ltac:(lia) (ext_trans _ _ _ X X1)).
      destruct (each (from_txin Mut) l s1) as [[l'|e] s2] eqn:E2.
      * destruct IH as (vi' & F & ND & B & M). destruct (appends_ext _ _ _ _ (appends_each _ l (appends_from_txin Mut)) E2) as [X2 L2].
        cbn [ret]. exists (i' :: vi'). split; [constructor; [eapply mut_input_ext; eauto|exact F]|]. split.
        { constructor; [|exact ND]. intros Hin. rewrite Forall_forall in B. specialize (B _ Hin). lia. }
        split. { constructor; [lia|]. eapply Forall_impl; [|exact B]. cbv beta. intros; lia. }
        intros vi. cbn [mapM]. destruct (input_at s0 r) as [i|] eqn:I; cbn [bind]; [|discriminate].
        destruct (mapM (input_at s0) l) as [vl|]; cbn [bind]; [|discriminate]. intros [= <-]. cbn [mapM].
        rewrite (Hc _ (input_at_ext _ _ _ _ X I)), (M _ eq_refl). reflexivity.
      * intros vi. cbn [mapM]. destruct (input_at s0 r) as [i|] eqn:I; cbn [bind]; [|discriminate].
        destruct (mapM (input_at s0) l) as [vl|]; cbn [bind]; [|discriminate]. intros [= <-]. cbn [mapM].
        rewrite (Hc _ (input_at_ext _ _ _ _ X I)), (IH _ eq_refl). reflexivity.
    + intros vi. cbn [mapM]. destruct (input_at s0 r) as [i|] eqn:I; cbn [bind]; [|discriminate].
      destruct (mapM (input_at s0) l) as [vl|]; cbn [bind]; [|discriminate]. intros [= <-]. cbn [mapM].
      rewrite (H _ (input_at_ext _ _ _ _ X I)). reflexivity.
Qed.
Lemma copy_outputs l : forall s0 s n, (n <= List.length s)%nat -> ext s0 s ->
  match each (from_txout Mut) l s with
  | (Ok l', s') => exists vo', Forall2 (mut_output n s') l' vo' /\ forall vo, mapM (output_at s0) l = Ok vo -> vo = vo'
  | (Err e, s') => forall vo, mapM (output_at s0) l <> Ok vo
  end.
Proof.
  induction l as [|r l IH]; intros s0 s n Ln X; cbn [each].
  - cbn [ret]. exists []. split; [constructor|]. intros vo [= <-]. reflexivity.
  - unfold andthen. pose proof (from_txout_mut s r n Ln) as H. destruct (from_txout Mut r s) as [[r'|e] s1] eqn:E.
    + destruct H as (i' & Hi & [Hr1 Hr2] & Hc). destruct (appends_ext _ _ _ _ (appends_from_txout Mut r) E) as [X1 L1].
      specialize (IH s0 s1 n ltac:(lia) (ext_trans _ _ _ X X1)).
      destruct (each (from_txout Mut) l s1) as [[l'|e] s2] eqn:E2.
      * destruct IH as (vi' & F & M). destruct (appends_ext _ _ _ _ (appends_each _ l (appends_from_txout Mut)) E2) as [X2 L2].
        cbn [ret]. exists (i' :: vi'). split; [constructor; [eapply mut_output_ext; eauto|exact F]|].
        intros vi. cbn [mapM]. destruct (output_at s0 r) as [i|] eqn:I; cbn [bind]; [|discriminate].
        destruct (mapM (output_at s0) l) as [vl|]; cbn [bind]; [|discriminate]. intros [= <-].
        rewrite (Hc _ (output_at_ext _ _ _ _ X I)), (M _ eq_refl). reflexivity.
      * intros vi. cbn [mapM]. destruct (output_at s0 r) as [i|] eqn:I; cbn [bind]; [|discriminate].
        destruct (mapM (output_at s0) l) as [vl|]; cbn [bind]; [|discriminate]. exfalso. exact (IH _ eq_refl).
    + intros vi. cbn [mapM]. destruct (output_at s0 r) as [i|] eqn:I; cbn [bind]; [|discriminate].
      exfalso. exact (H _ (output_at_ext _ _ _ _ X I)).
Qed.

(** A transaction object all of whose parts are mutable and not below [n]. *)
Definition copy_of (n : nat) (s : store) (x vi vo : ref) (li lo : list ref) (t : tx) : Prop :=
  nth_error s x = Some (Cell Mut (OTrans vi vo (t_nLockTime t) (t_nVersion t)) None None) /\
  nth_error s vi = Some (Cell Mut (OSeq li) None None) /\
  nth_error s vo = Some (Cell Mut (OSeq lo) None None) /\
  Forall2 (mut_input n s) li (t_vin t) /\ NoDup li /\ Forall2 (mut_output n s) lo (t_vout t) /\
  (n <= x)%nat /\ (n <= vi)%nat /\ (n <= vo)%nat /\ vi <> vo.

Lemma Forall2_mono {A B} (P Q : A -> B -> Prop) l m : (forall a b, P a b -> Q a b) -> Forall2 P l m -> Forall2 Q l m.
Proof. intros H F. induction F; constructor; auto. Qed.

Lemma from_tx_mut s r :
  match from_tx Mut r s with
  | (Ok x, s') => exists vi vo li lo t', copy_of (List.length s) s' x vi vo li lo t' /\ forall t, tx_at s r = Ok t -> tx_copy t = Ok t'
  | (Err e, s') => forall t, tx_at s r = Ok t -> tx_copy t = Err e
  end.
Proof.
  unfold from_tx, andthen at 1, look. destruct (nth_error s r) as [[c o h1 h2]|] eqn:E.
  2:{ unfold tx_at. rewrite E. discriminate. }
  cbn [c_obj c_cls]. destruct o as [| | |vin vout lock ver|]; cbn [raise]; try (unfold tx_at; rewrite E; discriminate).
  assert (T : forall t, tx_at s r = Ok t -> exists li lo, seq_at s vin = Ok li /\ seq_at s vout = Ok lo /\
    exists a b, mapM (input_at s) li = Ok a /\ mapM (output_at s) lo = Ok b /\ t = mkTx a b lock ver).
  { intros t. unfold tx_at. rewrite E. destruct (seq_at s vin) as [li|]; cbn [bind]; [|discriminate].
    destruct (mapM (input_at s) li) eqn:A; cbn [bind]; [|discriminate].
    destruct (seq_at s vout) as [lo|]; cbn [bind]; [|discriminate].
    destruct (mapM (output_at s) lo) eqn:B; cbn [bind]; [|discriminate]. intros [= <-]. eauto 10. }
  destruct c; (
  unfold iterate at 1, andthen at 1 2, look;
  destruct (nth_error s vin) as [[c1 o1 h3 h4]|] eqn:E1;
  [|intros t Ht; destruct (T _ Ht) as (li & lo & A & _); unfold seq_at in A; rewrite E1 in A; discriminate];
  cbn [c_obj]; destruct o1 as [| | | |li]; cbn [raise];
    try (intros t Ht; destruct (T _ Ht) as (li & lo & A & _); unfold seq_at in A; rewrite E1 in A; discriminate);
  cbn [ret]; unfold andthen at 1;
  pose proof (copy_inputs li s s (List.length s) (le_n _) (ext_refl s)) as CI;
  destruct (each (from_txin Mut) li s) as [[li'|e] s1] eqn:E2;
  [|intros t Ht; destruct (T _ Ht) as (li2 & lo & A & B & a & b & M1 & M2 & ->); unfold seq_at in A; rewrite E1 in A;
    injection A as <-; unfold tx_copy; cbn [t_vin]; rewrite (CI _ M1); reflexivity];
  destruct CI as (vi' & F & ND & _ & M);
  destruct (appends_ext _ _ _ _ (appends_each _ li (appends_from_txin Mut)) E2) as [X1 L1];
  unfold andthen at 1, alloc at 1; unfold iterate at 1, andthen at 1 2, look;
  set (s2 := s1 ++ [Cell Mut (OSeq li') None None]);
  assert (X2 : ext s1 s2) by apply ext_app;
  assert (Hvo : forall x, seq_at s vout = Ok x -> seq_at s2 vout = Ok x) by (intros x Hx; exact (seq_at_ext _ _ _ _ (ext_trans _ _ _ X1 X2) Hx));
  assert (Hvi : nth_error s2 (List.length s1) = Some (Cell Mut (OSeq li') None None)) by apply nth_last;
  assert (Ls2 : List.length s2 = S (List.length s1)) by (unfold s2; rewrite app_length; cbn; lia);
  destruct (nth_error s2 vout) as [[c3 o3 h5 h6]|] eqn:E3;
  [|intros t Ht; destruct (T _ Ht) as (li2 & lo & A & B & _); apply Hvo in B; unfold seq_at in B; rewrite E3 in B; discriminate];
  cbn [c_obj]; destruct o3 as [| | | |lo]; cbn [raise];
    try (intros t Ht; destruct (T _ Ht) as (li2 & lo & A & B & _); apply Hvo in B; unfold seq_at in B; rewrite E3 in B; discriminate);
  cbn [ret]; unfold andthen at 1;
  pose proof (copy_outputs lo s s2 (List.length s) ltac:(lia) (ext_trans _ _ _ X1 X2)) as CO;
  destruct (each (from_txout Mut) lo s2) as [[lo'|e] s3] eqn:E5;
  [|intros t Ht; destruct (T _ Ht) as (li2 & lo2 & A & B & a & b & M1 & M2 & ->); apply Hvo in B; unfold seq_at in B; rewrite E3 in B; injection B as <-;
    exfalso; exact (CO _ M2)];
  destruct CO as (vo' & FO & MO);
  destruct (appends_ext _ _ _ _ (appends_each _ lo (appends_from_txout Mut)) E5) as [X3 L3];
  unfold andthen at 1, alloc at 1;
  assert (TC : forall t, tx_at s r = Ok t -> tx_copy t = tx_new vi' vo' lock ver);
  [intros t Ht; destruct (T _ Ht) as (li2 & lo2 & A & B & a & b & M1 & M2 & ->); apply Hvo in B; unfold seq_at in A, B; rewrite E1 in A; injection A as <-; rewrite E3 in B; injection B as <-;
   unfold tx_copy; cbn [t_vin t_vout t_nLockTime t_nVersion]; rewrite (M _ M1); cbn [bind]; rewrite (MO _ M2); reflexivity|];
  unfold new_tx, tx_new in *; destruct (negb _);
  [cbn [raise]; exact TC|];
  cbn [andthen ret alloc]; unfold andthen, ret, alloc;
  set (s4 := s3 ++ [Cell Mut (OSeq lo') None None]) in *;
  assert (X4 : ext s3 s4) by apply ext_app;
  set (y := Cell Mut (OTrans _ _ _ _) None None);
  assert (X5 : ext s4 (s4 ++ [y])) by apply ext_app;
  exists (List.length s1), (List.length s3), li', lo', (mkTx vi' vo' lock ver);
  split; [|exact TC];
  assert (Ls4 : List.length s4 = S (List.length s3)) by (unfold s4; rewrite app_length; cbn; lia);
  unfold copy_of; cbn [t_vin t_vout t_nLockTime t_nVersion];
  split; [apply nth_last|]; split; [apply X5, X4, X3; exact Hvi|]; split; [apply X5; apply nth_last|];
  split; [eapply Forall2_mono; [|exact F]; intros; eapply mut_input_ext; [|eassumption]; intros ? ? ?; apply X5, X4, X3, X2; assumption|];
  split; [exact ND|];
  split; [eapply Forall2_mono; [|exact FO]; intros; eapply mut_output_ext; [|eassumption]; intros ? ? ?; apply X5, X4; assumption|];
  repeat split; lia).
Qed.

(** ** Working on a copy *)

(** Only these objects are changed. *)
Definition only (l : list ref) (s s' : store) : Prop := forall y, ~ In y l -> nth_error s' y = nth_error s y.
Definition is_input (s : store) (r : ref) : Prop := exists c p sc q a b, nth_error s r = Some (Cell c (OInput p sc q) a b).
Lemma mut_input_is n s r i : mut_input n s r i -> is_input s r.
Proof. intros (p & A & _). unfold is_input. eauto 10. Qed.

(** Setting an attribute of an input that keeps its outpoint. *)
Lemma set_input n s r i f sc q : mut_input n s r i ->
  (forall p, with_field (OInput p (i_scriptSig i) (i_nSequence i)) f = Some (OInput p sc q)) ->
  exists s', set_attr r f s = (Ok tt, s') /\ List.length s' = List.length s /\ only [r] s s' /\
    mut_input n s' r (mkTxIn (i_prevout i) sc q) /\ (forall y, is_input s y -> is_input s' y) /\
    (forall y j, y <> r -> mut_input n s y j -> mut_input n s' y j).
Proof.
  intros (p & A & B & C & D) W. unfold set_attr, andthen, look. rewrite A. cbn [c_cls c_obj c_hash c_pyhash]. rewrite W. unfold put.
  eexists. split; [reflexivity|]. split; [apply replace_length|].
  assert (O : only [r] s (replace s r (Cell Mut (OInput p sc q) None None))).
  { intros y Hy. apply replace_other. intros ->. apply Hy. left. reflexivity. }
  assert (R : nth_error (replace s r (Cell Mut (OInput p sc q) None None)) r = Some (Cell Mut (OInput p sc q) None None))
    by (apply replace_same; eapply some_below; eauto).
  split; [exact O|]. split; [|split].
  - exists p. cbn [i_prevout i_scriptSig i_nSequence]. split; [exact R|]. split; [|auto]. rewrite replace_other; [exact B|]. intros ->. congruence.
  - intros y (c & p1 & sc1 & q1 & a & b & Y). destruct (Nat.eq_dec y r) as [->|N].
    + unfold is_input. rewrite R. eauto 10.
    + unfold is_input. rewrite replace_other by assumption. eauto 10.
  - intros y j N (p1 & Y1 & Y2 & Y3). exists p1. rewrite replace_other by assumption. split; [exact Y1|]. split; [|exact Y3].
    rewrite replace_other; [exact Y2|]. intros ->. congruence.
Qed.

Definition cleared (i : txin) : txin := mkTxIn (i_prevout i) [] (i_nSequence i).

(** A loop over inputs, each of which is changed or not. *)
Lemma clear_spec n l : forall vin s, Forall2 (mut_input n s) l vin -> NoDup l ->
  exists s', clear_scripts l s = (Ok tt, s') /\ List.length s' = List.length s /\ only l s s' /\
    Forall2 (mut_input n s') l (map cleared vin) /\ (forall y, is_input s y -> is_input s' y) /\
    (forall y j, ~ In y l -> mut_input n s y j -> mut_input n s' y j).
Proof.
  unfold clear_scripts.
  assert (G : forall l vin s, Forall2 (mut_input n s) l vin -> NoDup l ->
    exists u s', each (fun r => set_attr r (FScriptSig [])) l s = (Ok u, s') /\ List.length s' = List.length s /\ only l s s' /\
    Forall2 (mut_input n s') l (map cleared vin) /\ (forall y, is_input s y -> is_input s' y) /\
    (forall y j, ~ In y l -> mut_input n s y j -> mut_input n s' y j)).
  { clear l. induction l as [|r l IH]; intros vin s F ND; inversion F as [|? i ? vin' Hi F']; subst; cbn [each map].
    - exists [], s. unfold ret. split; [reflexivity|]. split; [reflexivity|]. split; [intros y _; reflexivity|]. split; [constructor|]. auto.
    - inversion ND as [|? ? NI ND']; subst.
      destruct (set_input n s r i (FScriptSig []) [] (i_nSequence i) Hi ltac:(reflexivity)) as (s1 & E1 & L1 & O1 & M1 & I1 & K1).
      destruct (IH vin' s1) as (u & s2 & E2 & L2 & O2 & F2 & I2 & K2); [|exact ND'|].
      { clear - F' K1 NI. induction F' as [|y j l vin Hy F IH]; [constructor|]. constructor.
        - apply K1; [intros ->; apply NI; left; reflexivity|exact Hy].
        - apply IH. intros H. apply NI. right. exact H. }
      exists (tt :: u), s2. unfold andthen. rewrite E1, E2. split; [reflexivity|]. split; [lia|]. split.
      { intros y Hy. rewrite O2 by (intros H; apply Hy; right; exact H). apply O1. intros [->|[]]. apply Hy. left. reflexivity. }
      split. { constructor; [|exact F2]. apply K2; [exact NI|exact M1]. }
      split; [auto|]. intros y j Hy Hj. apply K2; [intros H; apply Hy; right; exact H|]. apply K1; [intros ->; apply Hy; left; reflexivity|exact Hj]. }
  intros vin s F ND. destruct (G l vin s F ND) as (u & s' & E & R). exists s'. unfold andthen. rewrite E. split; [reflexivity|exact R].
Qed.
Lemma zero_spec n inIdx l : forall j vin s, Forall2 (mut_input n s) l vin -> NoDup l ->
  exists s', zero_others inIdx j l s = (Ok tt, s') /\ List.length s' = List.length s /\ only l s s' /\
    Forall2 (mut_input n s') l (zero_sequences inIdx j vin) /\ (forall y, is_input s y -> is_input s' y) /\
    (forall y j, ~ In y l -> mut_input n s y j -> mut_input n s' y j).
Proof.
  induction l as [|r l IH]; intros j vin s F ND; inversion F as [|? i ? vin' Hi F']; subst; cbn [zero_others zero_sequences].
  - exists s. unfold ret. split; [reflexivity|]. split; [reflexivity|]. split; [intros y _; reflexivity|]. split; [constructor|]. auto.
  - inversion ND as [|? ? NI ND']; subst. destruct (j =? inIdx)%Z.
    + destruct (IH (j + 1)%Z vin' s F' ND') as (s2 & E2 & L2 & O2 & F2 & I2 & K2).
      exists s2. cbn [andthen ret]. unfold andthen, ret. rewrite E2. split; [reflexivity|]. split; [lia|]. split.
      { intros y Hy. apply O2. intros H; apply Hy; right; exact H. }
      split; [constructor; [apply K2; assumption|exact F2]|]. split; [auto|].
      intros y k Hy Hk. apply K2; [intros H; apply Hy; right; exact H|exact Hk].
    + destruct (set_input n s r i (FSequence 0) (i_scriptSig i) 0%Z Hi ltac:(reflexivity)) as (s1 & E1 & L1 & O1 & M1 & I1 & K1).
      destruct (IH (j + 1)%Z vin' s1) as (s2 & E2 & L2 & O2 & F2 & I2 & K2); [|exact ND'|].
      { clear - F' K1 NI. induction F' as [|y j l vin Hy F IH]; [constructor|]. constructor.
        - apply K1; [intros ->; apply NI; left; reflexivity|exact Hy].
        - apply IH. intros H. apply NI. right. exact H. }
      exists s2. unfold andthen. rewrite E1, E2. split; [reflexivity|]. split; [lia|]. split.
      { intros y Hy. rewrite O2 by (intros H; apply Hy; right; exact H). apply O1. intros [->|[]]. apply Hy. left. reflexivity. }
      split. { constructor; [|exact F2]. apply K2; [exact NI|exact M1]. }
      split; [auto|]. intros y k Hy Hj. apply K2; [intros H; apply Hy; right; exact H|]. apply K1; [intros ->; apply Hy; left; reflexivity|exact Hj].
Qed.
Lemma set_nth_spec n l : forall k vin s r i sc, Forall2 (mut_input n s) l vin -> NoDup l ->
  nth_error l k = Some r -> nth_error vin k = Some i ->
  exists s', set_attr r (FScriptSig sc) s = (Ok tt, s') /\ List.length s' = List.length s /\ only [r] s s' /\
    Forall2 (mut_input n s') l (set_nth_script vin k sc).
Proof.
  intros k vin s r i sc F ND Er Ei.
  assert (Hi : mut_input n s r i).
  { revert k Er Ei. clear ND. induction F as [|y j l vin Hy F IH]; intros [|k]; cbn [nth_error]; try discriminate; [congruence|eauto]. }
  destruct (set_input n s r i (FScriptSig sc) sc (i_nSequence i) Hi ltac:(reflexivity)) as (s1 & E1 & L1 & O1 & M1 & I1 & K1).
  exists s1. split; [exact E1|]. split; [exact L1|]. split; [exact O1|]. revert k Er Ei ND. clear - F K1 M1.
  induction F as [|y j l vin Hy F IH]; intros [|k]; cbn [nth_error set_nth_script]; try discriminate; intros Er Ei ND; inversion ND as [|? ? NI ND']; subst.
  - injection Er as ->. injection Ei as ->. constructor; [exact M1|]. clear - F K1 NI.
    induction F as [|y j l vin Hy F IH]; [constructor|]. constructor.
    + apply K1; [intros ->; apply NI; left; reflexivity|exact Hy].
    + apply IH. intros H. apply NI. right. exact H.
  - constructor; [|eauto]. apply K1; [|exact Hy]. intros ->. apply NI. eapply nth_error_In; eauto.
Qed.

(** A transaction object whose inputs may be changed, and its value. *)
Definition work (n : nat) (s : store) (x vi vo : ref) (li lo : list ref) (t : tx) : Prop :=
  nth_error s x = Some (Cell Mut (OTrans vi vo (t_nLockTime t) (t_nVersion t)) None None) /\
  nth_error s vi = Some (Cell Mut (OSeq li) None None) /\
  nth_error s vo = Some (Cell Mut (OSeq lo) None None) /\
  Forall2 (mut_input n s) li (t_vin t) /\ NoDup li /\ Forall2 (fun r o => output_at s r = Ok o) lo (t_vout t) /\
  (n <= x)%nat /\ (n <= vi)%nat /\ (n <= vo)%nat /\ vi <> vo.
Lemma copy_work n s x vi vo li lo t : copy_of n s x vi vo li lo t -> work n s x vi vo li lo t.
Proof.
  intros (A & B & C & D & E & F & G). unfold work. repeat split; try tauto.
  eapply Forall2_mono; [|exact F]. intros. eapply mut_output_at; eauto.
Qed.
Definition same_below (n : nat) (s s' : store) : Prop := forall r, (r < n)%nat -> nth_error s' r = nth_error s r.
Lemma same_below_trans n a b c : same_below n a b -> same_below n b c -> same_below n a c.
Proof. intros H K r L. rewrite K by exact L. auto. Qed.
Lemma same_below_refl n s : same_below n s s. Proof. intros r _. reflexivity. Qed.
Lemma mapM_Forall2 {A B} (f : A -> result B) l m : Forall2 (fun a b => f a = Ok b) l m -> mapM f l = Ok m.
Proof. intros F. induction F as [|a b l m H F IH]; [reflexivity|]. cbn [mapM]. rewrite H, IH. reflexivity. Qed.
Lemma work_tx_at n s x vi vo li lo t : work n s x vi vo li lo t -> tx_at s x = Ok t.
Proof.
  intros (A & B & C & D & E & F & G). unfold tx_at, seq_at. rewrite A, B, C. cbn [bind].
  rewrite (mapM_Forall2 (input_at s) li (t_vin t)) by (eapply Forall2_mono; [|exact D]; intros; eapply mut_input_at; eauto). cbn [bind].
  rewrite (mapM_Forall2 (output_at s) lo (t_vout t)) by exact F. destruct t. reflexivity.
Qed.
Lemma only_below n l s s' : only l s s' -> Forall (fun r => (n <= r)%nat) l -> same_below n s s'.
Proof. intros O F r L. apply O. intros H. rewrite Forall_forall in F. specialize (F _ H). lia. Qed.
Lemma inputs_above n s li vin : Forall2 (mut_input n s) li vin -> Forall (fun r => (n <= r)%nat) li.
Proof. intros F. induction F as [|r i li vin H F IH]; constructor; [|exact IH]. destruct H as (p & _ & _ & H & _). exact H. Qed.
Lemma inputs_inputs n s li vin : Forall2 (mut_input n s) li vin -> Forall (is_input s) li.
Proof. intros F. induction F as [|r i li vin H F IH]; constructor; [|exact IH]. eapply mut_input_is; eauto. Qed.
(** Changing inputs of it. *)
Lemma work_inputs n s s' x vi vo li lo t vin' l : work n s x vi vo li lo t -> (forall r, In r l -> In r li) -> only l s s' ->
  Forall2 (mut_input n s') li vin' -> work n s' x vi vo li lo (mkTx vin' (t_vout t) (t_nLockTime t) (t_nVersion t)) /\ same_below n s s'.
Proof.
  intros (A & B & C & D & E & F & G) Hl O D'.
  assert (K : forall r, is_input s r \/ nth_error s' r = nth_error s r).
  { intros r. destruct (in_dec Nat.eq_dec r l) as [Hr|Hr]; [|right; apply O; exact Hr].
    left. pose proof (inputs_inputs _ _ _ _ D) as I. rewrite Forall_forall in I. apply I, Hl, Hr. }
  assert (K' : forall r c o a b, nth_error s r = Some (Cell c o a b) -> (forall p sc q, o <> OInput p sc q) -> nth_error s' r = Some (Cell c o a b)).
  { intros r c o a b H No. destruct (K r) as [(c1 & p & sc & q & a1 & b1 & I)|Q]; [|rewrite Q; exact H]. rewrite I in H. injection H as <- <- <- <-.
    exfalso. eapply No; reflexivity. }
  split.
  - unfold work. cbn [t_vin t_vout t_nLockTime t_nVersion]. split; [apply K'; [exact A|discriminate]|]. split; [apply K'; [exact B|discriminate]|].
    split; [apply K'; [exact C|discriminate]|]. split; [exact D'|]. split; [exact E|]. split; [|exact G].
    eapply Forall2_mono; [|exact F]. intros r o. cbv beta. unfold output_at. destruct (nth_error s r) as [[c oo a b]|] eqn:Y; [|discriminate]. destruct oo; try discriminate.
    intros H. rewrite (K' r _ _ _ _ Y) by discriminate. exact H.
  - eapply only_below; [exact O|]. apply Forall_forall. intros r Hr. pose proof (inputs_above _ _ _ _ D) as I. rewrite Forall_forall in I. apply I, Hl, Hr.
Qed.
(** Adding objects. *)
Lemma work_ext n s s' x vi vo li lo t : work n s x vi vo li lo t -> ext s s' -> work n s' x vi vo li lo t.
Proof.
  intros (A & B & C & D & E & F & G) X. unfold work. split; [auto|]. split; [auto|]. split; [auto|].
  split; [eapply Forall2_mono; [|exact D]; intros; eapply mut_input_ext; eauto|]. split; [exact E|]. split; [|exact G].
  eapply Forall2_mono; [|exact F]. intros r o. apply output_at_ext. exact X.
Qed.
(** Changing an object that is not an input, outpoint or output. *)
Lemma reads_replace n s r c o a b c' : nth_error s r = Some (Cell c o a b) ->
  (forall p sc q, o <> OInput p sc q) -> (forall h n, o <> OPoint h n) -> (forall v sc, o <> OOutput v sc) ->
  (forall li vin, Forall2 (mut_input n s) li vin -> Forall2 (mut_input n (replace s r c')) li vin) /\
  (forall lo vout, Forall2 (fun r o => output_at s r = Ok o) lo vout -> Forall2 (fun y v => output_at (replace s r c') y = Ok v) lo vout).
Proof.
  intros E N1 N2 N3. split; intros l m F; (eapply Forall2_mono; [|exact F]); intros y z.
  - intros (p & A & B & C). exists p. rewrite !replace_other; [auto| |]; intros ->; rewrite E in *.
    + injection B as _ Eo _ _. exact (N2 _ _ Eo).
    + injection A as _ Eo _ _. exact (N1 _ _ _ Eo).
  - cbv beta. unfold output_at. destruct (nth_error s y) as [[c1 oo a1 b1]|] eqn:Y; [|discriminate]. destruct oo; try discriminate. intros H.
    rewrite replace_other; [rewrite Y; exact H|]. intros Q. rewrite Q, E in Y. injection Y as _ Eo _ _. exact (N3 _ _ Eo).
Qed.
Lemma work_set_vout n s x vi vo li lo t w : work n s x vi vo li lo t -> nth_error s w = Some (Cell Mut (OSeq []) None None) ->
  (n <= w)%nat -> vi <> w ->
  exists s', set_attr x (FVout w) s = (Ok tt, s') /\ work n s' x vi w li [] (mkTx (t_vin t) [] (t_nLockTime t) (t_nVersion t)) /\ same_below n s s' /\ List.length s' = List.length s.
Proof.
  intros (A & B & C & D & E & F & G1 & G2 & G3 & G4) W Lw Nw. unfold set_attr, andthen, look. rewrite A. cbn [c_cls c_obj with_field c_hash c_pyhash]. unfold put.
  eexists. split; [reflexivity|].
  destruct (reads_replace n s x _ _ _ _ (Cell Mut (OTrans vi w (t_nLockTime t) (t_nVersion t)) None None) A) as [R1 R2]; try discriminate.
  split; [|split; [intros r L; apply replace_other; lia|apply replace_length]].
  unfold work. cbn [t_vin t_vout t_nLockTime t_nVersion]. split; [apply replace_same; eapply some_below; eauto|].
  split; [rewrite replace_other by congruence; exact B|]. split; [rewrite replace_other by congruence; exact W|].
  split; [apply R1; exact D|]. split; [exact E|]. split; [constructor|]. auto.
Qed.
Lemma work_set_vin n s x vi vo li lo t w : work n s x vi vo li lo t -> nth_error s w = Some (Cell Mut (OSeq []) None None) ->
  (n <= w)%nat -> vo <> w ->
  exists s', set_attr x (FVin w) s = (Ok tt, s') /\ work n s' x w vo [] lo (mkTx [] (t_vout t) (t_nLockTime t) (t_nVersion t)) /\ same_below n s s' /\
    List.length s' = List.length s /\ (forall r i, mut_input n s r i -> mut_input n s' r i).
Proof.
  intros (A & B & C & D & E & F & G1 & G2 & G3 & G4) W Lw Nw. unfold set_attr, andthen, look. rewrite A. cbn [c_cls c_obj with_field c_hash c_pyhash]. unfold put.
  eexists. split; [reflexivity|].
  destruct (reads_replace n s x _ _ _ _ (Cell Mut (OTrans w vo (t_nLockTime t) (t_nVersion t)) None None) A) as [R1 R2]; try discriminate.
  split; [|split; [intros r L; apply replace_other; lia|split; [apply replace_length|]]].
  - unfold work. cbn [t_vin t_vout t_nLockTime t_nVersion]. split; [apply replace_same; eapply some_below; eauto|].
    split; [rewrite replace_other by congruence; exact W|]. split; [rewrite replace_other by congruence; exact C|].
    split; [constructor|]. split; [constructor|]. split; [apply R2; exact F|]. auto.
  - intros r i H. pose proof (R1 [r] [i] ltac:(repeat constructor; exact H)) as Q. inversion Q; assumption.
Qed.
Lemma Forall2_snoc {A B} (P : A -> B -> Prop) l m a b : Forall2 P l m -> P a b -> Forall2 P (l ++ [a]) (m ++ [b]).
Proof. intros F H. apply Forall2_app; [exact F|]. repeat constructor. exact H. Qed.
Lemma work_append_out n s x vi vo li lo t r o : work n s x vi vo li lo t -> output_at s r = Ok o ->
  exists s', append vo r s = (Ok tt, s') /\ work n s' x vi vo li (lo ++ [r]) (mkTx (t_vin t) (t_vout t ++ [o]) (t_nLockTime t) (t_nVersion t)) /\
    same_below n s s' /\ (forall y v, output_at s y = Ok v -> output_at s' y = Ok v).
Proof.
  intros (A & B & C & D & E & F & G1 & G2 & G3 & G4) Hr. unfold append, iterate, change, andthen, look. rewrite C. cbn [c_obj ret]. unfold ret. rewrite C. cbn [c_cls c_obj c_hash c_pyhash]. unfold put.
  eexists. split; [reflexivity|].
  destruct (reads_replace n s vo _ _ _ _ (Cell Mut (OSeq (lo ++ [r])) None None) C) as [R1 R2]; try discriminate.
  assert (R3 : forall y v, output_at s y = Ok v -> output_at (replace s vo (Cell Mut (OSeq (lo ++ [r])) None None)) y = Ok v).
  { intros y v H. pose proof (R2 [y] [v] ltac:(repeat constructor; exact H)) as Q. inversion Q; assumption. }
  split; [|split; [intros r0 L; apply replace_other; lia|exact R3]].
  unfold work. cbn [t_vin t_vout t_nLockTime t_nVersion]. split; [rewrite replace_other by congruence; exact A|].
  split; [rewrite replace_other by congruence; exact B|]. split; [apply replace_same; eapply some_below; eauto|].
  split; [apply R1; exact D|]. split; [exact E|]. split; [apply Forall2_snoc; auto|]. auto.
Qed.
Lemma work_append_in n s x vi vo lo t r i : work n s x vi vo [] lo t -> mut_input n s r i ->
  exists s', append vi r s = (Ok tt, s') /\ work n s' x vi vo [r] lo (mkTx [i] (t_vout t) (t_nLockTime t) (t_nVersion t)) /\ same_below n s s'.
Proof.
  intros (A & B & C & D & E & F & G1 & G2 & G3 & G4) Hr. unfold append, iterate, change, andthen, look. rewrite B. cbn [c_obj ret]. unfold ret. rewrite B. cbn [c_cls c_obj c_hash c_pyhash app]. unfold put.
  eexists. split; [reflexivity|].
  destruct (reads_replace n s vi _ _ _ _ (Cell Mut (OSeq [r]) None None) B) as [R1 R2]; try discriminate.
  split; [|intros r0 L; apply replace_other; lia].
  unfold work. cbn [t_vin t_vout t_nLockTime t_nVersion]. split; [rewrite replace_other by congruence; exact A|].
  split; [apply replace_same; eapply some_below; eauto|]. split; [rewrite replace_other by congruence; exact C|].
  split; [apply R1; repeat constructor; exact Hr|]. split; [repeat constructor; intros []|]. split; [apply R2; exact F|]. auto.
Qed.
Lemma work_defaults n k : forall s x vi vo li lo t, work n s x vi vo li lo t -> (n <= List.length s)%nat ->
  exists s' lo', append_defaults vo k s = (Ok tt, s') /\
    work n s' x vi vo li lo' (mkTx (t_vin t) (t_vout t ++ repeat txout_default k) (t_nLockTime t) (t_nVersion t)) /\
    same_below n s s' /\ (forall y v, output_at s y = Ok v -> output_at s' y = Ok v).
Proof.
  induction k as [|k IH]; intros s x vi vo li lo t W L; cbn [append_defaults repeat].
  - exists s, lo. unfold ret. split; [reflexivity|]. split; [|split; [apply same_below_refl|auto]]. rewrite app_nil_r. destruct t. exact W.
  - unfold andthen at 1, new_output, alloc. set (s1 := s ++ [Cell Imm (OOutput (-1) []) None None]).
    assert (X : ext s s1) by apply ext_app.
    assert (N : output_at s1 (List.length s) = Ok txout_default) by (unfold output_at, s1; rewrite nth_last; reflexivity).
    destruct (work_append_out n s1 x vi vo li lo t _ _ (work_ext _ _ _ _ _ _ _ _ _ W X) N) as (s2 & E2 & W2 & B2 & K2).
    assert (L2 : (n <= List.length s2)%nat).
    { destruct W2 as (A & _ & _ & _ & _ & _ & G & _). apply some_below in A. lia. }
    destruct (IH s2 x vi vo li _ _ W2 L2) as (s3 & lo' & E3 & W3 & B3 & K3).
    exists s3, lo'. unfold andthen. rewrite E2, E3. split; [reflexivity|]. cbn [t_vin t_vout t_nLockTime t_nVersion] in W3. rewrite <- app_assoc in W3. split; [exact W3|].
    split; [|intros y v H; apply K3, K2, (output_at_ext _ _ _ _ X H)].
    eapply same_below_trans; [|eapply same_below_trans; [exact B2|exact B3]]. intros r Lr. unfold s1. apply nth_error_app1. lia.
Qed.

(** ** The signature hash *)

Lemma Forall2_nth {A B} (P : A -> B -> Prop) l m k : Forall2 P l m ->
  match nth_error l k, nth_error m k with Some a, Some b => P a b | None, None => True | _, _ => False end.
Proof. intros F. revert k. induction F as [|a b l m H F IH]; intros [|k]; cbn [nth_error]; auto. apply IH. Qed.
Lemma Forall2_len {A B} (P : A -> B -> Prop) l m : Forall2 P l m -> List.length l = List.length m.
Proof. intros F. induction F; cbn; auto. Qed.
Lemma py_index_Forall2 {A B} (P : A -> B -> Prop) l m i : Forall2 P l m ->
  (exists a b, py_index l i = Ok a /\ py_index m i = Ok b /\ P a b /\ nth_error l (pos (List.length l) i) = Some a /\ nth_error m (pos (List.length m) i) = Some b) \/
  (exists e, py_index l i = Err e /\ py_index m i = Err e).
Proof.
  intros F. rewrite !py_index_pos, <- (Forall2_len _ _ _ F). pose proof (Forall2_nth _ _ _ (pos (List.length l) i) F) as N.
  destruct (_ && _); [right; eauto|]. destruct (nth_error l _) eqn:E1, (nth_error m _) eqn:E2; try contradiction; [left; eauto 10|right; eauto].
Qed.
Lemma work_slot n s x vi vo li lo t b : work n s x vi vo li lo t -> slot b x s = (Ok (if b then vi else vo), s).
Proof. intros (A & _). unfold slot, andthen, look. rewrite A. reflexivity. Qed.
Lemma work_iter_in n s x vi vo li lo t : work n s x vi vo li lo t -> iterate vi s = (Ok li, s).
Proof. intros (_ & A & _). unfold iterate, andthen, look. rewrite A. reflexivity. Qed.
Lemma work_iter_out n s x vi vo li lo t : work n s x vi vo li lo t -> iterate vo s = (Ok lo, s).
Proof. intros (_ & _ & A & _). unfold iterate, andthen, look. rewrite A. reflexivity. Qed.
Lemma work_len n s x vi vo li lo t : work n s x vi vo li lo t -> (n <= List.length s)%nat.
Proof. intros (A & _ & _ & _ & _ & _ & G & _). apply some_below in A. lia. Qed.
Lemma work_serialize n s x vi vo li lo t : work n s x vi vo li lo t -> serialize_ x s = (tx_ser t, s).
Proof. intros W. pose proof (work_tx_at _ _ _ _ _ _ _ _ W) as T. destruct W as (A & _). unfold serialize_, serialize. rewrite A, T. reflexivity. Qed.

Definition finish (txtmp : ref) (inIdx hashtype : Z) : M (bytes * bool) :=
  act _ <- (if (Z.land hashtype 0x80 =? 0)%Z then ret tt
            else act v <- slot true txtmp; act li <- iterate v; act tmp <- pure (py_index li inIdx);
                 act n <- alloc Mut (OSeq []); act _ <- set_attr txtmp (FVin n); append n tmp);
  act b <- serialize_ txtmp;
  act h <- pure (pack_u 4 hashtype);
  ret (Hash (b ++ h), false).
Definition vfinish (inIdx hashtype : Z) (t : tx) : result (bytes * bool) :=
  do vin <- (if (Z.land hashtype 0x80 =? 0)%Z then Ok (t_vin t) else do tmp <- py_index (t_vin t) inIdx; Ok [tmp]);
  do s <- tx_ser (mkTx vin (t_vout t) (t_nLockTime t) (t_nVersion t));
  do h <- pack_u 4 hashtype;
  Ok (Hash (s ++ h), false).
Lemma then_ok {A B} (m : M A) (f : A -> M B) s a s' : m s = (Ok a, s') -> andthen m f s = f a s'.
Proof. intros E. unfold andthen. rewrite E. reflexivity. Qed.
Lemma then_err {A B} (m : M A) (f : A -> M B) s e s' : m s = (Err e, s') -> andthen m f s = (Err e, s').
Proof. intros E. unfold andthen. rewrite E. reflexivity. Qed.
Lemma finish_spec n s x vi vo li lo t i h : work n s x vi vo li lo t ->
  fst (finish x i h s) = vfinish i h t /\ same_below n s (snd (finish x i h s)).
Proof.
  intros W. unfold finish, vfinish.
  assert (End : forall s' vi' vo' li' lo' t', work n s' x vi' vo' li' lo' t' ->
    (act b <- serialize_ x; act h <- pure (pack_u 4 h); ret (Hash (b ++ h), false)) s' =
    (do s <- tx_ser t'; do h <- pack_u 4 h; Ok (Hash (s ++ h), false), s')).
  { intros s' vi' vo' li' lo' t' W'. unfold andthen at 1. rewrite (work_serialize _ _ _ _ _ _ _ _ W'). destruct (tx_ser t'); cbn [bind]; [|reflexivity].
    unfold andthen, pure, ret. destruct (pack_u 4 h); reflexivity. }
  destruct (_ =? 0)%Z.
  - rewrite (then_ok _ _ _ tt s eq_refl), (End _ _ _ _ _ _ W). cbn [fst snd bind]. split; [destruct t; reflexivity|apply same_below_refl].
  - destruct (py_index_Forall2 _ _ _ i (proj1 (proj2 (proj2 (proj2 W))))) as [(r & y & E1 & E2 & Hy & _)|(e & E1 & E2)].
    + rewrite E2. cbn [bind].
      set (s1 := s ++ [Cell Mut (OSeq []) None None]). assert (X : ext s s1) by apply ext_app.
      pose proof (work_len _ _ _ _ _ _ _ _ W) as Ln.
      assert (Vo : vo <> List.length s) by (destruct W as (_ & _ & C & _); apply some_below in C; lia).
      destruct (work_set_vin n s1 x vi vo li lo t (List.length s) (work_ext _ _ _ _ _ _ _ _ _ W X) ltac:(apply nth_last) Ln Vo) as (s2 & F2 & W2 & B2 & _ & K2).
      destruct (work_append_in n s2 x _ vo lo _ r y W2 (K2 _ _ (mut_input_ext _ _ _ _ _ X Hy))) as (s3 & F3 & W3 & B3).
      cbn [t_vin t_vout t_nLockTime t_nVersion] in W3.
      erewrite then_ok.
      2:{ erewrite then_ok; [|eapply (work_slot _ _ _ _ _ _ _ _ true); exact W]. erewrite then_ok; [|eapply work_iter_in; exact W].
          erewrite then_ok; [|unfold pure; rewrite E1; reflexivity]. erewrite then_ok; [|reflexivity]. fold s1.
          erewrite then_ok; [|exact F2]. exact F3. }
      rewrite (End _ _ _ _ _ _ W3). cbn [fst snd]. split; [reflexivity|].
      eapply same_below_trans; [|eapply same_below_trans; [exact B2|exact B3]]. intros k Lk. unfold s1. apply nth_error_app1. lia.
    + erewrite then_err.
      2:{ erewrite then_ok; [|eapply (work_slot _ _ _ _ _ _ _ _ true); exact W]. erewrite then_ok; [|eapply work_iter_in; exact W].
          apply then_err. unfold pure. rewrite E1. reflexivity. }
      rewrite E2. cbn [fst snd bind]. split; [reflexivity|apply same_below_refl].
Qed.

Definition rest (script : bytes) (txtmp : ref) (inIdx hashtype : Z) : M (bytes * bool) :=
    act v <- slot true txtmp;
    act li <- iterate v;
    act _ <- clear_scripts li;
    act sc <- pure (FindAndDelete script [xab]);
    act i <- pure (py_index li inIdx);
    act _ <- set_attr i (FScriptSig sc);
    if (Z.land hashtype 0x1f =? 2)%Z then
      act n <- alloc Mut (OSeq []);
      act _ <- set_attr txtmp (FVout n);
      act v <- slot true txtmp;
      act li <- iterate v;
      act _ <- zero_others inIdx 0 li;
      finish txtmp inIdx hashtype
    else if (Z.land hashtype 0x1f =? 3)%Z then
      act w <- slot false txtmp;
      act lo <- iterate w;
      if (Z.of_nat (List.length lo) <=? inIdx)%Z then ret (HASH_ONE, true)
      else
        act tmp <- pure (py_index lo inIdx);
        act n <- alloc Mut (OSeq []);
        act _ <- set_attr txtmp (FVout n);
        act _ <- append_defaults n (Z.to_nat inIdx);
        act _ <- append n tmp;
        act v <- slot true txtmp;
        act li <- iterate v;
        act _ <- zero_others inIdx 0 li;
        finish txtmp inIdx hashtype
    else finish txtmp inIdx hashtype.
Definition vrest (script : bytes) (inIdx hashtype : Z) (t : tx) : result (bytes * bool) :=
    let vin := map cleared (t_vin t) in
    do s <- FindAndDelete script [xab];
    do vin <- set_script vin inIdx s;
    let vout := t_vout t in
    if (Z.land hashtype 0x1f =? 2)%Z then vfinish inIdx hashtype (mkTx (zero_sequences inIdx 0 vin) [] (t_nLockTime t) (t_nVersion t))
    else if (Z.land hashtype 0x1f =? 3)%Z then
      if (Z.of_nat (List.length vout) <=? inIdx)%Z then Ok (HASH_ONE, true)
      else
        do tmp <- py_index vout inIdx;
        vfinish inIdx hashtype (mkTx (zero_sequences inIdx 0 vin) (repeat txout_default (Z.to_nat inIdx) ++ [tmp]) (t_nLockTime t) (t_nVersion t))
    else vfinish inIdx hashtype (mkTx vin vout (t_nLockTime t) (t_nVersion t)).
Lemma rest_spec n s x vi vo li lo t sc i h : work n s x vi vo li lo t ->
  fst (rest sc x i h s) = vrest sc i h t /\ same_below n s (snd (rest sc x i h s)).
Proof.
  intros W. unfold rest, vrest.
  erewrite then_ok; [|eapply (work_slot _ _ _ _ _ _ _ _ true); exact W]. erewrite then_ok; [|eapply work_iter_in; exact W].
  destruct (clear_spec n li (t_vin t) s) as (s1 & E1 & L1 & O1 & F1 & _); [apply W|apply W|].
  rewrite (then_ok _ _ _ _ _ E1).
  destruct (work_inputs _ _ _ _ _ _ _ _ _ _ _ W (fun r H => H) O1 F1) as [W1 B1]. set (t1 := mkTx _ _ _ _) in W1.
  destruct (FindAndDelete sc [xab]) as [sc'|e]; cbn [bind].
  2:{ rewrite (then_err (pure (Err e)) _ s1 e s1 eq_refl). auto. }
  rewrite (then_ok (pure (Ok sc')) _ s1 sc' s1 eq_refl). unfold set_script.
  assert (F1' : Forall2 (mut_input n s1) li (map cleared (t_vin t))) by exact F1.
  destruct (py_index_Forall2 _ _ _ i F1') as [(r & y & P1 & P2 & Hy & N1 & N2)|(e & P1 & P2)].
  2:{ rewrite P2, (then_err (pure (py_index li i)) _ s1 e s1) by (unfold pure; rewrite P1; reflexivity). cbn [bind fst snd]. auto. }
  rewrite P2, (then_ok (pure (py_index li i)) _ s1 r s1) by (unfold pure; rewrite P1; reflexivity). cbn [bind].
  change (Z.to_nat (if (i <? 0)%Z then (i + Z.of_nat (List.length (map cleared (t_vin t))))%Z else i)) with (pos (List.length (map cleared (t_vin t))) i).
  rewrite <- (Forall2_len _ _ _ F1') in *.
  destruct (set_nth_spec n li _ _ s1 r y sc' F1' ltac:(apply W) N1 N2) as (s2 & E2 & L2 & O2 & F2).
  rewrite (then_ok _ _ _ _ _ E2).
  assert (Hr : forall q, In q [r] -> In q li) by (intros q [<-|[]]; eapply nth_error_In; exact N1).
  destruct (work_inputs _ _ _ _ _ _ _ _ _ _ _ W1 Hr O2 F2) as [W2 B2].
  cbn [t_vin t_vout t_nLockTime t_nVersion t1] in W2. set (vin2 := set_nth_script _ _ _) in *.
  assert (B02 : same_below n s s2) by (eapply same_below_trans; eauto).
  assert (A0 : same_below n s2 (s2 ++ [Cell Mut (OSeq []) None None])).
  { intros q Lq. apply nth_error_app1. pose proof (work_len _ _ _ _ _ _ _ _ W2). lia. }
  set (s3 := s2 ++ [Cell Mut (OSeq []) None None]) in *. assert (X3 : ext s2 s3) by apply ext_app.
  assert (V : vi <> List.length s2) by (destruct W2 as (_ & C & _); apply some_below in C; lia).
  destruct (work_set_vout n s3 x vi vo li lo _ (List.length s2) (work_ext _ _ _ _ _ _ _ _ _ W2 X3) ltac:(apply nth_last) (work_len _ _ _ _ _ _ _ _ W2) V) as (s4 & E4 & W4 & B4 & _).
  cbn [t_vin t_vout t_nLockTime t_nVersion] in W4.
  destruct (_ =? 2)%Z; [|destruct (_ =? 3)%Z].
  - rewrite (then_ok (alloc Mut (OSeq [])) _ s2 (List.length s2) s3 eq_refl), (then_ok _ _ _ _ _ E4).
    erewrite then_ok; [|eapply (work_slot _ _ _ _ _ _ _ _ true); exact W4]. erewrite then_ok; [|eapply work_iter_in; exact W4].
    destruct (zero_spec n i li 0%Z vin2 s4) as (s5 & E5 & _ & O5 & F5 & _); [apply W4|apply W4|].
    rewrite (then_ok _ _ _ _ _ E5).
    destruct (work_inputs _ _ _ _ _ _ _ _ _ _ _ W4 (fun r H => H) O5 F5) as [W5 B5].
    destruct (finish_spec _ _ _ _ _ _ _ _ i h W5) as [R B6]. split; [exact R|].
    eapply same_below_trans; [exact B02|]. eapply same_below_trans; [exact A0|]. eapply same_below_trans; [exact B4|]. eapply same_below_trans; eauto.
  - erewrite then_ok; [|eapply (work_slot _ _ _ _ _ _ _ _ false); exact W2]. erewrite then_ok; [|eapply work_iter_out; exact W2].
    assert (FO : Forall2 (fun r o => output_at s2 r = Ok o) lo (t_vout t)) by apply W2.
    rewrite (Forall2_len _ _ _ FO). destruct (_ <=? _)%Z; [cbn [ret fst snd]; auto|].
    destruct (py_index_Forall2 _ _ _ i FO) as [(ro & o & Q1 & Q2 & Ho & _)|(e & Q1 & Q2)].
    2:{ rewrite Q2, (then_err (pure (py_index lo i)) _ s2 e s2) by (unfold pure; rewrite Q1; reflexivity). auto. }
    rewrite Q2, (then_ok (pure (py_index lo i)) _ s2 ro s2) by (unfold pure; rewrite Q1; reflexivity). cbn [bind].
    rewrite (then_ok (alloc Mut (OSeq [])) _ s2 (List.length s2) s3 eq_refl), (then_ok _ _ _ _ _ E4).
    destruct (work_defaults n (Z.to_nat i) s4 x vi (List.length s2) li [] _ W4 (work_len _ _ _ _ _ _ _ _ W4)) as (s5 & lo5 & E5 & W5 & B5 & K5).
    cbn [t_vin t_vout t_nLockTime t_nVersion app] in W5. rewrite (then_ok _ _ _ _ _ E5).
    assert (Ho5 : output_at s5 ro = Ok o).
    { apply K5. revert Ho. clear - X3 E4 W2. intros Ho. apply (output_at_ext _ _ _ _ X3) in Ho. revert Ho. unfold output_at.
      destruct W2 as (A & _). apply X3 in A. unfold set_attr, andthen, look in E4. rewrite A in E4. cbn [c_cls c_obj with_field c_hash c_pyhash] in E4. unfold put in E4.
      injection E4 as <-. destruct (Nat.eq_dec ro x) as [->|N]; [rewrite A; discriminate|]. rewrite replace_other by exact N. auto. }
    destruct (work_append_out _ _ _ _ _ _ _ _ _ _ W5 Ho5) as (s6 & E6 & W6 & B6 & _). cbn [t_vin t_vout t_nLockTime t_nVersion] in W6.
    rewrite (then_ok _ _ _ _ _ E6).
    erewrite then_ok; [|eapply (work_slot _ _ _ _ _ _ _ _ true); exact W6]. erewrite then_ok; [|eapply work_iter_in; exact W6].
    destruct (zero_spec n i li 0%Z vin2 s6) as (s7 & E7 & _ & O7 & F7 & _); [apply W6|apply W6|].
    rewrite (then_ok _ _ _ _ _ E7).
    destruct (work_inputs _ _ _ _ _ _ _ _ _ _ _ W6 (fun r H => H) O7 F7) as [W7 B7].
    destruct (finish_spec _ _ _ _ _ _ _ _ i h W7) as [R B8]. split; [exact R|].
    eapply same_below_trans; [exact B02|]. eapply same_below_trans; [exact A0|]. eapply same_below_trans; [exact B4|].
    eapply same_below_trans; [exact B5|]. eapply same_below_trans; [exact B6|]. eapply same_below_trans; eauto.
  - destruct (finish_spec _ _ _ _ _ _ _ _ i h W2) as [R B6]. split; [exact R|]. eapply same_below_trans; eauto.
Qed.
Lemma mapM_length_ok {A B} (f : A -> result B) l v : mapM f l = Ok v -> List.length v = List.length l.
Proof.
  revert v. induction l as [|x l IH]; intros v; cbn [mapM]; [intros [= <-]; reflexivity|].
  destruct (f x); cbn [bind]; [|discriminate]. destruct (mapM f l); cbn [bind]; [|discriminate]. intros [= <-]. cbn. auto.
Qed.
Lemma raw_signature_hash_spec sc r i h s :
  (forall t, tx_at s r = Ok t -> fst (raw_signature_hash sc r i h s) = RawSignatureHash sc t i h) /\
  same_below (List.length s) s (snd (raw_signature_hash sc r i h s)).
Proof.
  assert (D : forall t, RawSignatureHash sc t i h = if (Z.of_nat (List.length (t_vin t)) <=? i)%Z then Ok (HASH_ONE, true) else do t <- tx_copy t; vrest sc i h t).
  { intros t. unfold RawSignatureHash, vrest, vfinish. destruct (_ <=? _)%Z; [reflexivity|]. destruct (tx_copy t) as [t'|]; cbn [bind]; [|reflexivity]. reflexivity. }
  change (raw_signature_hash sc r i h) with
   (act v <- slot true r; act l <- iterate v; if (Z.of_nat (List.length l) <=? i)%Z then ret (HASH_ONE, true) else act txtmp <- from_tx Mut r; rest sc txtmp i h).
  assert (SE : slot true r s = match nth_error s r with Some (Cell _ (OTrans vi _ _ _) _ _) => (Ok vi, s) | Some _ => (Err AttributeError, s) | None => (Err NameError, s) end).
  { unfold slot, andthen, look. destruct (nth_error s r) as [[c o h1 h2]|]; [|reflexivity]. destruct o; reflexivity. }
  assert (IE : forall v, iterate v s = match nth_error s v with Some (Cell _ (OSeq l) _ _) => (Ok l, s) | Some _ => (Err TypeError, s) | None => (Err NameError, s) end).
  { intros v. unfold iterate, andthen, look. destruct (nth_error s v) as [[c o h1 h2]|]; [|reflexivity]. destruct o; reflexivity. }
  destruct (nth_error s r) as [[c o h1 h2]|] eqn:E.
  2:{ rewrite (then_err _ _ _ _ _ SE). unfold tx_at. rewrite E. split; [discriminate|apply same_below_refl]. }
  destruct o as [| | |vin vout lock ver|]; cbn [fst snd];
    try (rewrite (then_err _ _ _ _ _ SE); unfold tx_at; rewrite E; split; [discriminate|apply same_below_refl]).
  rewrite (then_ok _ _ _ _ _ SE). specialize (IE vin).
  assert (T : forall t, tx_at s r = Ok t -> exists li, seq_at s vin = Ok li /\ List.length (t_vin t) = List.length li).
  { intros t. unfold tx_at. rewrite E. destruct (seq_at s vin) as [li|]; cbn [bind]; [|discriminate].
    destruct (mapM (input_at s) li) eqn:A; cbn [bind]; [|discriminate].
    destruct (seq_at s vout) as [lo|]; cbn [bind]; [|discriminate].
    destruct (mapM (output_at s) lo) eqn:B; cbn [bind]; [|discriminate]. intros [= <-]. cbn. apply mapM_length_ok in A. eauto. }
  unfold seq_at in T. destruct (nth_error s vin) as [[c1 o1 h3 h4]|] eqn:E1.
  2:{ rewrite (then_err _ _ _ _ _ IE). split; [|apply same_below_refl]. intros t Ht. destruct (T t Ht) as (? & ? & _). discriminate. }
  destruct o1 as [| | | |li]; cbn [fst snd];
    try (rewrite (then_err _ _ _ _ _ IE); split; [|apply same_below_refl]; intros t Ht; destruct (T t Ht) as (? & ? & _); discriminate).
  rewrite (then_ok _ _ _ _ _ IE).
  assert (T' : forall t, tx_at s r = Ok t -> List.length (t_vin t) = List.length li).
  { intros t Ht. destruct (T t Ht) as (l & [= ->] & L). exact L. }
  destruct (_ <=? _)%Z eqn:C.
  { unfold ret. cbn [fst snd]. split; [|apply same_below_refl]. intros t Ht. rewrite D, (T' t Ht), C. reflexivity. }
  pose proof (from_tx_mut s r) as F. unfold andthen. destruct (from_tx Mut r s) as [[x|e] s1] eqn:FT.
  - destruct F as (vi & vo & li' & lo & t' & Cp & Hc). apply copy_work in Cp.
    destruct (rest_spec _ _ _ _ _ _ _ _ sc i h Cp) as [R B]. split.
    + intros t Ht. rewrite D, (T' t Ht), C, (Hc t Ht). cbn [bind]. exact R.
    + eapply same_below_trans; [|exact B]. destruct (appends_from_tx Mut r s) as [l El]. rewrite FT in El. cbn [snd] in El. subst s1.
      intros q Lq. apply nth_error_app1. exact Lq.
  - cbn [fst snd]. split.
    + intros t Ht. rewrite D, (T' t Ht), C, (F t Ht). reflexivity.
    + destruct (appends_from_tx Mut r s) as [l El]. rewrite FT in El. cbn [snd] in El. subst s1.
      intros q Lq. apply nth_error_app1. exact Lq.
Qed.
