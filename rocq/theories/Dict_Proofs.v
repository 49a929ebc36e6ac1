(** Proofs about dictionaries of objects. *)
From Verif Require Import Base PySlice Sha256 Tx_Model Script_Model Block_Model SigHash_Model Money_Model TxObj_Model TxObj_Spec TxObj_Proofs TxObjSig_Proofs TxObjUse_Proofs
  Dict_Model Dict_Spec.

Lemma ceqb_spec a b : reflect (a = b) (ceqb a b).
Proof.
  destruct a as [n x], b as [m y]. unfold ceqb. cbn [fst snd]. apply iff_reflect. split.
  - intros [= -> ->]. rewrite N.eqb_refl. apply bytes_eqb_eq. reflexivity.
  - intros H. apply andb_true_iff in H. destruct H as (H1 & H2). apply N.eqb_eq in H1. apply bytes_eqb_eq in H2. congruence.
Qed.

(** ** Places in lists *)
Fixpoint place (c : N * bytes) (cs : list (N * bytes)) : option nat :=
  match cs with [] => None | c' :: cs' => if ceqb c' c then Some O else option_map S (place c cs') end.
Lemma place_some c cs i : place c cs = Some i -> nth_error cs i = Some c.
Proof.
  revert i. induction cs as [|c' cs IH]; intros i; cbn [place]; [discriminate|]. destruct (ceqb_spec c' c) as [->|N]; [intros [= <-]; reflexivity|].
  destruct (place c cs) as [j|]; [|discriminate]. intros [= <-]. cbn. apply IH. reflexivity.
Qed.
Lemma place_none c cs : place c cs = None -> ~ In c cs.
Proof.
  induction cs as [|c' cs IH]; cbn [place]; [auto|]. destruct (ceqb_spec c' c) as [->|N]; [discriminate|]. destruct (place c cs); [discriminate|].
  intros _ [E|H]; [congruence|]. exact (IH eq_refl H).
Qed.
(** The map of two lists. *)
Fixpoint table {V} (cs : list (N * bytes)) (vs : list V) (c : N * bytes) : option V :=
  match cs, vs with c' :: cs', v :: vs' => if ceqb c' c then Some v else table cs' vs' c | _, _ => None end.
Lemma table_place {V} c cs : forall vs : list V, List.length cs = List.length vs -> table cs vs c = match place c cs with Some i => nth_error vs i | None => None end.
Proof.
  induction cs as [|c' cs IH]; intros [|v vs] L; cbn [table place] in *; try discriminate; [reflexivity|]. destruct (ceqb c' c); [reflexivity|].
  rewrite IH by (cbn in L; lia). destruct (place c cs); reflexivity.
Qed.
Lemma table_none {V} c cs : forall vs : list V, ~ In c cs -> table cs vs c = None.
Proof.
  induction cs as [|c' cs IH]; intros [|v vs] H; cbn [table]; try reflexivity. destruct (ceqb_spec c' c) as [->|N]; [exfalso; apply H; left; reflexivity|]. apply IH. intros X. apply H. right. exact X.
Qed.
Lemma table_app {V} c v cs : forall vs : list V, List.length cs = List.length vs -> ~ In c cs -> forall c', table (cs ++ [c]) (vs ++ [v]) c' = assign (table cs vs) c (Some v) c'.
Proof.
  unfold assign. induction cs as [|c1 cs IH]; intros [|v1 vs] L H c'; cbn [table app] in *; try discriminate; [reflexivity|].
  destruct (ceqb_spec c1 c') as [->|N].
  - destruct (ceqb_spec c c') as [->|N']; [exfalso; apply H; left; reflexivity|reflexivity].
  - apply IH; [cbn in L; lia|]. intros X. apply H. right. exact X.
Qed.
Fixpoint put_at {V} (i : nat) (v : V) (l : list V) : list V :=
  match l, i with [], _ => [] | _ :: l', O => v :: l' | e :: l', S i' => e :: put_at i' v l' end.
Lemma put_at_length {V} v : forall (l : list V) i, List.length (put_at i v l) = List.length l.
Proof. induction l as [|x l IH]; intros [|i]; cbn; auto. Qed.
Lemma table_put {V} c v cs : forall (vs : list V) i, List.length cs = List.length vs -> place c cs = Some i -> forall c', table cs (put_at i v vs) c' = assign (table cs vs) c (Some v) c'.
Proof.
  unfold assign. induction cs as [|c1 cs IH]; intros [|v1 vs] i L H c'; cbn [table place] in *; try discriminate.
  destruct (ceqb_spec c1 c) as [->|N].
  - injection H as <-. cbn [put_at table]. destruct (ceqb c c'); reflexivity.
  - destruct (place c cs) as [j|] eqn:P; [|discriminate]. injection H as <-. cbn [put_at table]. destruct (ceqb_spec c1 c') as [->|N'].
    + destruct (ceqb_spec c c') as [->|]; [congruence|reflexivity].
    + apply IH; [cbn in L; lia|reflexivity].
Qed.
Lemma drop_length {A B} (f : A -> B) : forall (l : list A) i, map f (drop_at i l) = drop_at i (map f l).
Proof. induction l as [|x l IH]; intros [|i]; cbn; congruence. Qed.
Lemma drop_in {A} (x : A) : forall l i, In x (drop_at i l) -> In x l.
Proof. induction l as [|y l IH]; intros [|i]; cbn; auto. intros [E|H]; [auto|right; eauto]. Qed.
Lemma drop_nodup {A} : forall (l : list A) i, NoDup l -> NoDup (drop_at i l).
Proof.
  induction l as [|y l IH]; intros [|i] N; cbn; auto; inversion N as [|? ? Hy Nl]; subst; [exact Nl|]. constructor; [|apply IH, Nl]. intros X. apply Hy. eapply drop_in, X.
Qed.
Lemma drop_same_length {A B} : forall (l : list A) (l' : list B) i, List.length l = List.length l' -> List.length (drop_at i l) = List.length (drop_at i l').
Proof. induction l as [|x l IH]; intros [|y l'] [|i] L; cbn in *; try discriminate; auto. Qed.
Lemma table_drop {V} c cs : forall (vs : list V) i, NoDup cs -> List.length cs = List.length vs -> place c cs = Some i -> forall c', table (drop_at i cs) (drop_at i vs) c' = assign (table cs vs) c None c'.
Proof.
  unfold assign. induction cs as [|c1 cs IH]; intros [|v1 vs] i N L H c'; cbn [table place] in *; try discriminate. inversion N as [|? ? H1 N']; subst.
  destruct (ceqb_spec c1 c) as [->|Nc].
  - injection H as <-. cbn [drop_at]. destruct (ceqb_spec c c') as [->|]; [apply table_none, H1|reflexivity].
  - destruct (place c cs) as [j|] eqn:P; [|discriminate]. injection H as <-. cbn [drop_at table]. destruct (ceqb_spec c1 c') as [->|Nc'].
    + destruct (ceqb_spec c c') as [->|]; [congruence|reflexivity].
    + apply IH; [exact N'|cbn in L; lia|reflexivity].
Qed.

Lemma NoDup_app_single {A} (l : list A) x : NoDup l -> ~ In x l -> NoDup (l ++ [x]).
Proof.
  induction l as [|y l IH]; cbn [app]; intros N H; [constructor; [intros []|constructor]|]. inversion N as [|? ? Hy Nl]; subst.
  constructor; [|apply IH; [exact Nl|intros X; apply H; right; exact X]]. rewrite in_app_iff. intros [X|[->|[]]]; [exact (Hy X)|apply H; left; reflexivity].
Qed.

(** ** Keys *)
Section H.
Context (pyhash : bytes -> Z) {V : Type}.

Lemma content_inv s k c : content s k = Ok c -> exists x, nth_error s k = Some x /\ fst c = kind (c_obj x) /\ serialize s k = Ok (snd c) /\ kind (c_obj x) <> 0%N.
Proof.
  unfold content. destruct (nth_error s k) as [x|] eqn:E; [|discriminate]. destruct (serialize s k) as [b|] eqn:S; [|discriminate]. cbn [bind]. intros [= <-].
  exists x. cbn [fst snd]. repeat split. unfold serialize in S. rewrite E in S. destruct x as [? [| | | |] ? ?]; cbn in *; try discriminate.
Qed.
Lemma equal_content s a b ca cb : content s a = Ok ca -> content s b = Ok cb -> equal a b s = (Ok (ceqb ca cb), s).
Proof.
  intros A B. destruct (content_inv _ _ _ A) as (x & Ex & Fx & Sx & Nx), (content_inv _ _ _ B) as (y & Ey & Fy & Sy & Ny).
  unfold equal, andthen, look. rewrite Ex, Ey. change (family (c_obj x)) with (kind (c_obj x)). change (family (c_obj y)) with (kind (c_obj y)).
  apply N.eqb_neq in Nx, Ny. rewrite Nx, Ny. cbn [orb]. unfold ceqb. rewrite Fx, Fy. destruct (kind (c_obj x) =? kind (c_obj y))%N; cbn [negb andb]; [|reflexivity].
  unfold serialize_, ret. destruct (c_cls x), (c_cls y); rewrite ?Sx, ?Sy; try reflexivity. f_equal. f_equal.
  apply eq_true_iff_eq. rewrite !bytes_eqb_eq. split; congruence.
Qed.
Lemma content_kept s s' k : agree s s' k -> content s' k = content s k.
Proof.
  intros A. destruct (A k (part_self s k)) as (c & c' & E & E' & _ & O). destruct (agree_looks _ _ _ A) as [S _]. unfold content. rewrite E, E', S, O. reflexivity.
Qed.

(** The entries of the dictionary have these contents, all different. *)
Definition entry (s : store) (e : Z * ref * V) (c : N * bytes) : Prop :=
  throughout Imm s (snd (fst e)) /\ content s (snd (fst e)) = Ok c /\ fst (fst e) = pyhash (snd c).
Lemma locate_place s k c d cs : Forall2 (entry s) d cs -> content s k = Ok c -> locate (pyhash (snd c)) k d s = (Ok (place c cs), s).
Proof.
  intros F K. induction F as [|[[h' k'] v] c' d cs (T & C & Hh) F IH]; cbn [locate place]; [reflexivity|]. cbn [fst snd] in *. subst h'.
  destruct (pyhash (snd c') =? pyhash (snd c))%Z eqn:P.
  - unfold same. destruct (k' =? k)%nat eqn:Ek.
    + apply Nat.eqb_eq in Ek. subst k'. assert (c' = c) as -> by congruence. destruct (ceqb_spec c c); [reflexivity|congruence].
    + unfold andthen at 1. rewrite (equal_content s k' k c' c C K). destruct (ceqb c' c); [reflexivity|]. unfold andthen. rewrite IH. reflexivity.
  - destruct (ceqb_spec c' c) as [->|N]; [rewrite Z.eqb_refl in P; discriminate|]. unfold andthen. rewrite IH. reflexivity.
Qed.
Lemma entry_step s o e c : entry s e c -> entry (snd (step pyhash o s)) e c.
Proof.
  intros (T & C & H). pose proof (kept_frozen _ _ _ _ (kept_step pyhash o s) T) as A. split; [eapply agree_throughout; eauto|]. split; [|exact H].
  rewrite (content_kept _ _ _ A). exact C.
Qed.

Lemma ask_store s k : (k < List.length s)%nat -> snd (step pyhash (AskPyHash k) s) = snd (hash_of pyhash k s).
Proof. intros L. unfold step. cbn [named forallb act_on]. apply Nat.ltb_lt in L. rewrite L. cbn [andb]. apply snd_giving. Qed.
Lemma hash_agree s k : (k < List.length s)%nat -> closed s -> agree s (snd (hash_of pyhash k s)) k.
Proof.
  intros L C. rewrite <- ask_store by exact L. eapply kept_alone; [apply kept_step|exact C|exact L|]. intros y _ [].
Qed.

Lemma hash_and_locate_spec s k d cs : reached pyhash s -> sound s k -> Forall2 (entry s) d cs ->
  hash_and_locate pyhash k d s = (do c <- content s k; Ok (pyhash (snd c), place c cs), snd (step pyhash (AskPyHash k) s)).
Proof.
  intros R So F. assert (L : (k < List.length s)%nat).
  { destruct So as [T|(x & E & _)]; [destruct (T k (part_self s k)) as (x & E & _)|]; eapply some_below; eauto. }
  destruct (reached_closed pyhash s R) as [C _]. pose proof (hash_of_sound pyhash s k R So) as Hh. pose proof (hash_agree s k L C) as A.
  rewrite (ask_store s k L). unfold hash_and_locate, andthen. destruct (hash_of pyhash k s) as [r s'] eqn:E. cbn [fst snd] in *. subst r.
  assert (X : content s k = do b <- serialize s k; Ok (match nth_error s k with Some x => kind (c_obj x) | None => 0%N end, b)).
  { unfold content. destruct (nth_error s k) eqn:Ek; [reflexivity|]. apply nth_error_None in Ek. lia. }
  destruct (serialize s k) as [b|e] eqn:Sb; cbn [bind] in *; rewrite X; cbn [bind]; [|reflexivity].
  set (c := (_, b)) in *. assert (F' : Forall2 (entry s') d cs).
  { assert (s' = snd (step pyhash (AskPyHash k) s)) as -> by (rewrite ask_store, E by exact L; reflexivity).
    clear - F. induction F; constructor; auto. apply entry_step. assumption. }
  change b with (snd c) at 1. rewrite (locate_place s' k c d cs F'); [reflexivity|]. rewrite (content_kept _ _ _ A). exact X.
Qed.

Definition represents (s : store) (d : dict V) (m : cmap V) : Prop :=
  exists cs, Forall2 (entry s) d cs /\ NoDup cs /\ forall c, m c = table cs (map snd d) c.
Lemma Forall2_len {A B} (P : A -> B -> Prop) l l' : Forall2 P l l' -> List.length l = List.length l'.
Proof. induction 1; cbn; congruence. Qed.
Lemma set_at_snd i v : forall d : dict V, map snd (set_at i v d) = put_at i v (map snd d).
Proof. intros d. revert i. induction d as [|[[h k] w] d IH]; intros [|i]; cbn; try reflexivity. rewrite IH. reflexivity. Qed.
Lemma set_at_entries s i v : forall (d : dict V) cs, Forall2 (entry s) d cs -> Forall2 (entry s) (set_at i v d) cs.
Proof.
  intros d cs F. revert i. induction F as [|[[h k] w] c d cs E F IH]; intros [|i]; cbn [set_at]; constructor; auto.
Qed.
Lemma drop_entries s : forall (d : dict V) cs i, Forall2 (entry s) d cs -> Forall2 (entry s) (drop_at i d) (drop_at i cs).
Proof. intros d cs i F. revert i. induction F; intros [|i]; cbn [drop_at]; auto. Qed.

Lemma expected_ext (l : list (dop V)) : forall m m' s, (forall c, m c = m' c) -> expected pyhash l m s = expected pyhash l m' s.
Proof.
  induction l as [|[k v|k|k|o] l IH]; intros m m' s H; cbn [expected]; [reflexivity| | | |]; f_equal.
  - apply IH. intros c'. destruct (content s k); [|apply H]. unfold assign. destruct ceqb; [reflexivity|apply H].
  - destruct (content s k); cbn [bind]; [rewrite H|]; reflexivity.
  - apply IH, H.
  - destruct (content s k); cbn [bind]; [rewrite H|]; reflexivity.
  - apply IH. intros c'. destruct (content s k); [|apply H]. unfold assign. destruct ceqb; [reflexivity|apply H].
  - apply IH, H.
Qed.

Lemma sound_below s k : sound s k -> (k <? List.length s)%nat = true.
Proof.
  intros So. apply Nat.ltb_lt. destruct So as [T|(x & E & _)]; [destruct (T k (part_self s k)) as (x & E & _)|]; eapply some_below; eauto.
Qed.

Lemma dictionary_ok (prog : list (dop V)) : forall d m s, reached pyhash s -> represents s d m -> good_keys pyhash prog s ->
  fst (drun pyhash prog d s) = expected pyhash prog m s.
Proof.
  induction prog as [|o prog IH]; intros d m s R (cs & F & N & T) G; [reflexivity|].
  assert (R' : forall o', reached pyhash (snd (step pyhash o' s))).
  { intros o'. pose proof (reached_run pyhash s [o'] R) as X. rewrite run_cons in X. exact X. }
  assert (Fs : forall o', Forall2 (entry (snd (step pyhash o' s))) d cs).
  { intros o'. clear - F. induction F; constructor; auto. apply entry_step. assumption. }
  assert (Lv : List.length cs = List.length (map snd d)) by (rewrite map_length; symmetry; eapply Forall2_len, F).
  cbn [drun]. destruct o as [k v|k|k|o]; cbn [good_keys expected] in *.
  - destruct G as [Tk G]. assert (So : sound s k) by (left; exact Tk).
    unfold dstep. rewrite (sound_below s k So), (hash_and_locate_spec s k d cs R So F). set (s1 := snd (step pyhash (AskPyHash k) s)) in *.
    destruct (content s k) as [c|e] eqn:Ec; cbn [bind].
    + pose proof (T c) as Tc. rewrite (table_place c cs _ Lv) in Tc. destruct (place c cs) as [i|] eqn:Pc.
      * specialize (IH (set_at i v d) (assign m c (Some v)) s1 (R' _)). destruct (drun pyhash prog (set_at i v d) s1) as [vs x]. cbn [fst] in *. f_equal. apply IH; [|exact G].
        exists cs. split; [apply set_at_entries, Fs|]. split; [exact N|]. intros c'. rewrite set_at_snd, (table_put c v cs _ i Lv Pc). unfold assign. rewrite T. reflexivity.
      * specialize (IH (d ++ [(pyhash (snd c), k, v)]) (assign m c (Some v)) s1 (R' _)). destruct (drun pyhash prog (d ++ _) s1) as [vs x]. cbn [fst] in *. f_equal. apply IH; [|exact G].
        exists (cs ++ [c]). split; [|split].
        -- apply Forall2_app; [apply Fs|]. constructor; [|constructor]. apply entry_step. split; [exact Tk|]. split; [exact Ec|reflexivity].
        -- apply NoDup_app_single; [exact N|apply place_none, Pc].
        -- intros c'. rewrite map_app. cbn [map snd]. rewrite (table_app c v cs _ Lv (place_none _ _ Pc)). unfold assign. rewrite T. reflexivity.
    + specialize (IH d m s1 (R' _)). destruct (drun pyhash prog d s1) as [vs x]. cbn [fst] in *. f_equal. apply IH; [|exact G]. exists cs. split; [first [exact Fo|apply Fs]|auto].
  - destruct G as [So G].
    unfold dstep. rewrite (sound_below s k So), (hash_and_locate_spec s k d cs R So F). set (s1 := snd (step pyhash (AskPyHash k) s)) in *.
    destruct (content s k) as [c|e] eqn:Ec; cbn [bind].
    + pose proof (T c) as Tc. rewrite (table_place c cs _ Lv) in Tc.
      specialize (IH d m s1 (R' _)). destruct (drun pyhash prog d s1) as [vs x]. cbn [fst] in *. f_equal.
      * rewrite Tc. destruct (place c cs) as [i|]; [|reflexivity]. rewrite nth_error_map. destruct (nth_error d i) as [[[h k'] v]|]; reflexivity.
      * apply IH; [|exact G]. exists cs. split; [first [exact Fo|apply Fs]|auto].
    + specialize (IH d m s1 (R' _)). destruct (drun pyhash prog d s1) as [vs x]. cbn [fst] in *. f_equal. apply IH; [|exact G]. exists cs. split; [first [exact Fo|apply Fs]|auto].
  - destruct G as [So G].
    unfold dstep. rewrite (sound_below s k So), (hash_and_locate_spec s k d cs R So F). set (s1 := snd (step pyhash (AskPyHash k) s)) in *.
    destruct (content s k) as [c|e] eqn:Ec; cbn [bind].
    + pose proof (T c) as Tc. rewrite (table_place c cs _ Lv) in Tc. destruct (place c cs) as [i|] eqn:Pc.
      * destruct (nth_error (map snd d) i) as [w|] eqn:Ew; [|apply place_some in Pc; apply nth_error_None in Ew; rewrite <- Lv in Ew; apply nth_error_None in Ew; congruence].
        specialize (IH (drop_at i d) (assign m c None) s1 (R' _)). destruct (drun pyhash prog (drop_at i d) s1) as [vs x]. cbn [fst] in *. rewrite Tc. f_equal. apply IH; [|exact G].
        exists (drop_at i cs). split; [apply drop_entries, Fs|]. split; [apply drop_nodup, N|]. intros c'. rewrite drop_length, (table_drop c cs _ i N Lv Pc). unfold assign. rewrite T. reflexivity.
      * specialize (IH d m s1 (R' _)). destruct (drun pyhash prog d s1) as [vs x]. cbn [fst] in *. rewrite Tc. f_equal. rewrite IH; [|exists cs; split; [apply Fs|auto]|exact G].
        apply expected_ext. intros c'. unfold assign. destruct (ceqb_spec c c') as [<-|]; [exact Tc|reflexivity].
    + specialize (IH d m s1 (R' _)). destruct (drun pyhash prog d s1) as [vs x]. cbn [fst] in *. f_equal. apply IH; [|exact G]. exists cs. split; [first [exact Fo|apply Fs]|auto].
  - unfold dstep. pose proof (R' o) as Ro. pose proof (Fs o) as Fo. destruct (step pyhash o s) as [r s1]. cbn [fst snd] in *. specialize (IH d m s1 Ro).
    destruct (drun pyhash prog d s1) as [vs x]. cbn [fst] in *. f_equal. apply IH; [|exact G]. exists cs. split; [first [exact Fo|apply Fs]|auto].
Qed.
Lemma dictionary_start (prog : list (dop V)) s : reached pyhash s -> good_keys pyhash prog s -> fst (drun pyhash prog [] s) = expected pyhash prog no_entries s.
Proof. intros R G. apply dictionary_ok; [exact R| |exact G]. exists []. split; [constructor|]. split; [constructor|]. reflexivity. Qed.
End H.
