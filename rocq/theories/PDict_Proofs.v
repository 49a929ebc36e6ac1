(** Proofs about dictionaries of proofs. *)
From Verif Require Import Base Sha256 Serialize_Model Tx_Model Proof_Model Proof_Spec Cache_Model Construct_Proofs
  Proof_Proofs ProofHash_Proofs ProofView_Proofs Heap_Model Heap_Spec Heap_Inv Heap_Step Heap_Make Heap_Ser Heap_Run PDict_Model PDict_Spec.
From Coq Require Import ZifyBool ZifyNat ZifyN.

(** ** Places in lists *)
Lemma beq_refl b : bytes_eqb b b = true. Proof. apply bytes_eqb_eq. reflexivity. Qed.
Fixpoint hplace (h : bytes) (ks : list bytes) : option nat :=
  match ks with [] => None | k :: ks' => if bytes_eqb k h then Some O else option_map S (hplace h ks') end.
Lemma hplace_none h ks : hplace h ks = None -> ~ In h ks.
Proof.
  induction ks as [|k ks IH]; cbn [hplace]; [auto|]. destruct (bytes_eqb k h) eqn:E; [discriminate|]. destruct (hplace h ks); [discriminate|].
  intros _ [->|H]; [rewrite beq_refl in E; discriminate|]. exact (IH eq_refl H).
Qed.
Lemma hplace_lt h ks i : hplace h ks = Some i -> i < List.length ks.
Proof.
  revert i. induction ks as [|k ks IH]; intros i; cbn [hplace]; [discriminate|]. destruct (bytes_eqb k h); [intros [= <-]; cbn; lia|].
  destruct (hplace h ks) as [j|]; [|discriminate]. intros [= <-]. cbn. specialize (IH j eq_refl). lia.
Qed.
Fixpoint htable {V} (ks : list bytes) (d : pdict V) (h : bytes) : option V :=
  match ks, d with k :: ks', (_, _, v) :: d' => if bytes_eqb k h then Some v else htable ks' d' h | _, _ => None end.
Lemma htable_place {V} h ks : forall d : pdict V, List.length ks = List.length d ->
  htable ks d h = match hplace h ks with Some i => match nth_error d i with Some (_, _, v) => Some v | None => None end | None => None end.
Proof.
  induction ks as [|k ks IH]; intros [|[[z r] v] d] L; cbn [htable hplace] in *; try discriminate; [reflexivity|]. destruct (bytes_eqb k h); [reflexivity|].
  rewrite IH by (cbn in L; lia). destruct (hplace h ks); reflexivity.
Qed.
Lemma htable_none {V} h ks : forall d : pdict V, ~ In h ks -> htable ks d h = None.
Proof.
  induction ks as [|k ks IH]; intros [|[[z r] v] d] H; cbn [htable]; try reflexivity. destruct (bytes_eqb k h) eqn:E; [apply bytes_eqb_eq in E; subst; exfalso; apply H; left; reflexivity|].
  apply IH. intros X. apply H. right. exact X.
Qed.
Lemma htable_app {V} h z r (v : V) ks : forall d, List.length ks = List.length d -> ~ In h ks -> forall h', htable (ks ++ [h]) (d ++ [(z, r, v)]) h' = assigned (htable ks d) h (Some v) h'.
Proof.
  unfold assigned. induction ks as [|k ks IH]; intros [|[[z1 r1] v1] d] L H h'; cbn [htable app] in *; try discriminate; [reflexivity|].
  destruct (bytes_eqb k h') eqn:E.
  - destruct (bytes_eqb h h') eqn:E'; [|reflexivity]. apply bytes_eqb_eq in E, E'. subst. exfalso. apply H. left. reflexivity.
  - apply IH; [cbn in L; lia|]. intros X. apply H. right. exact X.
Qed.
Lemma htable_set {V} h (v : V) ks : forall d i, List.length ks = List.length d -> hplace h ks = Some i -> forall h', htable ks (pset_at i v d) h' = assigned (htable ks d) h (Some v) h'.
Proof.
  unfold assigned. induction ks as [|k ks IH]; intros [|[[z1 r1] v1] d] i L H h'; cbn [htable hplace] in *; try discriminate.
  destruct (bytes_eqb k h) eqn:E.
  - apply bytes_eqb_eq in E. subst k. injection H as <-. cbn [pset_at htable]. destruct (bytes_eqb h h'); reflexivity.
  - destruct (hplace h ks) as [j|] eqn:P; [|discriminate]. injection H as <-. cbn [pset_at htable]. destruct (bytes_eqb k h') eqn:E'.
    + destruct (bytes_eqb h h') eqn:E2; [|reflexivity]. apply bytes_eqb_eq in E', E2. subst. rewrite beq_refl in E. discriminate.
    + apply IH; [cbn in L; lia|reflexivity].
Qed.
Fixpoint bdrop (i : nat) (ks : list bytes) : list bytes :=
  match ks, i with [], _ => [] | _ :: ks', O => ks' | k :: ks', S i' => k :: bdrop i' ks' end.
Lemma bdrop_in x : forall ks i, In x (bdrop i ks) -> In x ks.
Proof. induction ks as [|y l IH]; intros [|i]; cbn; auto. intros [E|H]; [auto|right; eauto]. Qed.
Lemma bdrop_nodup : forall ks i, NoDup ks -> NoDup (bdrop i ks).
Proof.
  induction ks as [|y l IH]; intros [|i] N; cbn; auto; inversion N as [|? ? Hy Nl]; subst; [exact Nl|]. constructor; [|apply IH, Nl]. intros X. apply Hy. eapply bdrop_in, X.
Qed.
Lemma htable_drop {V} h ks : forall (d : pdict V) i, NoDup ks -> List.length ks = List.length d -> hplace h ks = Some i -> forall h', htable (bdrop i ks) (pdrop_at i d) h' = assigned (htable ks d) h None h'.
Proof.
  unfold assigned. induction ks as [|k ks IH]; intros [|[[z1 r1] v1] d] i N L H h'; cbn [htable hplace] in *; try discriminate. inversion N as [|? ? H1 N']; subst.
  destruct (bytes_eqb k h) eqn:E.
  - apply bytes_eqb_eq in E. subst k. injection H as <-. cbn [bdrop pdrop_at]. destruct (bytes_eqb h h') eqn:E'; [|reflexivity]. apply bytes_eqb_eq in E'. subst h'. apply htable_none, H1.
  - destruct (hplace h ks) as [j|] eqn:P; [|discriminate]. injection H as <-. cbn [bdrop pdrop_at htable]. destruct (bytes_eqb k h') eqn:E'.
    + destruct (bytes_eqb h h') eqn:E2; [|reflexivity]. apply bytes_eqb_eq in E', E2. subst. rewrite beq_refl in E. discriminate.
    + apply IH; [exact N'|cbn in L; lia|reflexivity].
Qed.
Lemma snoc_nodup {A} (l : list A) x : NoDup l -> ~ In x l -> NoDup (l ++ [x]).
Proof.
  induction l as [|y l IH]; cbn [app]; intros N H; [constructor; [intros []|constructor]|]. inversion N as [|? ? Hy Nl]; subst.
  constructor; [|apply IH; [exact Nl|intros X; apply H; right; exact X]]. rewrite in_app_iff. intros [X|[->|[]]]; [exact (Hy X)|apply H; left; reflexivity].
Qed.

(** ** Keys *)
Section P.
Context (ct : ctable) (made : cid -> Prop) (PT : program_table ct made) (pyhash : bytes -> Z) {V : Type}.
Notation sound := (Heap_Inv.sound ct made).
Notation stepped := (Heap_Run.stepped ct made).

Lemma hash_attr_ok s r v : sound s -> content (s_heap s) (HRef r) v -> exists s', hash_attr ct r s = (phash ct v, s') /\ stepped s s'.
Proof.
  intros S C. unfold hash_attr. destruct (hhash ct (2 * r + 2) true r s) as [rd s1] eqn:Eh.
  destruct (hhash_ok ct made PT _ _ _ _ true _ _ S C (Nat.le_refl _) Eh) as ((S1 & F1 & _) & Hr). cbn iota in Hr. subst rd. exists s1. split; [reflexivity|]. split; assumption.
Qed.
Lemma content_later s s' r v : stepped s s' -> content (s_heap s) (HRef r) v -> content (s_heap s') (HRef r) v.
Proof. intros (_ & G & _) C. eapply content_grow; eassumption. Qed.
Lemma stepped_trans a b c : stepped a b -> stepped b c -> stepped a c.
Proof. intros (_ & F) (S & F'). split; [exact S|eapply follows_trans; eassumption]. Qed.

(** The entries of the dictionary have these hashes. *)
Definition pentry (s : state) (x : Z * ref * V) (k : bytes) : Prop :=
  exists v, content (s_heap s) (HRef (snd (fst x))) v /\ phash ct v = Ok k /\ fst (fst x) = pyhash k.
Lemma pentries_later s s' d ks : stepped s s' -> Forall2 (pentry s) d ks -> Forall2 (pentry s') d ks.
Proof. intros St F. eapply forall2_weaken; [|exact F]. intros x k (v & C & H). exists v. split; [eapply content_later; eassumption|exact H]. Qed.

Lemma plocate_ok r v h : phash ct v = Ok h -> forall d ks s, sound s -> content (s_heap s) (HRef r) v -> Forall2 (pentry s) d ks ->
  exists s', plocate ct (pyhash h) r d s = (Ok (hplace h ks), s') /\ stepped s s'.
Proof.
  intros Hh. induction d as [|[[z r'] w] d IH]; intros ks s S C F; inversion F as [|? k ? ks' (v' & C' & Hk & Hz) F']; subst; cbn [plocate hplace].
  { exists s. split; [reflexivity|]. split; [exact S|apply follows_refl]. }
  cbn [fst snd] in *. subst z.
  assert (B : exists s1, (if (pyhash k =? pyhash h)%Z then psame ct r' r else ret false) s = (Ok (bytes_eqb k h), s1) /\ stepped s s1).
  { destruct (pyhash k =? pyhash h)%Z eqn:E.
    - unfold psame. destruct (r' =? r) eqn:Er.
      + apply Nat.eqb_eq in Er. subst r'. exists s. assert (v' = v) as -> by (eapply content_fun; eassumption). assert (k = h) as -> by congruence. rewrite beq_refl. split; [reflexivity|]. split; [exact S|apply follows_refl].
      + destruct (hash_attr_ok s r' v' S C') as (s1 & E1 & St1). destruct (hash_attr_ok s1 r v (proj1 St1) (content_later _ _ _ _ St1 C)) as (s2 & E2 & St2).
        exists s2. unfold mbind. rewrite E1, Hk, E2, Hh. split; [reflexivity|]. eapply stepped_trans; eassumption.
    - exists s. assert (bytes_eqb k h = false) as ->. { destruct (bytes_eqb k h) eqn:X; [|reflexivity]. apply bytes_eqb_eq in X. subst. rewrite Z.eqb_refl in E. discriminate. }
      split; [reflexivity|]. split; [exact S|apply follows_refl]. }
  destruct B as (s1 & Eb & St1). unfold mbind at 1. rewrite Eb. destruct (bytes_eqb k h); [exists s1; split; [reflexivity|exact St1]|].
  destruct (IH ks' s1 (proj1 St1) (content_later _ _ _ _ St1 C) (pentries_later _ _ _ _ St1 F')) as (s2 & El & St2).
  exists s2. unfold mbind. rewrite El. split; [reflexivity|]. eapply stepped_trans; eassumption.
Qed.
Lemma find_key_ok s e ve i d ks : sound s -> hands (s_heap s) e ve -> Forall2 (pentry s) d ks ->
  exists s', stepped s s' /\
    match key_of ct ve i with
    | Ok h => exists r, find_key ct pyhash e i d s = (Ok (pyhash h, r, hplace h ks), s') /\ exists v, content (s_heap s) (HRef r) v /\ phash ct v = Ok h
    | Err x => find_key ct pyhash e i d s = (Err x, s')
    end.
Proof.
  intros S H F. unfold find_key, key_of. pose proof (hands_handle _ _ _ i H) as Hv. unfold lift, mbind at 1. destruct (handle e i) as [r|x].
  - destruct Hv as (v & -> & C). cbn [bind]. destruct (hash_attr_ok s r v S C) as (s1 & E1 & St1). unfold mbind, py_hash, mbind. rewrite E1. destruct (phash ct v) as [h|x] eqn:Hh.
    + destruct (plocate_ok r v h Hh d ks s1 (proj1 St1) (content_later _ _ _ _ St1 C) (pentries_later _ _ _ _ St1 F)) as (s2 & E2 & St2).
      exists s2. split; [eapply stepped_trans; eassumption|]. exists r. cbn [ret]. unfold ret. rewrite E2. split; [reflexivity|]. eauto.
    + exists s1. split; [exact St1|reflexivity].
  - destruct Hv as (-> & ->). exists s. split; [split; [exact S|apply follows_refl]|reflexivity].
Qed.

Definition prepresents (s : state) (d : pdict V) (m : hmap V) : Prop :=
  exists ks, Forall2 (pentry s) d ks /\ NoDup ks /\ forall h, m h = htable ks d h.
Lemma pset_entries s i v : forall (d : pdict V) ks, Forall2 (pentry s) d ks -> Forall2 (pentry s) (pset_at i v d) ks.
Proof. intros d ks F. revert i. induction F as [|[[z r] w] k d ks E F IH]; intros [|i]; cbn [pset_at]; constructor; auto. Qed.
Lemma pdrop_entries s : forall (d : pdict V) ks i, Forall2 (pentry s) d ks -> Forall2 (pentry s) (pdrop_at i d) (bdrop i ks).
Proof. intros d ks i F. revert i. induction F; intros [|i]; cbn [pdrop_at bdrop]; auto. Qed.
Lemma flen {A B} (P : A -> B -> Prop) l l' : Forall2 P l l' -> List.length l' = List.length l.
Proof. induction 1; cbn; congruence. Qed.

Lemma pdictionary_ok (prog : list (pop V)) : forall d m s e ve, sound s -> hands (s_heap s) e ve -> prepresents s d m -> Forall (pinstantiates ct made) prog ->
  same_pouts prog (prun ct pyhash prog d s e) (pexpected ct prog m ve).
Proof.
  induction prog as [|o prog IH]; intros d m s e ve S H (ks & F & N & T) I; [exact Logic.I|]. inversion I as [|? ? Io Ip]; subst. pose proof (flen _ _ _ F) as L.
  assert (Hn : forall s', stepped s s' -> hands (s_heap s') (e ++ [None]) (ve ++ [None])).
  { intros s' St. apply hands_snoc; [|exact Logic.I]. destruct St as (_ & G & _). eapply hands_grow; eassumption. }
  cbn [prun]. destruct o as [i v|i|i|c]; cbn [pexpected]; unfold pstep.
  - destruct (find_key_ok s e ve i d ks S H F) as (s' & St & K). destruct (key_of ct ve i) as [h|x].
    + destruct K as (r & -> & w & C & Hw). cbn [same_pouts]. split; [reflexivity|].
      apply IH; [apply St|apply Hn, St| |exact Ip]. destruct (hplace h ks) as [n|] eqn:P.
      * exists ks. split; [apply pset_entries; eapply pentries_later; eassumption|]. split; [exact N|]. intros h'. rewrite (htable_set h v ks d n L P). unfold assigned. rewrite T. reflexivity.
      * exists (ks ++ [h]). split; [|split].
        -- apply Forall2_app; [eapply pentries_later; eassumption|]. constructor; [|constructor]. exists w. split; [eapply content_later; eassumption|auto].
        -- apply snoc_nodup; [exact N|apply hplace_none, P].
        -- intros h'. rewrite (htable_app h _ _ v ks d L (hplace_none _ _ P)). unfold assigned. rewrite T. reflexivity.
    + rewrite K. cbn [same_pouts]. split; [reflexivity|]. apply IH; [apply St|apply Hn, St| |exact Ip]. exists ks. split; [eapply pentries_later; eassumption|auto].
  - destruct (find_key_ok s e ve i d ks S H F) as (s' & St & K). destruct (key_of ct ve i) as [h|x].
    + destruct K as (r & -> & _). cbn [same_pouts]. split.
      * rewrite T, (htable_place h ks d L). destruct (hplace h ks) as [n|]; [|reflexivity]. destruct (nth_error d n) as [[[z r'] w]|]; reflexivity.
      * apply IH; [apply St|apply Hn, St| |exact Ip]. exists ks. split; [eapply pentries_later; eassumption|auto].
    + rewrite K. cbn [same_pouts]. split; [reflexivity|]. apply IH; [apply St|apply Hn, St| |exact Ip]. exists ks. split; [eapply pentries_later; eassumption|auto].
  - destruct (find_key_ok s e ve i d ks S H F) as (s' & St & K). destruct (key_of ct ve i) as [h|x].
    + destruct K as (r & -> & _). rewrite T, (htable_place h ks d L). destruct (hplace h ks) as [n|] eqn:P.
      * pose proof (hplace_lt _ _ _ P) as Ln. rewrite L in Ln. apply nth_error_Some in Ln. destruct (nth_error d n) as [[[z r'] w]|]; [|congruence]. cbn [same_pouts]. split; [reflexivity|].
        apply IH; [apply St|apply Hn, St| |exact Ip]. exists (bdrop n ks). split; [apply pdrop_entries; eapply pentries_later; eassumption|]. split; [apply bdrop_nodup, N|].
        intros h'. rewrite (htable_drop h ks d n N L P). unfold assigned. rewrite T. reflexivity.
      * cbn [same_pouts]. split; [reflexivity|]. apply IH; [apply St|apply Hn, St| |exact Ip]. exists ks. split; [eapply pentries_later; eassumption|]. split; [exact N|].
        intros h'. unfold assigned. destruct (bytes_eqb h h') eqn:E; [|apply T]. apply bytes_eqb_eq in E. subst h'. symmetry. apply htable_none, hplace_none, P.
    + rewrite K. cbn [same_pouts]. split; [reflexivity|]. apply IH; [apply St|apply Hn, St| |exact Ip]. exists ks. split; [eapply pentries_later; eassumption|auto].
  - destruct (exec ct s e c) as [[u s1] e1] eqn:Ec. destruct (exec_ok ct made PT _ _ _ _ _ _ _ S H Io Ec) as (St & _ & H1 & O1).
    cbn [same_pouts]. split; [exact O1|]. apply IH; [apply St|exact H1| |exact Ip]. exists ks. split; [eapply pentries_later; eassumption|auto].
Qed.
Lemma pdictionary_start (prog : list (pop V)) : Forall (pinstantiates ct made) prog -> same_pouts prog (prun ct pyhash prog [] start []) (pexpected ct prog nothing []).
Proof.
  intros I. apply pdictionary_ok; [apply start_sound|constructor| |exact I]. exists []. split; [constructor|]. split; [constructor|reflexivity].
Qed.
End P.
