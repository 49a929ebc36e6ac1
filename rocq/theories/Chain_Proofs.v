(** Proofs about Chain_Model.v. *)
From Verif Require Import Base PySlice Sha256 Ripemd160 Serialize_Model Serialize_Spec Serialize_Proofs Tx_Model Tx_Spec Tx_Proofs
  Script_Model Proof_Model Proof_Spec Proof_Proofs ProofHash_Proofs ProofView_Proofs ProofReplay_Proofs ProofMain_Proofs ProofArrive_Proofs
  Hex_Model Chain_Model Chain_Spec.
From Coq Require Import ZifyBool ZifyNat ZifyN.
Ltac Zify.zify_post_hook ::= Z.div_mod_to_equations.
Local Open Scope string_scope.
Local Open Scope list_scope.

(** ** Computations on objects that are not views *)

(** Reading without state. *)
Fixpoint look (ct : ctable) (v : val) (path : list string) : result val :=
  match path with [] => Ok v | name :: path' => do x <- peek ct v name; look ct x path' end.

Lemma read_look ct path : forall v, fst (read ct v path) = look ct v path.
Proof.
  induction path as [|name path IH]; intros v; [reflexivity|]. cbn [read look]. unfold peek.
  destruct (get ct v name) as [[x v']|e]; cbn [bind]; [|reflexivity]. rewrite <- IH. destruct (read ct x path). reflexivity.
Qed.

Fixpoint eval {R} (ct : ctable) (p : prog R) (v : val) : R :=
  match p with
  | Ret r => r
  | Get path k => eval ct (k (observe (look ct v path))) v
  | Hsh path k => eval ct (k (hash_of ct (look ct v path))) v
  end.

Lemma run_eval {R} ct Q (p : prog R) : forall sr v, fits ct Q sr v -> run ct p v = (eval ct p v, v).
Proof.
  induction p as [r|path k IH|path k IH]; intros sr v F; cbn [run eval]; [reflexivity| |];
    pose proof (read_settled ct Q path sr v F) as S; pose proof (read_look ct path v) as L;
    destruct (read ct v path) as [r v']; cbn [fst snd] in *; subst; eapply IH; eassumption.
Qed.

Lemma outcome_eval {R} ct Q (p : prog (result R)) sr v : fits ct Q sr v -> outcome ct p v = eval ct p v.
Proof. intros F. unfold outcome. rewrite (run_eval ct Q p sr v F). reflexivity. Qed.

Lemma outcome_view {R} ct Q (p : prog (result R)) c o os : wf_table ct -> fits ct Q (SerProof c) o ->
  outcome ct p (steps ct (prune ct o) os) = outcome ct p o.
Proof.
  intros W F. unfold outcome. apply (run_same ct Q p W (SerProof c)); [exact F|].
  eapply steps_shows; [exact W|exact F|]. eapply prune_shows, F.
Qed.

(** ** Reading declared attributes *)

Lemma peek_full ct c fs attrs name : c_attrs (ct c) = attrs -> peek ct (PFull c fs) name =
  match attr_index attrs name with
  | Some i => match nth_error fs i with Some x => Ok x | None => Err AttributeError end
  | None => Err AttributeError
  end.
Proof. intros <-. unfold peek. cbn [get]. destruct (attr_index _ _); [|reflexivity]. destruct (nth_error _ _); reflexivity. Qed.

Lemma peek_hash ct c dh attrs name : c_attrs (ct c) = attrs -> peek ct (PHash c dh) name =
  match attr_index attrs name with Some _ => Err PrunedError | None => Err AttributeError end.
Proof. intros <-. unfold peek. cbn [get]. destruct (attr_index _ _); reflexivity. Qed.

Lemma declares_kind ct c a h : declares ct c a h -> forall k, declared ct c k -> k = c.
Proof. intros (_ & K & _) k D. unfold declared in D. rewrite K in D. exact D. Qed.

Lemma object_cases ct c a h v : declares ct c a h -> object ct c v ->
  (exists fs, v = PFull c fs /\ fits_all ct any_bits a fs) \/ (exists dh, v = PHash c dh /\ List.length dh = 32).
Proof.
  intros D O. unfold object in O. pose proof (declares_kind _ _ _ _ D) as K. destruct D as (<- & _ & _).
  inversion O; subst; [left|right]; [|eauto]. rewrite (K _ H0) in *. eauto.
Qed.

Lemma object_full ct c a h fs : declares ct c a h -> fits_all ct any_bits a fs -> object ct c (PFull c fs).
Proof.
  intros (<- & K & _) F. apply F_full; [|exact F]. unfold declared. rewrite K. reflexivity.
Qed.

Lemma object_hash ct c a h dh : declares ct c a h -> List.length dh = 32 -> object ct c (PHash c dh).
Proof. intros (_ & K & _) F. apply F_hash; [|exact F]. unfold declared. rewrite K. reflexivity. Qed.

Section Chain.
Context (ct : ctable) (P : chain) (C : is_chain ct P).

Definition A_tx := proj1 (d_tx ct P C).
Definition A_txin := proj1 (d_txin ct P C).
Definition A_txout := proj1 (d_txout ct P C).
Definition A_fseal := proj1 (d_fseal ct P C).
Definition A_fwit := proj1 (d_fwit ct P C).
Definition A_bseal := proj1 (d_bseal ct P C).
Definition A_bwit := proj1 (d_bwit ct P C).

(** Shapes of the objects. *)
Lemma tx_shape v : object ct (p_tx P) v -> (exists t, v = TxProof P t /\ wf_tx t) \/ (exists dh, v = PHash (p_tx P) dh /\ List.length dh = 32).
Proof.
  intros O. destruct (object_cases _ _ _ _ _ (d_tx ct P C) O) as [(fs & -> & F)|H]; [left|right; exact H].
  inversion F as [|? ? ? f ? H1 H2]; subst. inversion H2; subst. inversion H1; subst. eexists. split; [reflexivity|assumption].
Qed.

Lemma int_shape f : fits ct any_bits (SerPrim UInt32) f -> exists i, f = VPrim (PyInt i) /\ (0 <= i < 2 ^ 32)%Z.
Proof. intros F. inversion F as [s v H| | | | | |]; subst. destruct v; try contradiction H. cbn in H. exists z. split; [reflexivity|lia]. Qed.
Lemma fixed_shape n f : fits ct any_bits (SerPrim (SFixed n)) f -> exists b, f = VPrim (PyBytes b) /\ blen b = n.
Proof. intros F. inversion F as [s v H| | | | | |]; subst. destruct v; try contradiction H. cbn in H. eauto. Qed.

Lemma txin_shape v : object ct (p_txin P) v -> (exists i p, v = TxInProof P i p /\ (0 <= i < 2 ^ 32)%Z /\ object ct (p_tx P) p) \/
  (exists dh, v = PHash (p_txin P) dh /\ List.length dh = 32).
Proof.
  intros O. destruct (object_cases _ _ _ _ _ (d_txin ct P C) O) as [(fs & -> & F)|H]; [left|right; exact H].
  inversion F as [|? ? ? f ? H1 H2]; subst. inversion H2 as [|? ? ? g ? H3 H4]; subst. inversion H4; subst.
  destruct (int_shape _ H1) as (i & -> & R). exists i, g. auto.
Qed.
Lemma txout_shape v : object ct (p_txout P) v -> (exists i p, v = TxOutProof P i p /\ (0 <= i < 2 ^ 32)%Z /\ object ct (p_tx P) p) \/
  (exists dh, v = PHash (p_txout P) dh /\ List.length dh = 32).
Proof.
  intros O. destruct (object_cases _ _ _ _ _ (d_txout ct P C) O) as [(fs & -> & F)|H]; [left|right; exact H].
  inversion F as [|? ? ? f ? H1 H2]; subst. inversion H2 as [|? ? ? g ? H3 H4]; subst. inversion H4; subst.
  destruct (int_shape _ H1) as (i & -> & R). exists i, g. auto.
Qed.
Lemma seal_shape v : object ct (p_bseal P) v -> (exists o n, v = Seal P o n /\ wf_outpoint o /\ blen n = 16%N) \/
  (exists dh, v = PHash (p_bseal P) dh /\ List.length dh = 32).
Proof.
  intros O. destruct (object_cases _ _ _ _ _ (d_bseal ct P C) O) as [(fs & -> & F)|H]; [left|right; exact H].
  inversion F as [|? ? ? f ? H1 H2]; subst. inversion H2 as [|? ? ? g ? H3 H4]; subst. inversion H4; subst.
  destruct (fixed_shape _ _ H3) as (b & -> & L). inversion H1; subst. eexists _, b. repeat split; try eassumption.
  all: match goal with W : wf_outpoint _ |- _ => apply W end.
Qed.
Lemma witness_shape v : object ct (p_bwit P) v ->
  (exists s i o, v = Witness P s i o /\ object ct (p_bseal P) s /\ object ct (p_txin P) i /\ object ct (p_txout P) o) \/
  (exists dh, v = PHash (p_bwit P) dh /\ List.length dh = 32).
Proof.
  intros O. destruct (object_cases _ _ _ _ _ (d_bwit ct P C) O) as [(fs & -> & F)|H]; [left|right; exact H].
  inversion F as [|? ? ? f ? H1 H2]; subst. inversion H2 as [|? ? ? g ? H3 H4]; subst. inversion H4 as [|? ? ? h ? H5 H6]; subst. inversion H6; subst.
  exists f, g, h. auto.
Qed.
Lemma fseal_shape v : object ct (p_fseal P) v -> (exists h, v = FakeSeal P h /\ List.length h = 32) \/ (exists dh, v = PHash (p_fseal P) dh /\ List.length dh = 32).
Proof.
  intros O. destruct (object_cases _ _ _ _ _ (d_fseal ct P C) O) as [(fs & -> & F)|H]; [left|right; exact H].
  inversion F as [|? ? ? f ? H1 H2]; subst. inversion H2; subst. destruct (fixed_shape _ _ H1) as (b & -> & L). exists b. split; [reflexivity|unfold blen in L; lia].
Qed.
Lemma fwit_shape v : object ct (p_fwit P) v -> (exists s, v = FakeWitness P s /\ object ct (p_fseal P) s) \/ (exists dh, v = PHash (p_fwit P) dh /\ List.length dh = 32).
Proof.
  intros O. destruct (object_cases _ _ _ _ _ (d_fwit ct P C) O) as [(fs & -> & F)|H]; [left|right; exact H].
  inversion F as [|? ? ? f ? H1 H2]; subst. inversion H2; subst. exists f. auto.
Qed.

(** Objects from their parts. *)
Lemma tx_object t : wf_tx t -> object ct (p_tx P) (TxProof P t).
Proof. intros W. eapply object_full; [exact (d_tx ct P C)|]. repeat constructor; apply W. Qed.
Lemma txin_object i p : (0 <= i < 2 ^ 32)%Z -> object ct (p_tx P) p -> object ct (p_txin P) (TxInProof P i p).
Proof. intros R O. eapply object_full; [exact (d_txin ct P C)|]. repeat constructor; cbn; try lia. exact O. Qed.
Lemma txout_object i p : (0 <= i < 2 ^ 32)%Z -> object ct (p_tx P) p -> object ct (p_txout P) (TxOutProof P i p).
Proof. intros R O. eapply object_full; [exact (d_txout ct P C)|]. repeat constructor; cbn; try lia. exact O. Qed.
Lemma seal_object o n : wf_outpoint o -> List.length n = 16 -> object ct (p_bseal P) (Seal P o n).
Proof. intros R O. eapply object_full; [exact (d_bseal ct P C)|]. repeat constructor; try apply R. cbn. unfold blen. lia. Qed.
Lemma witness_object s i o : object ct (p_bseal P) s -> object ct (p_txin P) i -> object ct (p_txout P) o -> object ct (p_bwit P) (Witness P s i o).
Proof. intros. eapply object_full; [exact (d_bwit ct P C)|]. repeat constructor; assumption. Qed.
Lemma fseal_object h : List.length h = 32 -> object ct (p_fseal P) (FakeSeal P h).
Proof. intros L. eapply object_full; [exact (d_fseal ct P C)|]. repeat constructor. cbn. unfold blen. lia. Qed.
Lemma fwit_object s : object ct (p_fseal P) s -> object ct (p_fwit P) (FakeWitness P s).
Proof. intros L. eapply object_full; [exact (d_fwit ct P C)|]. repeat constructor. exact L. Qed.

(** ** C36 *)

Lemma tx_phash t : phash ct (TxProof P t) = do h <- tx_GetHash t; Ok (xor_pad h).
Proof. unfold phash, TxProof. rewrite hashes_full. cbn [snd]. destruct (d_tx ct P C) as (_ & _ & ->). reflexivity. Qed.

Lemma tx_GetHash_length t h : tx_GetHash t = Ok h -> List.length h = 32.
Proof.
  unfold tx_GetHash. destruct (tx_ser t); cbn [bind]; [|discriminate]. intros H. assert (E : h = Hash a) by congruence. rewrite E. apply sha256_length.
Qed.

Lemma txhash_is_txid t : txhash ct (TxProof P t) = tx_GetHash t.
Proof.
  unfold txhash. rewrite tx_phash. destruct (tx_GetHash t) as [h|e] eqn:E; cbn [bind]; [|reflexivity].
  rewrite xor_pad_inv; [reflexivity|]. eapply tx_GetHash_length, E.
Qed.

Lemma txhash_view t os : wf_table ct -> wf_tx t -> txhash ct (steps ct (prune ct (TxProof P t)) os) = tx_GetHash t.
Proof.
  intros W Ht. rewrite <- txhash_is_txid. unfold txhash.
  destruct (view_hash ct any_bits (p_tx P) (TxProof P t) os W (tx_object t Ht)) as (_ & -> & _). reflexivity.
Qed.

Lemma txhash_distinct t t' h : phash ct (TxProof P t) = Ok h -> phash ct (TxProof P t') = Ok h -> same_txid t t'.
Proof.
  rewrite !tx_phash. destruct (tx_GetHash t) as [a|] eqn:E; cbn [bind]; [|discriminate]. destruct (tx_GetHash t') as [b|] eqn:E'; cbn [bind]; [|discriminate].
  intros A B. exists a. split; [exact E|]. rewrite E'. f_equal. rewrite <- (xor_pad_inv b), <- (xor_pad_inv a); try (eapply tx_GetHash_length; eassumption). congruence.
Qed.

Lemma same_txid_hash t t' : same_txid t t' -> exists h, phash ct (TxProof P t) = Ok h /\ phash ct (TxProof P t') = Ok h.
Proof. intros (h & A & B). exists (xor_pad h). rewrite !tx_phash, A, B. auto. Qed.

Lemma same_txid_binds t t' : wf_tx t -> wf_tx t' -> same_txid t t' -> t = t' \/ tx_collision t t'.
Proof.
  intros W W' (h & A & B). destruct (tx_hash_binds t t' h W W' A B) as [E|(e & e' & E1 & E2 & N & H)]; [left; exact E|right].
  exists e, e'. repeat split; assumption.
Qed.

(** ** C37 *)

Ltac rd := cbn [look]; repeat (rewrite (peek_full ct _ _ _ _ A_tx) || rewrite (peek_full ct _ _ _ _ A_txin) || rewrite (peek_full ct _ _ _ _ A_txout)
    || rewrite (peek_full ct _ _ _ _ A_fseal) || rewrite (peek_full ct _ _ _ _ A_fwit) || rewrite (peek_full ct _ _ _ _ A_bseal) || rewrite (peek_full ct _ _ _ _ A_bwit)
    || rewrite (peek_hash ct _ _ _ _ A_tx) || rewrite (peek_hash ct _ _ _ _ A_txin) || rewrite (peek_hash ct _ _ _ _ A_txout)
    || rewrite (peek_hash ct _ _ _ _ A_fseal) || rewrite (peek_hash ct _ _ _ _ A_fwit) || rewrite (peek_hash ct _ _ _ _ A_bseal) || rewrite (peek_hash ct _ _ _ _ A_bwit);
    cbn [attr_index String.eqb Ascii.eqb Bool.eqb andb option_map nth_error bind look]); cbn [observe class_of].

Lemma znth_nth {A} (l : list A) i x : znth l i = Some x <-> (0 <= i)%Z /\ nth_error l (Z.to_nat i) = Some x.
Proof.
  unfold znth. destruct (i <? 0)%Z eqn:E; split; try discriminate; [intros (H & _); lia| |]; [split; [lia|assumption]|intros (_ & H); exact H].
Qed.

Lemma py_index_ok {A} (l : list A) i x : (0 <= i)%Z -> (py_index l i = Ok x <-> (0 <= i)%Z /\ nth_error l (Z.to_nat i) = Some x).
Proof.
  intros H. rewrite <- znth_nth. unfold py_index. destruct (i <? 0)%Z eqn:E; [lia|]. destruct (znth l i) as [y|]; split; congruence.
Qed.
Lemma py_index_err {A} (l : list A) i e : py_index l i = Err e -> e = IndexError.
Proof. unfold py_index. destruct (znth _ _); congruence. Qed.

Lemma nth_lt {A} (l : list A) (i : Z) : (0 <= i < Z.of_nat (List.length l))%Z -> exists x, nth_error l (Z.to_nat i) = Some x.
Proof. intros H. destruct (nth_error l (Z.to_nat i)) as [x|] eqn:E; [eauto|]. apply nth_error_None in E. lia. Qed.

Lemma nth_error_Some_bound {A} (l : list A) i x : nth_error l i = Some x -> (i < List.length l)%nat.
Proof. intros H. apply nth_error_Some. congruence. Qed.

Lemma txin_verify_tx i t : eval ct txin_verify (TxInProof P i (TxProof P t)) = Ok tt <-> exists x, input t i x.
Proof.
  unfold txin_verify, int_at, tx_at, value_at. cbn [eval]. unfold TxInProof. rd. destruct (0 <=? i)%Z eqn:E; cbn [eval].
  - unfold TxProof. rd. cbn [eval]. unfold assert. destruct (_ <? _)%Z eqn:E2; split; try discriminate; try reflexivity.
    + intros _. destruct (nth_lt (t_vin t) i) as (x & X); [lia|]. exists x. split; [lia|exact X].
    + intros (x & _ & X). apply nth_error_Some_bound in X. lia.
  - split; [discriminate|]. intros (x & R & _). lia.
Qed.
Lemma txout_verify_tx i t : eval ct txout_verify (TxOutProof P i (TxProof P t)) = Ok tt <-> exists x, output t i x.
Proof.
  unfold txout_verify, int_at, tx_at, value_at. cbn [eval]. unfold TxOutProof. rd. destruct (0 <=? i)%Z eqn:E; cbn [eval].
  - unfold TxProof. rd. cbn [eval]. unfold assert. destruct (_ <? _)%Z eqn:E2; split; try discriminate; try reflexivity.
    + intros _. destruct (nth_lt (t_vout t) i) as (x & X); [lia|]. exists x. split; [lia|exact X].
    + intros (x & _ & X). apply nth_error_Some_bound in X. lia.
  - split; [discriminate|]. intros (x & R & _). lia.
Qed.

Lemma txin_verify_exact v : object ct (p_txin P) v ->
  (outcome ct txin_verify v = Ok tt <-> exists i t x, v = TxInProof P i (TxProof P t) /\ input t i x).
Proof.
  intros O. rewrite (outcome_eval ct any_bits _ _ _ O). destruct (txin_shape v O) as [(i & p & -> & R & Op)|(dh & -> & _)].
  - destruct (tx_shape p Op) as [(t & -> & _)|(dh & -> & _)].
    + rewrite txin_verify_tx. split; [intros (x & X); exists i, t, x; auto|]. intros (i' & t' & x & E & X). inversion E; subst. eauto.
    + split; [|intros (i' & t' & x & E & _); discriminate E]. unfold txin_verify, int_at, tx_at, value_at. cbn [eval]. unfold TxInProof. rd.
      destruct (0 <=? i)%Z; cbn [eval]; [|discriminate]. rd. cbn [eval]. discriminate.
  - split; [|intros (i' & t' & x & E & _); discriminate E]. unfold txin_verify, int_at, tx_at, value_at. cbn [eval]. rd. cbn [eval]. discriminate.
Qed.
Lemma txout_verify_exact v : object ct (p_txout P) v ->
  (outcome ct txout_verify v = Ok tt <-> exists i t x, v = TxOutProof P i (TxProof P t) /\ output t i x).
Proof.
  intros O. rewrite (outcome_eval ct any_bits _ _ _ O). destruct (txout_shape v O) as [(i & p & -> & R & Op)|(dh & -> & _)].
  - destruct (tx_shape p Op) as [(t & -> & _)|(dh & -> & _)].
    + rewrite txout_verify_tx. split; [intros (x & X); exists i, t, x; auto|]. intros (i' & t' & x & E & X). inversion E; subst. eauto.
    + split; [|intros (i' & t' & x & E & _); discriminate E]. unfold txout_verify, int_at, tx_at, value_at. cbn [eval]. unfold TxOutProof. rd.
      destruct (0 <=? i)%Z; cbn [eval]; [|discriminate]. rd. cbn [eval]. discriminate.
  - split; [|intros (i' & t' & x & E & _); discriminate E]. unfold txout_verify, int_at, tx_at, value_at. cbn [eval]. rd. cbn [eval]. discriminate.
Qed.

(** The attributes txin and txout. *)
Lemma txin_value i t x : object ct (p_txin P) (TxInProof P i (TxProof P t)) -> input t i x ->
  outcome ct (txin_at [] (fun x => Ret (Ok x))) (TxInProof P i (TxProof P t)) = Ok x.
Proof.
  intros O (R & X). rewrite (outcome_eval ct any_bits _ _ _ O). unfold txin_at, int_at, tx_at, value_at, TxInProof, TxProof. cbn [eval app]. rd. cbn [eval]. rd.
  cbn [eval]. destruct (py_index (t_vin t) i) as [y|e] eqn:E; cbn [then_do eval].
  - apply py_index_ok in E; [|exact R]. destruct E as (_ & E). congruence.
  - exfalso. pose proof (proj2 (py_index_ok (t_vin t) i x R) (conj R X)). congruence.
Qed.
Lemma txout_value i t x : object ct (p_txout P) (TxOutProof P i (TxProof P t)) -> output t i x ->
  outcome ct (txout_at [] (fun x => Ret (Ok x))) (TxOutProof P i (TxProof P t)) = Ok x.
Proof.
  intros O (R & X). rewrite (outcome_eval ct any_bits _ _ _ O). unfold txout_at, int_at, tx_at, value_at, TxOutProof, TxProof. cbn [eval app]. rd. cbn [eval]. rd.
  cbn [eval]. destruct (py_index (t_vout t) i) as [y|e] eqn:E; cbn [then_do eval].
  - apply py_index_ok in E; [|exact R]. destruct E as (_ & E). congruence.
  - exfalso. pose proof (proj2 (py_index_ok (t_vout t) i x R) (conj R X)). congruence.
Qed.

(** Making them: the index has to fit 32 bits. *)
Lemma txin_construct i p : is_proof p = true -> construct ct (p_txin P) [("i", VPrim (PyInt i)); ("txproof", p)] =
  if ((0 <=? i) && (i <=? 2 ^ 32 - 1))%Z then Ok (TxInProof P i p) else Err SerializerValueError.
Proof.
  intros Hp. unfold construct. rewrite A_txin. cbn [construct_loop assoc String.eqb Ascii.eqb Bool.eqb andb bind check to_py].
  unfold UInt32. cbn [prim_check]. destruct ((0 <=? i) && (i <=? 2 ^ 32 - 1))%Z; cbn [bind]; [|reflexivity].
  destruct (d_tx ct P C) as (_ & -> & _). cbn [bind]. rewrite Hp. reflexivity.
Qed.
Lemma txout_construct i p : is_proof p = true -> construct ct (p_txout P) [("i", VPrim (PyInt i)); ("txproof", p)] =
  if ((0 <=? i) && (i <=? 2 ^ 32 - 1))%Z then Ok (TxOutProof P i p) else Err SerializerValueError.
Proof.
  intros Hp. unfold construct. rewrite A_txout. cbn [construct_loop assoc String.eqb Ascii.eqb Bool.eqb andb bind check to_py].
  unfold UInt32. cbn [prim_check]. destruct ((0 <=? i) && (i <=? 2 ^ 32 - 1))%Z; cbn [bind]; [|reflexivity].
  destruct (d_tx ct P C) as (_ & -> & _). cbn [bind]. rewrite Hp. reflexivity.
Qed.

(** ** C38 *)

Lemma outpoint_eq_ok a b : wf_outpoint a -> wf_outpoint b -> exists r, outpoint_eq a b = Ok r /\ (r = true <-> a = b).
Proof.
  intros Wa Wb. unfold outpoint_eq. destruct (outpoint_codec a Wa) as (x & Ex & Dx). destruct (outpoint_codec b Wb) as (y & Ey & Dy). rewrite Ex, Ey. cbn [bind].
  eexists. split; [reflexivity|]. rewrite bytes_eqb_eq. split; [|congruence]. intros E. subst y.
  specialize (Dx []). specialize (Dy []). congruence.
Qed.

Lemma input_wf t i x : wf_tx t -> input t i x -> wf_outpoint (i_prevout x).
Proof. intros (W & _) (_ & X). apply nth_error_In in X. rewrite Forall_forall in W. apply W in X. apply X. Qed.

Lemma phash_tx_hash dh : phash ct (PHash (p_tx P) dh) = Err TypeError.
Proof. unfold phash. cbn [hashes snd]. unfold tagged. destruct (d_tx ct P C) as (_ & _ & ->). reflexivity. Qed.

Lemma tx_GetHash_wf t : wf_tx t -> exists h, tx_GetHash t = Ok h.
Proof. intros W. unfold tx_GetHash. destruct (tx_codec t W) as (b & -> & _). cbn [bind]. eauto. Qed.

(** What verify does on a complete witness. *)
Lemma btc_verify_full o n i t j t' : wf_outpoint o -> wf_tx t -> wf_tx t' -> (0 <= i)%Z ->
  eval ct btc_verify (Witness P (Seal P o n) (TxInProof P i (TxProof P t)) (TxOutProof P j (TxProof P t'))) =
  match znth (t_vin t) i with
  | None => Err IndexError
  | Some x => if bytes_eqb (o_hash (i_prevout x)) (o_hash o) && (o_n (i_prevout x) =? o_n o)%Z then
      match tx_GetHash t, tx_GetHash t' with Ok h, Ok h' => assert (bytes_eqb h h') | _, _ => Err AssertionError end
    else Err AssertionError
  end.
Proof.
  intros Wo Wt Wt' R. unfold btc_verify, out_at, txin_at, int_at, tx_at, value_at, proof_at, hash_at. unfold Witness, Seal, TxInProof, TxOutProof, TxProof.
  cbn [eval app]. rd. cbn [eval]. rd. cbn [eval]. rd. cbn [eval].
  unfold py_index. destruct (i <? 0)%Z eqn:E; [lia|]. destruct (znth (t_vin t) i) as [x|] eqn:X; cbn [then_do eval]; [|reflexivity].
  apply znth_nth in X. pose proof (input_wf t i x Wt X) as Wx.
  destruct (outpoint_eq_ok o (i_prevout x) Wo Wx) as (r & -> & Hr). cbn [then_do].
  replace (bytes_eqb (o_hash (i_prevout x)) (o_hash o) && (o_n (i_prevout x) =? o_n o)%Z) with r.
  2:{ apply eq_iff_eq_true. rewrite Hr, andb_true_iff, bytes_eqb_eq, Z.eqb_eq. destruct o, (i_prevout x); cbn. split; [intros H; inversion H; auto|intros [-> ->]; reflexivity]. }
  destruct r; cbn [assert then_do eval]; [|reflexivity]. rd. cbn [eval]. rd. cbn [eval]. rd. cbn [eval hash_of].
  fold (TxProof P t) (TxProof P t'). rewrite !tx_phash.
  destruct (tx_GetHash_wf t Wt) as (h & Eh). destruct (tx_GetHash_wf t' Wt') as (h' & Eh'). rewrite Eh, Eh'. cbn [bind eval]. rd. cbn [eval hash_of].
  fold (TxProof P t'). rewrite tx_phash, Eh'. cbn [bind eval].
  replace (bytes_eqb (xor_pad h) (xor_pad h')) with (bytes_eqb h h'); [reflexivity|].
  apply eq_iff_eq_true. rewrite !bytes_eqb_eq. split; [congruence|]. intros X2.
  rewrite <- (xor_pad_inv h), <- (xor_pad_inv h'); [congruence| |]; eapply tx_GetHash_length; eassumption.
Qed.

Lemma btc_verify_full_ok o n i t j t' : wf_outpoint o -> wf_tx t -> wf_tx t' -> (0 <= i)%Z ->
  (eval ct btc_verify (Witness P (Seal P o n) (TxInProof P i (TxProof P t)) (TxOutProof P j (TxProof P t'))) = Ok tt <->
   (exists x, input t i x /\ i_prevout x = o) /\ same_txid t t').
Proof.
  intros Wo Wt Wt' R. rewrite btc_verify_full by assumption. destruct (tx_GetHash_wf t Wt) as (h & Eh). destruct (tx_GetHash_wf t' Wt') as (h' & Eh').
  unfold same_txid. rewrite Eh, Eh'. destruct (znth (t_vin t) i) as [x|] eqn:X.
  - apply znth_nth in X. destruct (_ && _) eqn:E.
    + apply andb_true_iff in E. rewrite bytes_eqb_eq, Z.eqb_eq in E. unfold assert. destruct (bytes_eqb h h') eqn:Eb.
      * apply bytes_eqb_eq in Eb. subst h'. split; [intros _|reflexivity]. split; [|eauto]. exists x. split; [exact X|]. destruct o, (i_prevout x); cbn in *. destruct E as [-> ->]. reflexivity.
      * apply bytes_eqb_neq in Eb. split; [discriminate|]. intros (_ & k & A & B). congruence.
    + split; [discriminate|]. intros ((y & (_ & Y) & Po) & _). destruct X as (_ & X). rewrite Y in X. inversion X; subst y. subst o.
      rewrite bytes_eqb_refl, Z.eqb_refl in E. discriminate.
  - split; [discriminate|]. intros ((y & Y & _) & _). apply (proj2 (znth_nth _ _ _)) in Y. congruence.
Qed.

Lemma btc_verify_exact w : object ct (p_bwit P) w ->
  (outcome ct btc_verify w = Ok tt <->
   exists o n i t j t' x, w = Witness P (Seal P o n) (TxInProof P i (TxProof P t)) (TxOutProof P j (TxProof P t')) /\
     input t i x /\ i_prevout x = o /\ same_txid t t') /\
  (outcome ct btc_verify w = Ok tt \/ exists e, outcome ct btc_verify w = Err e /\ In e [AssertionError; IndexError; PrunedError; TypeError] /\
     (complete w -> In e [AssertionError; IndexError])).
Proof.
  intros O. rewrite (outcome_eval ct any_bits _ _ _ O).
  assert (N : forall s a b (v : result unit), (exists e, v = Err e /\ In e [AssertionError; IndexError; PrunedError; TypeError]) ->
     ~ complete w -> (forall o n i t j t', w <> Witness P (Seal P o n) (TxInProof P i (TxProof P t)) (TxOutProof P j (TxProof P t'))) ->
     w = Witness P s a b \/ (exists dh, w = PHash (p_bwit P) dh) ->
     (v = Ok tt <-> exists o n i t j t' x, w = Witness P (Seal P o n) (TxInProof P i (TxProof P t)) (TxOutProof P j (TxProof P t')) /\
     input t i x /\ i_prevout x = o /\ same_txid t t') /\
     (v = Ok tt \/ exists e, v = Err e /\ In e [AssertionError; IndexError; PrunedError; TypeError] /\ (complete w -> In e [AssertionError; IndexError]))).
  { intros s a b v (e & -> & He) Nc Ne _. split; [split; [discriminate|]|right; exists e; split; [reflexivity|]; split; [exact He|contradiction]].
    intros (o & n & i & t & j & t' & x & E & _). exfalso. exact (Ne o n i t j t' E). }
  assert (Nh : forall c dh, ~ complete (PHash c dh)) by (intros c dh X; inversion X).
  destruct (witness_shape w O) as [(s & a & b & -> & Os & Oa & Ob)|(dh & -> & _)].
  2:{ apply (N (VBits []) (VBits []) (VBits [])); [exists PrunedError; split; [|cbn; auto]|apply Nh|discriminate|eauto].
      unfold btc_verify, out_at, value_at. cbn [eval]. rd. reflexivity. }
  destruct (seal_shape s Os) as [(o & n & -> & Wo & _)|(dh & -> & _)].
  2:{ eapply N; [exists PrunedError; split; [|cbn; auto]| |discriminate|eauto].
      - unfold btc_verify, out_at, value_at, Witness. cbn [eval]. rd. reflexivity.
      - intros X. inversion X as [| | | |? ? F]; subst. inversion F; subst. eapply Nh; eassumption. }
  destruct (txin_shape a Oa) as [(i & p & -> & Ri & Op)|(dh & -> & _)].
  2:{ eapply N; [exists PrunedError; split; [|cbn; auto]| |discriminate|eauto].
      - unfold btc_verify, out_at, value_at, txin_at, tx_at, value_at, Witness, Seal. cbn [eval app]. rd. cbn [eval]. rd. reflexivity.
      - intros X. inversion X as [| | | |? ? F]; subst. inversion F as [|? ? ? F2]; subst. inversion F2; subst. eapply Nh; eassumption. }
  destruct (tx_shape p Op) as [(t & -> & Wt)|(dh & -> & _)].
  2:{ eapply N; [exists PrunedError; split; [|cbn; auto]| |discriminate|eauto].
      - unfold btc_verify, out_at, value_at, txin_at, tx_at, value_at, Witness, Seal, TxInProof. cbn [eval app]. rd. cbn [eval]. rd. reflexivity.
      - intros X. inversion X as [| | | |? ? F]; subst. inversion F as [|? ? ? F2]; subst. inversion F2 as [|? ? F3 _]; subst. inversion F3 as [| | | |? ? F4]; subst.
        inversion F4 as [|? ? ? F5]; subst. inversion F5; subst. eapply Nh; eassumption. }
  assert (B : (exists j t', b = TxOutProof P j (TxProof P t') /\ wf_tx t') \/ (~ complete b /\ (forall j t', b <> TxOutProof P j (TxProof P t')) /\
     ((exists e, (do x <- look ct b ["txproof"]; phash ct x) = Err e /\ In e [PrunedError; TypeError])))).
  { destruct (txout_shape b Ob) as [(j & q & -> & _ & Oq)|(dh & -> & _)].
    - destruct (tx_shape q Oq) as [(t' & -> & Wt')|(dh & -> & _)]; [left; eauto|right].
      split; [|split; [discriminate|]].
      + intros X. inversion X as [| | | |? ? F]; subst. inversion F as [|? ? ? F2]; subst. inversion F2; subst. eapply Nh; eassumption.
      + unfold TxOutProof. rd. cbn [bind]. rewrite phash_tx_hash. exists TypeError. cbn. auto.
    - right. split; [apply Nh|]. split; [discriminate|]. rd. cbn [bind]. exists PrunedError. cbn. auto. }
  destruct B as [(j & t' & -> & Wt')|(Nb & Ne & e & Eb & He)].
  - split.
    + rewrite btc_verify_full_ok by (try assumption; lia). split.
      * intros ((x & X & E) & S). exists o, n, i, t, j, t', x. auto.
      * intros (o' & n' & i' & t2 & j' & t2' & x & E & X & Po & S). inversion E; subst. split; [eauto|exact S].
    + rewrite btc_verify_full by (try assumption; lia). destruct (znth _ _); [|right; eexists; split; [reflexivity|]; cbn; auto].
      destruct (_ && _); [|right; eexists; split; [reflexivity|]; cbn; auto].
      destruct (tx_GetHash t); [|right; eexists; split; [reflexivity|]; cbn; auto]. destruct (tx_GetHash t'); [|right; eexists; split; [reflexivity|]; cbn; auto].
      unfold assert. destruct (bytes_eqb _ _); [left; reflexivity|right; eexists; split; [reflexivity|]; cbn; auto].
  - eapply N; [| |intros o' n' i' t2 j' t2' X; inversion X; subst; eapply Ne; reflexivity|eauto].
    + assert (L : forall x, In x [PrunedError; TypeError] -> In x [AssertionError; IndexError; PrunedError; TypeError]) by (cbn; intuition).
      unfold btc_verify, out_at, txin_at, int_at, tx_at, value_at, proof_at, hash_at. unfold Witness, Seal, TxInProof, TxProof.
      cbn [eval app]. rd. cbn [eval]. rd. cbn [eval]. rd. cbn [eval].
      destruct (py_index (t_vin t) i) as [x|e'] eqn:X; cbn [then_do eval]; [|apply py_index_err in X; subst; eexists; split; [reflexivity|]; cbn; auto].
      apply py_index_ok in X; [|lia]. destruct (outpoint_eq_ok o (i_prevout x) Wo (input_wf t i x Wt X)) as (r & -> & _). cbn [then_do].
      destruct r; cbn [assert then_do eval]; [|eexists; split; [reflexivity|]; cbn; auto]. rd. cbn [eval].
      destruct (txout_shape b Ob) as [(j & q & -> & _ & Oq)|(dh & -> & _)].
      * destruct (tx_shape q Oq) as [(t' & -> & Wt')|(dh & -> & _)]; [exfalso; eapply Ne; reflexivity|]. unfold TxOutProof. rd. cbn [eval]. rd. cbn [hash_of eval].
        fold (TxProof P t). rewrite tx_phash. destruct (tx_GetHash_wf t Wt) as (h & ->). cbn [bind eval]. rd. cbn [eval hash_of]. rewrite phash_tx_hash.
        exists TypeError. cbn. auto 10.
      * rd. cbn [eval]. exists PrunedError. cbn. auto.
    + intros X. inversion X as [| | | |? ? F]; subst. inversion F as [|? ? ? F2]; subst. inversion F2 as [|? ? _ F3]; subst. inversion F3; subst. contradiction.
Qed.

(** ** C39 *)

Lemma push_20 d : List.length d = 20 -> encode_op_pushdata d = Ok (x14 :: d).
Proof. intros L. unfold encode_op_pushdata. assert (blen d = 20%N) as -> by (unfold blen; lia). reflexivity. Qed.
Lemma push_32 d : List.length d = 32 -> encode_op_pushdata d = Ok (x20 :: d).
Proof. intros L. unfold encode_op_pushdata. assert (blen d = 32%N) as -> by (unfold blen; lia). reflexivity. Qed.

Lemma script_op_return_bytes h : List.length h = 32 -> script_op_return h = Ok ([x6a; x20] ++ h).
Proof.
  intros L. unfold script_op_return, cscript. cbn [objs_ser coerce]. rewrite (push_32 h L). cbn [bind]. rewrite app_nil_r. reflexivity.
Qed.
Lemma script_p2sh_bytes h : script_p2sh h = Ok ([xa9; x14] ++ Hash160 h ++ [x87]).
Proof. unfold script_p2sh, cscript. cbn [objs_ser coerce]. rewrite (push_20 _ (Hash160_length h)). generalize (Hash160 h). intros q. reflexivity. Qed.
Lemma script_p2pkh_bytes h : script_p2pkh h = Ok ([x76; xa9; x14] ++ Hash160 h ++ [x88; xac]).
Proof. unfold script_p2pkh, cscript. cbn [objs_ser coerce]. rewrite (push_20 _ (Hash160_length h)). generalize (Hash160 h). intros q. reflexivity. Qed.

Lemma commits_to_ok a h : List.length h = 32 -> exists r, commits_to a h = Ok r /\ (r = true <-> commitment h a).
Proof.
  intros L. unfold commits_to. rewrite (script_op_return_bytes h L), script_p2sh_bytes, script_p2pkh_bytes. cbn [bind]. unfold commitment.
  destruct (bytes_eqb a ([x6a; x20] ++ h)) eqn:E1; [apply bytes_eqb_eq in E1; exists true; split; [reflexivity|tauto]|apply bytes_eqb_neq in E1].
  destruct (bytes_eqb a ([xa9; x14] ++ _)) eqn:E2; [apply bytes_eqb_eq in E2; exists true; split; [reflexivity|tauto]|apply bytes_eqb_neq in E2].
  eexists. split; [reflexivity|]. rewrite bytes_eqb_eq. tauto.
Qed.

Lemma btc_verify_hash_exact w h : object ct (p_bwit P) w ->
  (outcome ct (btc_verify_hash h) w = Ok tt <->
   List.length h = 32 /\ exists s a j t x, w = Witness P s a (TxOutProof P j (TxProof P t)) /\ output t j x /\ commitment h (o_scriptPubKey x)).
Proof.
  intros O. rewrite (outcome_eval ct any_bits _ _ _ O). unfold btc_verify_hash. unfold assert at 1.
  destruct (blen h =? 32)%N eqn:L; cbn [then_do eval]; [|split; [discriminate|]; intros (L' & _); unfold blen in L; lia].
  assert (Lh : List.length h = 32) by (unfold blen in L; lia).
  unfold txout_at, int_at, tx_at, value_at. cbn [eval app].
  destruct (witness_shape w O) as [(s & a & b & -> & Os & Oa & Ob)|(dh & -> & _)].
  2:{ rd. cbn [eval]. split; [discriminate|]. intros (_ & s & a & j & t & x & E & _). discriminate E. }
  destruct (txout_shape b Ob) as [(j & q & -> & Rj & Oq)|(dh & -> & _)].
  2:{ unfold Witness. rd. cbn [eval]. split; [discriminate|]. intros (_ & s' & a' & j & t & x & E & _). discriminate E. }
  destruct (tx_shape q Oq) as [(t & -> & Wt)|(dh & -> & _)].
  2:{ unfold Witness, TxOutProof. rd. cbn [eval]. split; [discriminate|]. intros (_ & s' & a' & j' & t & x & E & _). discriminate E. }
  unfold Witness, TxOutProof, TxProof. rd. cbn [eval]. rd. cbn [eval].
  destruct (py_index (t_vout t) j) as [x|e] eqn:X; cbn [then_do eval].
  - apply py_index_ok in X; [|lia]. destruct (commits_to_ok (o_scriptPubKey x) h Lh) as (r & -> & Hr). cbn [then_do eval].
    unfold assert. destruct r.
    + split; [intros _|reflexivity]. split; [exact Lh|]. exists s, a, j, t, x. split; [reflexivity|]. split; [exact X|]. apply Hr. reflexivity.
    + split; [discriminate|]. intros (_ & s' & a' & j' & t' & x' & E & (_ & X') & K). inversion E; subst. destruct X as (_ & X). rewrite X' in X. inversion X; subst.
      apply Hr in K. discriminate.
  - split; [discriminate|]. intros (_ & s' & a' & j' & t' & x' & E & (_ & X') & K). inversion E; subst.
    pose proof (proj2 (py_index_ok (t_vout t') j' x' ltac:(lia)) (conj (proj1 Rj) X')). congruence.
Qed.

Lemma commitment_binds h1 h2 s : List.length h1 = 32 -> List.length h2 = 32 -> commitment h1 s -> commitment h2 s -> h1 = h2 \/ collision Hash160 h1 h2.
Proof.
  intros L1 L2 A B. destruct (bytes_eq_dec h1 h2) as [E|N]; [left; exact E|right]. split; [exact N|].
  pose proof (Hash160_length h1) as Q1. pose proof (Hash160_length h2) as Q2. unfold commitment in *. generalize dependent (Hash160 h1). generalize dependent (Hash160 h2).
  intros q2 B Q2 q1 A Q1. destruct A as [A|[A|A]], B as [B|[B|B]]; rewrite A in B; cbn [app] in B; try discriminate B.
  - inversion B. contradiction.
  - injection B as B. apply app_inj_len in B; [|congruence]. apply B.
  - injection B as B. apply app_inj_len in B; [|congruence]. apply B.
Qed.

Lemma btc_verify_hash_binds w h1 h2 : object ct (p_bwit P) w -> outcome ct (btc_verify_hash h1) w = Ok tt -> outcome ct (btc_verify_hash h2) w = Ok tt ->
  h1 = h2 \/ collision Hash160 h1 h2.
Proof.
  intros O H1 H2. apply btc_verify_hash_exact in H1; [|exact O]. apply btc_verify_hash_exact in H2; [|exact O].
  destruct H1 as (L1 & s & a & j & t & x & -> & (_ & X) & K1), H2 as (L2 & s' & a' & j' & t' & x' & E & (_ & X') & K2). inversion E; subst.
  rewrite X in X'. inversion X'; subst. eapply commitment_binds; eassumption.
Qed.
End Chain.
