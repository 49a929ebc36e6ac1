(** Proofs about Proof_Model.v, part 6: whatever is deserialized has attributes of the
    declared types. *)
From Verif Require Import Base Bits_Model Sha256 Serialize_Model Serialize_Spec Serialize_Proofs
  Tx_Model Tx_Spec Tx_Proofs Proof_Model Proof_Spec Proof_Proofs ProofHash_Proofs.
From Coq Require Import ZifyBool ZifyNat ZifyN.
Ltac Zify.zify_post_hook ::= Z.div_mod_to_equations.

Lemma prim_check_ok s v : prim_check s v = Ok tt -> prim_ok s v.
Proof.
  destruct s, v; cbn [prim_check prim_ok]; try discriminate; auto; destruct (_ : bool) eqn:E; try discriminate; lia.
Qed.

Lemma de_prefixed_inner {A} (f : bytes -> result (A * bytes)) s a r : de_prefixed f s = Ok (a, r) -> exists b c, f b = Ok (a, c).
Proof.
  unfold de_prefixed, bdeserialize. intros H. bind_ok H. bind_ok H. destruct (f b0) as [[x y]|] eqn:E1; cbn [bind] in H; [|discriminate].
  destruct y; cbn [bind] in H; [|discriminate]. inversion H; subst. eauto.
Qed.

Lemma de_leaf_fits ct sr s v r : de_leaf sr s = Ok (v, r) -> fits ct any_bits sr v.
Proof.
  intros H. destruct sr; cbn [de_leaf] in H; try discriminate H.
  - bind_ok H. inversion H; subst. constructor. apply prim_check_ok. eapply prim_de_checked, E.
  - bind_ok H. destruct (bits_iter _); [|discriminate]. inversion H; subst. constructor. exact I.
  - bind_ok H. inversion H; subst. constructor. destruct (de_prefixed_inner _ _ _ _ E) as (? & ? & T). eapply tx_de_wf, T.
  - bind_ok H. inversion H; subst. constructor. destruct (de_prefixed_inner _ _ _ _ E) as (? & ? & T). eapply outpoint_de_wf, T.
Qed.

(** What arrives for class [c]: a value of a declared class, or the data hash alone under a
    base class. *)
Definition arrived (ct : ctable) (c : cid) (v : val) : Prop :=
  fits ct any_bits (SerProof c) v \/ exists dh, v = PHash c dh /\ List.length dh = 32 /\ ~ declared ct c c.
Definition arrived_attr (ct : ctable) (sr : ser) (v : val) : Prop :=
  match sr with
  | SerProof c => arrived ct c v
  | SerUnion cs => exists c, In c cs /\ arrived ct c v
  | _ => fits ct any_bits sr v
  end.

Lemma declared_dec ct c : declared ct c c \/ ~ declared ct c c.
Proof. unfold declared. destruct (c_kind (ct c)) as [|u]; [auto|]. destruct (in_dec Nat.eq_dec c u); auto. Qed.

(** An attribute that passes the checks of the constructor. *)
Lemma arrived_checked ct sr v : match sr with
    | SerProof b => base_declared ct b
    | SerUnion cs => forall m, In m cs -> c_kind (ct m) = Plain
    | _ => True end ->
  arrived_attr ct sr v -> check ct sr v = Ok tt -> fits ct any_bits sr v.
Proof.
  intros V A C. destruct sr; cbn [arrived_attr] in A; try exact A.
  - destruct A as [A|(dh & -> & L & N)]; [exact A|]. exfalso. cbn [check] in C. unfold declared in N.
    destruct (c_kind (ct c)) as [|u] eqn:K; [auto|]. destruct (existsb (isinst ct (PHash c dh)) u) eqn:X; [|discriminate].
    apply existsb_exists in X. destruct X as (k & Hk & I). unfold isinst in I. cbn [class_of] in I.
    apply existsb_exists in I. destruct I as (m & Hm & Em). apply Nat.eqb_eq in Em. subst m.
    exact (V u k K Hk Hm).
  - destruct A as (c & Hc & A). apply F_union with c; [exact Hc|]. destruct A as [A|(dh & _ & _ & N)]; [exact A|].
    exfalso. apply N. unfold declared. rewrite (V c Hc). reflexivity.
Qed.

Lemma construct_loop_checks ct kw : forall attrs fs, construct_loop ct attrs kw = Ok fs ->
  List.length fs = List.length attrs /\
  forall i name sr, nth_error attrs i = Some (name, sr) -> exists v, nth_error fs i = Some v /\ assoc name kw = Some v /\ check ct sr v = Ok tt.
Proof.
  induction attrs as [|[n s] attrs IH]; intros fs H; cbn [construct_loop] in H.
  - inversion H; subst. split; [reflexivity|]. intros [|i] name sr E; discriminate E.
  - destruct (assoc n kw) as [v|] eqn:A; cbn [bind] in H; [|discriminate]. destruct (check ct s v) as [[]|] eqn:C; cbn [bind] in H; [|discriminate].
    destruct (match s with SerProof _ => _ | _ => _ end) as [[]|]; cbn [bind] in H; [|discriminate].
    destruct (construct_loop ct attrs kw) as [r|]; cbn [bind] in H; [|discriminate]. inversion H; subst.
    destruct (IH _ eq_refl) as (L & K). split; [cbn [List.length]; congruence|].
    intros [|i] name sr E; cbn [nth_error] in *; [inversion E; subst; eauto|]. apply K. exact E.
Qed.

Lemma fits_all_nth ct Q : forall attrs fs, List.length fs = List.length attrs ->
  (forall i name sr, nth_error attrs i = Some (name, sr) -> exists v, nth_error fs i = Some v /\ fits ct Q sr v) -> fits_all ct Q attrs fs.
Proof.
  induction attrs as [|[n s] attrs IH]; intros [|f fs] L H; try discriminate L; constructor.
  - destruct (H 0 n s eq_refl) as (v & E & F). cbn in E. inversion E; subst. exact F.
  - apply IH; [cbn in L; congruence|]. intros i name sr E. apply (H (S i) name sr E).
Qed.

Lemma de_arrived ct : wf_table ct -> variant_table ct -> forall fuel c s v r, de_proof ct fuel c s = Ok (v, r) -> arrived ct c v.
Proof.
  intros W V. induction fuel as [|fuel IH]; intros c s v r H; [discriminate H|]. rewrite de_proof_S in H. bind_ok H. destruct b.
  - bind_ok H. inversion H; subst. apply fd_read_iff in E0. destruct E0 as (_ & L).
    assert (List.length b = 32) by (unfold blen in L; lia). destruct (declared_dec ct c); [left; constructor; assumption|right; eauto].
  - destruct (match c_kind (ct c) with Plain => _ | Variant _ => _ end) as [[uc s1]|] eqn:U; cbn [bind] in H; [|discriminate].
    assert (D : declared ct c uc).
    { unfold declared. destruct (c_kind (ct c)); [inversion U; reflexivity|]. bind_ok U.
      destruct (if (_ <? _)%N then _ else _) eqn:X; [|discriminate]. inversion U; subst. destruct (_ <? _)%N; [|discriminate]. eapply nth_error_In, X. }
    destruct (de_fields ct fuel (c_attrs (ct uc)) s1) as [[kw s2]|] eqn:F; cbn [bind] in H; [|discriminate].
    destruct (construct ct uc kw) as [p|] eqn:C; cbn [bind] in H; [|discriminate]. inversion H; subst p r. clear H.
    assert (K : forall attrs s kw r, de_fields ct fuel attrs s = Ok (kw, r) ->
      exists fs, kw = combine (map fst attrs) fs /\ List.length fs = List.length attrs /\
        forall i name sr, nth_error attrs i = Some (name, sr) -> exists x, nth_error fs i = Some x /\ arrived_attr ct sr x).
    { clear - IH. induction attrs as [|[n sr] attrs IHa]; intros s kw r H; cbn [de_fields] in H.
      - inversion H; subst. exists []. split; [reflexivity|]. split; [reflexivity|]. intros [|i] name sr E; discriminate E.
      - bind_ok H. bind_ok H. inversion H; subst. destruct (IHa _ _ _ E0) as (fs & -> & L & A). exists (v :: fs).
        split; [reflexivity|]. split; [cbn; congruence|]. intros [|i] name sr0 X; cbn [nth_error] in *; [|exact (A i name sr0 X)].
        inversion X; subst. exists v. split; [reflexivity|]. clear - E IH. destruct sr0; cbn [de_val arrived_attr] in *; try (eapply de_leaf_fits, E).
        + eapply IH, E.
        + bind_ok E. destruct (if (_ <? _)%N then _ else _) as [m|] eqn:X; [|discriminate]. exists m.
          split; [destruct (_ <? _)%N; [|discriminate]; eapply nth_error_In, X|]. eapply IH, E. }
    destruct (K _ _ _ _ F) as (fs & -> & L & A). clear K F. left. unfold construct in C.
    destruct (construct_loop ct (c_attrs (ct uc)) _) as [fs'|] eqn:CL; cbn [bind] in C; [|discriminate]. inversion C; subst v. clear C.
    apply F_full; [exact D|]. destruct (construct_loop_checks _ _ _ _ CL) as (L' & Ck). apply fits_all_nth; [exact L'|].
    intros i name sr Hi. destruct (Ck i name sr Hi) as (x & Hx & As & Cx). exists x. split; [exact Hx|].
    destruct (A i name sr Hi) as (y & Hy & Ay).
    rewrite (assoc_combine _ fs (wf_names ct W uc) ltac:(rewrite map_length; congruence) i name y) in As;
      [|rewrite nth_error_map, Hi; reflexivity|exact Hy]. inversion As; subst y.
    eapply arrived_checked; [exact (V _ _ _ (nth_error_In _ _ Hi))|exact Ay|exact Cx].
Qed.

Lemma deserialize_arrived ct c buf v : wf_table ct -> variant_table ct -> deserialize ct c buf = Ok v -> arrived ct c v.
Proof.
  unfold deserialize, de_class. intros W V H. bind_ok H. inversion H; subst. eapply de_arrived; eassumption.
Qed.

Lemma deserialize_fits ct c buf v : wf_table ct -> variant_table ct -> c_kind (ct c) = Plain -> deserialize ct c buf = Ok v ->
  fits ct any_bits (SerProof c) v.
Proof.
  intros W V K H. destruct (deserialize_arrived ct c buf v W V H) as [F|(dh & _ & _ & N)]; [exact F|].
  exfalso. apply N. unfold declared. rewrite K. reflexivity.
Qed.
