(** Proofs about bytes that are no proof: what reading them raises, and how many calls it takes. *)
From Verif Require Import Base Bits_Model Bits_Spec Serialize_Model Serialize_Spec Tx_Model Tx_Spec Tx_Proofs Proof_Model Proof_Spec Proof_Proofs ProofArrive_Proofs
  Grammar_Spec Grammar_Proofs Net_Proofs NetErr_Proofs Chain_Model Chain_Spec CloseValid_Proofs ReadErr_Spec ReadErr_Model.
From Coq Require Import ZifyBool ZifyNat ZifyN.
Local Open Scope list_scope.

(** ** Leaves *)

Lemma fd_read_err n s e : fd_read n s = Err e -> e = TruncationError.
Proof. unfold fd_read. destruct (_ <? _)%N; congruence. Qed.
Lemma varuint_err s e : read_varuint s = Err e -> e = TruncationError.
Proof.
  unfold read_varuint. assert (K : forall v k, read_varuint_loop v k s = Err e -> e = TruncationError); [|apply K]. induction s as [|b s IH]; intros v k; cbn [read_varuint_loop]; [congruence|]. destruct (_ =? _)%N; [discriminate|apply IH].
Qed.
Lemma read_bool_err s e : read_bool s = Err e -> e = TruncationError \/ e = DeserializationError.
Proof.
  unfold read_bool. destruct (fd_read 1 s) as [[l r]|x] eqn:E; cbn [bind].
  - destruct l as [|b l]; [|destruct (_ =? _)%N; [discriminate|]; destruct (_ =? _)%N; [discriminate|]; intros H; injection H as <-; auto].
    unfold fd_read in E. destruct (_ <? _)%N eqn:L; [discriminate|]. injection E as E _. destruct s; [discriminate L|discriminate E].
  - intros H. injection H as <-. apply fd_read_err in E. auto.
Qed.
Lemma prim_err p s e : prim_de p s = Err e -> e = TruncationError \/ e = DeserializationError.
Proof.
  destruct p; cbn [prim_de].
  - destruct (read_bool s) as [[b r]|x] eqn:E; cbn [bind]; [discriminate|]. intros H. injection H as <-. exact (read_bool_err _ _ E).
  - destruct (fd_read n s) as [[b r]|x] eqn:E; cbn [bind]; [discriminate|]. intros H. injection H as <-. apply fd_read_err in E. auto.
  - destruct (read_varuint s) as [[l r]|x] eqn:E; cbn [bind]; [|intros H; injection H as <-; apply varuint_err in E; auto].
    destruct (_ && _)%bool; [|intros H; injection H as <-; auto]. destruct (fd_read l r) as [[b r']|x] eqn:E'; cbn [bind]; [discriminate|]. intros H. injection H as <-. apply fd_read_err in E'. auto.
  - destruct (read_varuint s) as [[l r]|x] eqn:E; cbn [bind]; [|intros H; injection H as <-; apply varuint_err in E; auto].
    destruct (_ && _)%bool; [discriminate|intros H; injection H as <-; auto].
Qed.

Lemma prefixed_err {A} (f : bytes -> result (A * bytes)) s e : de_prefixed f s = Err e ->
  e = TruncationError \/ e = DeserializationExtraDataError \/ exists b, f b = Err e.
Proof.
  unfold de_prefixed. destruct (read_varuint s) as [[l r]|x] eqn:E; cbn [bind]; [|intros H; injection H as <-; apply varuint_err in E; auto].
  destruct (fd_read l r) as [[b r']|x] eqn:E'; cbn [bind]; [|intros H; injection H as <-; apply fd_read_err in E'; auto].
  unfold bdeserialize. destruct (f b) as [[a p]|x] eqn:F; cbn [bind]; [|intros H; injection H as <-; eauto].
  destruct p; cbn [bind]; [discriminate|]. intros H. injection H as <-. auto.
Qed.

Lemma outpoint_err s e : outpoint_de s = Err e -> e = SerializationTruncationError.
Proof.
  intros H. unfold outpoint_de in H. assert (K : forall n t x, (n <= 32)%N -> ser_read n t = Err x -> x = SerializationTruncationError).
  { intros n t x L. unfold ser_read. destruct (MAX_SIZE <? n)%N eqn:M; [unfold MAX_SIZE in M; lia|]. destruct (blen t <? n)%N; [|discriminate]. intros Q. injection Q as <-. reflexivity. }
  destruct (ser_read 32 s) as [[h r]|x] eqn:E; cbn [bind] in H; [|injection H as <-; apply (K _ _ _ (N.le_refl _) E)].
  destruct (ser_read 4 r) as [[n r']|x] eqn:E'; cbn [bind] in H; [|injection H as <-; apply (K 4%N _ _ ltac:(lia) E')].
  apply read_fixed in E, E'; [|lia|lia]. destruct E as [_ L], E' as [_ L0]. unfold outpoint_new, blen in H. rewrite L in H. cbn in H. pose proof (le_dec_4 _ L0). destruct (_ && _)%bool eqn:Q in H; [discriminate|lia].
Qed.

Lemma bits_err s e : bits_de s = Err e -> e = TruncationError \/ e = IndexError \/ e = AssertionError.
Proof.
  unfold bits_de. destruct (read_varuint s) as [[n r]|x] eqn:E; cbn [bind]; [|intros H; injection H as <-; apply varuint_err in E; auto].
  set (k := (n / 8 + (if (n mod 8 =? 0)%N then 0 else 1))%N). destruct (fd_read k r) as [[buf r']|x] eqn:E'; cbn [bind]; [|intros H; injection H as <-; apply fd_read_err in E'; auto].
  assert (L : Z.of_nat (List.length buf) = Z.of_N k).
  { unfold fd_read in E'. destruct (blen r <? k)%N eqn:Q; [discriminate|]. injection E' as <- _. rewrite firstn_length. unfold blen in Q. lia. }
  unfold bits_from_bytes. destruct (Z.of_N n <? 0)%Z eqn:Q1; [lia|]. destruct (Z.of_nat (List.length buf) * 8 <? Z.of_N n)%Z eqn:Q2.
  { exfalso. pose proof (N.div_mod n 8 ltac:(lia)). pose proof (N.mod_lt n 8 ltac:(lia)). subst k. destruct (n mod 8 =? 0)%N eqn:Q3; lia. }
  cbn [bind]. destruct (tail_bits _) as [t|x] eqn:T; cbn [bind].
  - destruct buf as [|b buf]; cbn [bind]; [intros H; injection H as <-; auto|]. unfold assert. destruct (t =? bN (last (b :: buf) x00))%N; cbn [bind]; [intros H; discriminate H|]. intros H. injection H as <-. auto.
  - intros H. injection H as <-. unfold tail_bits in T. destruct (_ =? 0)%nat; [discriminate|]. unfold byte_at in T. destruct (nth_error _ _); cbn [bind] in T; [discriminate|]. injection T as <-. auto.
Qed.

Lemma leaf_err ct c k name sr s e : declared ct c k -> In (name, sr) (c_attrs (ct k)) -> de_leaf sr s = Err e -> (forall c', sr <> SerProof c') -> (forall cs, sr <> SerUnion cs) -> refusal ct c e.
Proof.
  intros D I H N1 N2. destruct sr; cbn [de_leaf] in H.
  - destruct (prim_de s0 s) as [[v r]|x] eqn:E; cbn [bind] in H; [discriminate|]. injection H as <-. destruct (prim_err _ _ _ E) as [->| ->]; constructor.
  - destruct (bits_de s) as [[b r]|x] eqn:E; cbn [bind] in H.
    + destruct (bits_de_spell _ _ _ E) as (_ & _ & _ & B & _). rewrite (bits_of_iter b B) in H. discriminate H.
    + injection H as <-. destruct (bits_err _ _ E) as [->|[->| ->]]; [constructor|eapply by_attribute; [exact D|exact I|constructor]..].
  - destruct (de_prefixed tx_de s) as [[t r]|x] eqn:E; cbn [bind] in H; [discriminate|]. injection H as <-. destruct (prefixed_err _ _ _ E) as [->|[->|(b & F)]]; [constructor|eapply by_attribute; [exact D|exact I|constructor]|].
    destruct (tx_strict _ _ F) as [->| ->]; (eapply by_attribute; [exact D|exact I|constructor]).
  - destruct (de_prefixed outpoint_de s) as [[t r]|x] eqn:E; cbn [bind] in H; [discriminate|]. injection H as <-. destruct (prefixed_err _ _ _ E) as [->|[->|(b & F)]]; [constructor|eapply by_attribute; [exact D|exact I|constructor]|].
    apply outpoint_err in F as ->. eapply by_attribute; [exact D|exact I|constructor].
  - exfalso. eapply N1. reflexivity.
  - exfalso. eapply N2. reflexivity.
Qed.

(** ** Constructing what was read *)

Lemma de_fields_read ct fuel : forall attrs s kw r, de_fields ct fuel attrs s = Ok (kw, r) ->
  Forall2 (fun a nv => fst a = fst nv /\ exists s r, de_val ct fuel (snd a) s = Ok (snd nv, r)) attrs kw.
Proof.
  induction attrs as [|[n sr] attrs IH]; intros s kw r H; cbn [de_fields] in H; [injection H as <- _; constructor|].
  destruct (de_val ct fuel sr s) as [[v s1]|] eqn:E; cbn [bind] in H; [|discriminate]. destruct (de_fields ct fuel attrs s1) as [[l s2]|] eqn:F; cbn [bind] in H; [|discriminate].
  injection H as <- _. constructor; [cbn [fst snd]; eauto|]. exact (IH _ _ _ F).
Qed.

Lemma assoc_read {R : string * ser -> string * val -> Prop} : forall attrs kw, Forall2 (fun a nv => fst a = fst nv /\ R a nv) attrs kw -> NoDup (map fst attrs) ->
  forall name sr, In (name, sr) attrs -> exists v, assoc name kw = Some v /\ R (name, sr) (name, v).
Proof.
  induction 1 as [|[n sr0] [n' v0] attrs kw (E & HR) F IH]; intros ND name sr I; [destruct I|]. cbn [fst] in E. subst n'. cbn [map fst] in ND. inversion ND as [|? ? N1 N2]; subst.
  cbn [assoc]. destruct I as [I|I].
  - injection I as -> ->. rewrite String.eqb_refl. eauto.
  - destruct (String.eqb n name) eqn:Q; [|exact (IH N2 name sr I)]. apply String.eqb_eq in Q. subst n. exfalso. apply N1. apply in_map_iff. exists (name, sr). auto.
Qed.

Lemma de_proof_class ct fuel c s v r : de_proof ct fuel c s = Ok (v, r) -> is_proof v = true /\ exists k, class_of v = Some k /\ (k = c \/ declared ct c k).
Proof.
  destruct fuel as [|fuel]; [discriminate|]. rewrite de_proof_S. destruct (read_bool s) as [[b s1]|]; cbn [bind]; [|discriminate]. destruct b.
  - destruct (fd_read 32 s1) as [[dh s2]|]; cbn [bind]; [|discriminate]. intros H. injection H as <- _. split; [reflexivity|]. exists c. auto.
  - destruct (match c_kind (ct c) with Plain => _ | Variant u => _ end) as [[uc s2]|] eqn:E; cbn [bind]; [|discriminate].
    destruct (de_fields _ _ _ _) as [[kw s3]|]; cbn [bind]; [|discriminate]. unfold construct. destruct (construct_loop _ _ _); cbn [bind]; [|discriminate]. intros H. injection H as <- _.
    split; [reflexivity|]. exists uc. split; [reflexivity|]. right. unfold declared. destruct (c_kind (ct c)) as [|u]; [congruence|].
    destruct (read_varuint s1) as [[i s4]|]; cbn [bind] in E; [|discriminate]. destruct (_ <? _)%N; [|discriminate]. destruct (nth_error u (N.to_nat i)) eqn:Q; [|discriminate]. injection E as <- _. eapply nth_error_In, Q.
Qed.

Lemma isinst_sub ct v k c : class_of v = Some k -> subclass ct k c -> isinst ct v c = true.
Proof. intros E S. unfold isinst. rewrite E. apply existsb_exists. exists c. split; [exact S|]. apply Nat.eqb_refl. Qed.

Lemma check_read ct fuel c name sr s v r e : wf_table ct -> In (name, sr) (c_attrs (ct c)) -> de_val ct fuel sr s = Ok (v, r) -> check ct sr v = Err e -> attr_refusal ct sr e.
Proof.
  intros W I D H. destruct sr as [p| | | |c'|cs]; cbn [de_val check] in D, H.
  - apply (de_leaf_fits ct) in D. inversion D; subst. match goal with K : prim_ok _ _ |- _ => apply prim_ok_check in K; cbn [to_py] in H; congruence end.
  - discriminate.
  - apply (de_leaf_fits ct) in D. inversion D; subst. discriminate.
  - apply (de_leaf_fits ct) in D. inversion D; subst. discriminate.
  - destruct (c_kind (ct c')) as [|u] eqn:K; [discriminate|]. destruct (existsb _ _) eqn:Q; [discriminate|]. injection H as <-. eapply variant_hidden, K.
  - destruct (existsb _ _) eqn:Q; [discriminate|]. exfalso. destruct (read_varuint s) as [[i s1]|]; cbn [bind] in D; [|discriminate]. destruct (i <? N.of_nat (List.length cs))%N; [|discriminate]. destruct (nth_error cs (N.to_nat i)) as [m|] eqn:Nm; [|discriminate].
    destruct (de_proof_class _ _ _ _ _ _ D) as (_ & k & Ek & Hk).
    assert (S : subclass ct k m). { destruct Hk as [->|Hk]; [apply (wf_self ct W)|]. exact (proj1 (wf_unions ct W c name cs _ m k I Nm Hk)). }
    enough (existsb (isinst ct v) cs = true) by congruence. apply existsb_exists. exists m. split; [eapply nth_error_In, Nm|]. eapply isinst_sub; eassumption.
Qed.

Lemma construct_read ct fuel c k s kw r e : wf_table ct -> declared ct c k -> de_fields ct fuel (c_attrs (ct k)) s = Ok (kw, r) -> construct ct k kw = Err e -> refusal ct c e.
Proof.
  intros W D F H. apply de_fields_read in F. pose proof (assoc_read _ _ F (wf_names ct W k)) as A. unfold construct in H.
  assert (G : forall attrs, incl attrs (c_attrs (ct k)) -> construct_loop ct attrs kw = Err e -> refusal ct c e).
  { induction attrs as [|[n sr] attrs IH]; intros Hi Hc; [discriminate|]. cbn [construct_loop] in Hc.
    destruct (A n sr (Hi _ (or_introl eq_refl))) as (v & Ev & t & t' & Dv). cbn [snd] in Dv. rewrite Ev in Hc. cbn [bind] in Hc.
    destruct (check ct sr v) as [[]|x] eqn:Ck; cbn [bind] in Hc.
    - destruct (match sr with SerProof _ => if is_proof v then Ok tt else Err AttributeError | _ => Ok tt end) as [[]|x] eqn:P; cbn [bind] in Hc.
      + destruct (construct_loop ct attrs kw) as [fs|x] eqn:L; cbn [bind] in Hc; [discriminate|]. injection Hc as ->. apply IH; [|reflexivity]. intros a Ha. apply Hi. right. exact Ha.
      + exfalso. destruct sr; try discriminate P. cbn [de_val] in Dv. rewrite (proj1 (de_proof_class _ _ _ _ _ _ Dv)) in P. discriminate P.
    - injection Hc as ->. eapply by_attribute; [exact D|apply Hi; left; reflexivity|]. eapply check_read; [exact W|apply Hi; left; reflexivity|exact Dv|exact Ck]. }
  destruct (construct_loop ct (c_attrs (ct k)) kw) as [fs|x] eqn:L; cbn [bind] in H; [discriminate|]. injection H as ->. apply (G _ (incl_refl _) L).
Qed.

(** ** C174 *)

Lemma de_refusal ct : wf_table ct -> forall fuel c s e, List.length s < fuel -> de_proof ct fuel c s = Err e -> refusal ct c e.
Proof.
  intros W. induction fuel as [|fuel IH]; intros c s e L H; [lia|]. rewrite de_proof_S in H.
  destruct (read_bool s) as [[b s1]|x] eqn:E; cbn [bind] in H; [|injection H as ->; destruct (read_bool_err _ _ E) as [->| ->]; constructor]. apply read_bool_lt in E. destruct b.
  - destruct (fd_read 32 s1) as [[dh s2]|x] eqn:F; cbn [bind] in H; [discriminate|]. injection H as ->. apply fd_read_err in F as ->. constructor.
  - destruct (match c_kind (ct c) with Plain => _ | Variant u => _ end) as [[uc s2]|x] eqn:V; cbn [bind] in H.
    + assert (D : declared ct c uc /\ List.length s2 <= List.length s1).
      { unfold declared. destruct (c_kind (ct c)) as [|u]; [injection V as <- <-; auto|]. destruct (read_varuint s1) as [[i s4]|] eqn:R; cbn [bind] in V; [|discriminate]. apply read_varuint_lt in R.
        destruct (_ <? _)%N; [|discriminate]. destruct (nth_error u (N.to_nat i)) eqn:Q; [|discriminate]. injection V as <- <-. split; [eapply nth_error_In, Q|lia]. }
      destruct D as (D & L2). destruct (de_fields ct fuel (c_attrs (ct uc)) s2) as [[kw s3]|x] eqn:F; cbn [bind] in H.
      * destruct (construct ct uc kw) as [p|x] eqn:K; cbn [bind] in H; [discriminate|]. injection H as ->. eapply construct_read; eassumption.
      * injection H as ->. assert (G : forall attrs t, incl attrs (c_attrs (ct uc)) -> List.length t < fuel -> de_fields ct fuel attrs t = Err e -> refusal ct c e).
        { clear F L2 V. induction attrs as [|[n sr] attrs IHa]; intros t Hi Lt F; [discriminate|]. cbn [de_fields] in F. destruct (de_val ct fuel sr t) as [[v t1]|x] eqn:Dv; cbn [bind] in F.
          - apply de_val_le in Dv. destruct (de_fields ct fuel attrs t1) as [[l t2]|x] eqn:Fl; cbn [bind] in F; [discriminate|]. injection F as ->. apply (IHa t1); [|lia|exact Fl]. intros a Ha. apply Hi. right. exact Ha.
          - injection F as ->. assert (In (n, sr) (c_attrs (ct uc))) as I by (apply Hi; left; reflexivity).
            destruct sr as [p| | | |c'|cs]; try (eapply leaf_err; [exact D|exact I|exact Dv|discriminate|discriminate]).
            + cbn [de_val] in Dv. eapply by_attribute; [exact D|exact I|]. apply in_proof. exact (IH c' t e Lt Dv).
            + cbn [de_val] in Dv. destruct (read_varuint t) as [[i t1]|x] eqn:R; cbn [bind] in Dv; [|injection Dv as ->; apply varuint_err in R as ->; constructor]. apply read_varuint_lt in R.
              eapply by_attribute; [exact D|exact I|]. destruct (_ <? _)%N; [|injection Dv as <-; constructor]. destruct (nth_error cs (N.to_nat i)) as [m|] eqn:Q; [|injection Dv as <-; constructor].
              eapply in_member; [eapply nth_error_In, Q|]. apply (IH m t1 e); [lia|exact Dv]. }
        apply (G _ s2 (incl_refl _)); [lia|exact F].
    + injection H as ->. destruct (c_kind (ct c)) as [|u] eqn:K; [discriminate|]. destruct (read_varuint s1) as [[i s4]|x] eqn:R; cbn [bind] in V; [|injection V as ->; apply varuint_err in R as ->; constructor].
      assert (e = NameError) as -> by (destruct (_ <? _)%N; [destruct (nth_error u (N.to_nat i)); congruence|congruence]). eapply no_such_variant, K.
Qed.

Lemma deserialize_refusal ct c s e : wf_table ct -> deserialize ct c s = Err e -> refusal ct c e.
Proof.
  intros W H. unfold deserialize, de_class in H. destruct (de_proof ct (S (List.length s)) c s) as [[p r]|x] eqn:E; cbn [bind] in H; [discriminate|]. injection H as ->.
  apply (de_refusal ct W (S (List.length s)) c s e); [lia|exact E].
Qed.

Scheme refusal_mut := Induction for refusal Sort Prop with attr_refusal_mut := Induction for attr_refusal Sort Prop.

Lemma simple_refusal ct S : simple_classes ct S -> forall c e, refusal ct c e -> S c -> e = DeserializationError \/ e = TruncationError.
Proof.
  intros SC. apply (refusal_mut ct (fun c e _ => S c -> e = DeserializationError \/ e = TruncationError)
    (fun sr e _ => (exists p, sr = SerPrim p) \/ (exists c', sr = SerProof c' /\ S c') -> e = DeserializationError \/ e = TruncationError)).
  - auto.
  - auto.
  - intros c u K H. destruct (SC c H) as (Q & _). congruence.
  - intros c k name sr e D I _ IH H. destruct (SC c H) as (Q & A). unfold declared in D. rewrite Q in D. subst k. exact (IH (A _ _ I)).
  - intros [(p & H)|(c' & H & _)]; discriminate H.
  - intros [(p & H)|(c' & H & _)]; discriminate H.
  - intros [(p & H)|(c' & H & _)]; discriminate H.
  - intros [(p & H)|(c' & H & _)]; discriminate H.
  - intros [(p & H)|(c' & H & _)]; discriminate H.
  - intros [(p & H)|(c' & H & _)]; discriminate H.
  - intros [(p & H)|(c' & H & _)]; discriminate H.
  - intros cs [(p & H)|(c' & H & _)]; discriminate H.
  - intros cs c e _ _ _ [(p & H)|(c' & H & _)]; discriminate H.
  - intros c e _ IH [(p & H)|(c' & H & Sc)]; [discriminate H|]. injection H as <-. auto.
  - intros c u K [(p & H)|(c' & H & Sc)]; [discriminate H|]. injection H as <-. destruct (SC c Sc) as (Q & _). congruence.
Qed.

(** ** C175 *)

Fixpoint cde_fields (ct : ctable) (fuel : nat) (attrs : list (string * ser)) (s : bytes) : result (list (string * val) * bytes) * nat :=
  match attrs with
  | [] => (Ok ([], s), 0)
  | (name, sr) :: attrs' =>
    let '(r, n) := match sr with
                   | SerProof c' => cde_proof ct fuel c' s
                   | SerUnion cs =>
                     match read_varuint s with
                     | Err e => (Err e, 0)
                     | Ok (i, s) =>
                       match (if (i <? N.of_nat (List.length cs))%N then nth_error cs (N.to_nat i) else None) with
                       | Some c' => cde_proof ct fuel c' s
                       | None => (Err NameError, 0)
                       end
                     end
                   | _ => (de_leaf sr s, 0)
                   end in
    match r with
    | Err e => (Err e, n)
    | Ok (v, s) => let '(r', m) := cde_fields ct fuel attrs' s in (do (l, s) <- r'; Ok ((name, v) :: l, s), n + m)
    end
  end.

(** What a counted reader that agrees with [r] on [s] may have cost. *)
Definition cheap {A} (s : bytes) (r : result (A * bytes)) (p : result (A * bytes) * nat) (extra : nat) : Prop :=
  fst p = r /\ match r with Ok (_, t) => snd p + List.length t <= List.length s | Err _ => snd p <= extra + List.length s end.

Lemma cde_cheap ct : forall fuel c s, cheap s (de_proof ct fuel c s) (cde_proof ct fuel c s) 1.
Proof.
  induction fuel as [|fuel IH]; intros c s; [split; [reflexivity|cbn; lia]|]. rewrite de_proof_S.
  assert (G : forall attrs t, cheap t (de_fields ct fuel attrs t) (cde_fields ct fuel attrs t) 1).
  { induction attrs as [|[n sr] attrs IHa]; intros t; [split; [reflexivity|cbn; lia]|]. cbn [de_fields cde_fields].
    match goal with |- context [match sr with SerProof c' => cde_proof ct fuel c' t | _ => _ end] => set (X := match sr with SerProof c' => cde_proof ct fuel c' t | _ => _ end) end.
    assert (HX : cheap t (de_val ct fuel sr t) X 1).
    { subst X. destruct sr as [p| | | |c'|cs]; cbn [de_val];
        try (split; [reflexivity|]; match goal with |- context [de_leaf ?a t] => destruct (de_leaf a t) as [[v t1]|] eqn:E end; cbn [snd]; [apply de_leaf_le in E; lia|lia]).
      - exact (IH c' t).
      - destruct (read_varuint t) as [[i t1]|x] eqn:R; cbn [bind]; [|split; [reflexivity|cbn; lia]]. apply read_varuint_lt in R.
        destruct (if (_ <? _)%N then _ else _) as [m|]; [|split; [reflexivity|cbn; lia]].
        destruct (IH m t1) as (E1 & E2). split; [exact E1|]. destruct (de_proof ct fuel m t1) as [[v t2]|]; lia. }
    clearbody X. destruct HX as (H1 & H2). destruct X as [rx nx]. cbn [fst snd] in H1, H2. subst rx. destruct (de_val ct fuel sr t) as [[v t1]|x] eqn:Dv; cbn [bind].
    - destruct (IHa t1) as (F1 & F2). destruct (cde_fields ct fuel attrs t1) as [ry ny]. cbn [fst snd] in F1, F2. subst ry. split; [reflexivity|]. cbn [snd]. destruct (de_fields ct fuel attrs t1) as [[l t2]|]; cbn [bind]; lia.
    - split; [reflexivity|]. cbn [snd]. lia. }
  assert (EQ : cde_proof ct (S fuel) c s =
    match read_bool s with
    | Err e => (Err e, 1)
    | Ok (true, s) => (do (dh, s) <- fd_read 32 s; Ok (PHash c dh, s), 1)
    | Ok (false, s) =>
      match match c_kind (ct c) with
            | Plain => Ok (c, s)
            | Variant u =>
              do (i, s) <- read_varuint s;
              match (if (i <? N.of_nat (List.length u))%N then nth_error u (N.to_nat i) else None) with
              | Some uc => Ok (uc, s)
              | None => Err NameError
              end
            end with
      | Err e => (Err e, 1)
      | Ok (uc, s) => let '(r, n) := cde_fields ct fuel (c_attrs (ct uc)) s in (do (kw, s) <- r; do p <- construct ct uc kw; Ok (p, s), S n)
      end
    end).
  { cbn [cde_proof]. destruct (read_bool s) as [[[] s1]|x]; [reflexivity| |reflexivity]. destruct (match c_kind (ct c) with Plain => _ | Variant u => _ end) as [[uc s2]|x]; [|reflexivity].
    assert (E : forall attrs s,
      (fix go (attrs : list (string * ser)) (s : bytes) : result (list (string * val) * bytes) * nat :=
          match attrs with
          | [] => (Ok ([], s), 0)
          | (name, sr) :: attrs' =>
            let '(r, n) := match sr with
                           | SerProof c' => cde_proof ct fuel c' s
                           | SerUnion cs =>
                             match read_varuint s with
                             | Err e => (Err e, 0)
                             | Ok (i, s) =>
                               match (if (i <? N.of_nat (List.length cs))%N then nth_error cs (N.to_nat i) else None) with
                               | Some c' => cde_proof ct fuel c' s
                               | None => (Err NameError, 0)
                               end
                             end
                           | _ => (de_leaf sr s, 0)
                           end in
            match r with
            | Err e => (Err e, n)
            | Ok (v, s) => let '(r', m) := go attrs' s in (do (l, s) <- r'; Ok ((name, v) :: l, s), n + m)
            end
          end) attrs s = cde_fields ct fuel attrs s).
    { induction attrs as [|[n sr] attrs IHa]; intros t; [reflexivity|]. cbn [cde_fields].
      match goal with |- (let '(r, n) := ?X in _) = _ => destruct X as [[[v t1]|e] m] end; [rewrite IHa|]; reflexivity. }
    rewrite E. reflexivity. }
  rewrite EQ. clear EQ. destruct (read_bool s) as [[b s1]|x] eqn:E; cbn [bind]; [|split; [reflexivity|cbn; lia]]. apply read_bool_lt in E. destruct b.
  - split; [reflexivity|]. cbn [snd]. destruct (fd_read 32 s1) as [[dh s2]|] eqn:F; cbn [bind]; [apply fd_read_le in F; lia|lia].
  - match goal with |- context [bind ?V _] => assert (LV : match V with Ok (_, s2) => List.length s2 <= List.length s1 | Err _ => True end) end.
    { destruct (c_kind (ct c)) as [|u]; [lia|]. destruct (read_varuint s1) as [[i s4]|] eqn:R; cbn [bind]; [|exact I]. apply read_varuint_lt in R. destruct (if (_ <? _)%N then _ else _); [lia|exact I]. }
    destruct (match c_kind (ct c) with Plain => _ | Variant u => _ end) as [[uc s2]|x]; cbn [bind]; [|split; [reflexivity|cbn; lia]].
    destruct (G (c_attrs (ct uc)) s2) as (F1 & F2). destruct (cde_fields ct fuel (c_attrs (ct uc)) s2) as [ry ny]. cbn [fst snd] in F1, F2. subst ry. split; [reflexivity|]. cbn [snd].
    destruct (de_fields ct fuel (c_attrs (ct uc)) s2) as [[kw s3]|]; cbn [bind]; [|lia]. destruct (construct ct uc kw); cbn [bind]; lia.
Qed.

Lemma reading_is_cheap ct c s : fst (cdeserialize ct c s) = deserialize ct c s /\ snd (cdeserialize ct c s) <= 1 + List.length s.
Proof.
  unfold cdeserialize, deserialize, de_class. destruct (cde_cheap ct (S (List.length s)) c s) as (H1 & H2). destruct (cde_proof ct (S (List.length s)) c s) as [r n]. cbn [fst snd] in *. subst r.
  split; [reflexivity|]. destruct (de_proof ct (S (List.length s)) c s) as [[v t]|]; lia.
Qed.

(** ** Seals and witnesses *)

Definition allowed5 (e : exn) : Prop := In e [DeserializationError; TruncationError; SerializationError; SerializationTruncationError; DeserializationExtraDataError].

Lemma bitcoin_refusal ct (S : cid -> Prop) : (forall c, S c -> c_kind (ct c) = Plain /\ forall name sr, In (name, sr) (c_attrs (ct c)) ->
    (exists p, sr = SerPrim p) \/ sr = SerTx \/ sr = SerOut \/ (exists c', sr = SerProof c' /\ S c')) ->
  forall c e, refusal ct c e -> S c -> allowed5 e.
Proof.
  intros SC. apply (refusal_mut ct (fun c e _ => S c -> allowed5 e)
    (fun sr e _ => (exists p, sr = SerPrim p) \/ sr = SerTx \/ sr = SerOut \/ (exists c', sr = SerProof c' /\ S c') -> allowed5 e)); unfold allowed5; cbn [In]; try tauto.
  - intros c u K H. destruct (SC c H) as (Q & _). congruence.
  - intros c k name sr e D I _ IH H. destruct (SC c H) as (Q & A). unfold declared in D. rewrite Q in D. subst k. exact (IH (A _ _ I)).
  - intros [(p & H)|[H|[H|(c' & H & _)]]]; discriminate H.
  - intros [(p & H)|[H|[H|(c' & H & _)]]]; discriminate H.
  - intros cs [(p & H)|[H|[H|(c' & H & _)]]]; discriminate H.
  - intros cs c e _ _ _ [(p & H)|[H|[H|(c' & H & _)]]]; discriminate H.
  - intros c e _ IH [(p & H)|[H|[H|(c' & H & Sc)]]]; try discriminate H. injection H as <-. auto.
  - intros c u K [(p & H)|[H|[H|(c' & H & Sc)]]]; try discriminate H. injection H as <-. destruct (SC c Sc) as (Q & _). congruence.
Qed.

Lemma chain_refusal ct P : is_chain ct P -> forall c e, refusal ct c e ->
  In c [p_tx P; p_outpoint P; p_txin P; p_txout P; p_fseal P; p_fwit P; p_bseal P; p_bwit P] -> allowed5 e.
Proof.
  intros C. apply bitcoin_refusal. intros c Hc. destruct C as [(A1 & K1 & _) (A2 & K2 & _) (A3 & K3 & _) (A4 & K4 & _) (A5 & K5 & _) (A6 & K6 & _) (A7 & K7 & _) (A8 & K8 & _)].
  cbn [In] in Hc |- *. destruct Hc as [<-|[<-|[<-|[<-|[<-|[<-|[<-|[<-|[]]]]]]]]];
    (split; [assumption|]; intros name sr Hin; rewrite ?A1, ?A2, ?A3, ?A4, ?A5, ?A6, ?A7, ?A8 in Hin; cbn [In] in Hin;
     repeat (destruct Hin as [Hin|Hin]; [injection Hin as <- <-; first [left; eexists; reflexivity|right; left; reflexivity|right; right; left; reflexivity|right; right; right; eexists; (split; [reflexivity|tauto])]|]); destruct Hin).
Qed.

Lemma old_seal_refused ct P o b : wf_table ct -> is_chain ct P -> wf_outpoint o -> outpoint_ser o = Ok b -> deserialize ct (p_bseal P) ([x00; x24] ++ b) = Err TruncationError.
Proof.
  intros W C Wo E. assert (Lb : List.length b = 36).
  { unfold outpoint_ser in E. unfold assert in E. destruct (blen (o_hash o) =? 32)%N eqn:Q; cbn [bind] in E; [|discriminate]. destruct (pack_u 4 (o_n o)) as [n|] eqn:Pk; cbn [bind] in E; [|discriminate].
    injection E as <-. apply pack_u_len in Pk. rewrite app_length. unfold blen in Q. lia. }
  assert (F : forall Q, fits ct Q (SerProof (p_bseal P)) (Seal P o (repeat x00 16))).
  { intros Q. destruct (d_bseal ct P C) as (A & K & _). apply F_full; [unfold declared; rewrite K; reflexivity|]. rewrite A. repeat constructor; try assumption; apply Wo. }
  destruct (proof_roundtrip ct (p_bseal P) (Seal P o (repeat x00 16)) W (F _)) as (enc & Ee & _ & _ & T).
  assert (enc = ([x00; x24] ++ b) ++ repeat x00 16).
  { unfold Seal in Ee. rewrite ser_proof_full in Ee. unfold ser_variant in Ee. cbn [class_of] in Ee. destruct (d_bseal ct P C) as (A & K & _). rewrite K, A in Ee.
    cbn [bind ser_fields ser_val ser_leaf] in Ee. unfold ser_prefixed in Ee. rewrite E in Ee. cbn [bind] in Ee. unfold blen in Ee. rewrite Lb in Ee. cbn in Ee. injection Ee as <-. reflexivity. }
  unfold deserialize. rewrite (T (F _) _ _ H); [reflexivity|discriminate].
Qed.
