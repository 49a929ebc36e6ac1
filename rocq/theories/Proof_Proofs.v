(** Proofs about Proof_Model.v, part 1: serialization. *)
From Verif Require Import Base Bits_Model Bits_Spec Bits_Proofs Sha256 Serialize_Model Serialize_Spec Serialize_Proofs
  Tx_Model Tx_Spec Tx_Proofs Proof_Model Proof_Spec.
From Coq Require Import ZifyBool ZifyNat ZifyN.
Ltac Zify.zify_post_hook ::= Z.div_mod_to_equations.

(** ** Induction principles *)

Definition on_some {A} (P : A -> Prop) (s : option A) : Prop := match s with Some x => P x | None => True end.

Section ValInd.
  Variable P : val -> Prop.
  Hypothesis Hprim : forall v, P (VPrim v).
  Hypothesis Hbits : forall l, P (VBits l).
  Hypothesis Htx : forall t, P (VTx t).
  Hypothesis Hout : forall o, P (VOut o).
  Hypothesis Hfull : forall c fs, Forall P fs -> P (PFull c fs).
  Hypothesis Hhash : forall c dh, P (PHash c dh).
  Hypothesis Hview : forall c o st, P o -> Forall (on_some P) st -> P (PView c o st).
  Fixpoint val_ind' (v : val) : P v :=
    match v with
    | VPrim v => Hprim v | VBits l => Hbits l | VTx t => Htx t | VOut o => Hout o
    | PFull c fs => Hfull c fs ((fix go fs : Forall P fs :=
        match fs with [] => Forall_nil _ | f :: fs' => Forall_cons f (val_ind' f) (go fs') end) fs)
    | PHash c dh => Hhash c dh
    | PView c o st => Hview c o st (val_ind' o) ((fix go st : Forall (on_some P) st :=
        match st with
        | [] => Forall_nil _
        | s :: st' => Forall_cons s (match s return on_some P s with Some x => val_ind' x | None => I end) (go st')
        end) st)
    end.
End ValInd.

Scheme fits_mind := Induction for fits Sort Prop
  with fits_all_mind := Induction for fits_all Sort Prop.
Combined Scheme fits_both from fits_mind, fits_all_mind.

(** ** The loops over attributes, named *)

Fixpoint hash_fields (ct : ctable) (attrs : list (string * ser)) (fs : list val) : result bytes :=
  match attrs, fs with
  | [], [] => Ok []
  | (_, sr) :: attrs', f :: fs' =>
    do x <- match sr with SerProof _ | SerUnion _ => phash ct f | _ => ser_leaf sr f end;
    do r <- hash_fields ct attrs' fs'; Ok (x ++ r)
  | _, _ => Err AttributeError
  end.

Fixpoint ser_fields (ct : ctable) (attrs : list (string * ser)) (fs : list val) : result bytes :=
  match attrs, fs with
  | [], [] => Ok []
  | (_, sr) :: attrs', f :: fs' => do x <- ser_val ct sr f; do r <- ser_fields ct attrs' fs'; Ok (x ++ r)
  | _, _ => Err AttributeError
  end.

Fixpoint de_fields (ct : ctable) (fuel : nat) (attrs : list (string * ser)) (s : bytes) : result (list (string * val) * bytes) :=
  match attrs with
  | [] => Ok ([], s)
  | (name, sr) :: attrs' =>
    do (v, s) <- de_val ct fuel sr s;
    do (r, s) <- de_fields ct fuel attrs' s; Ok ((name, v) :: r, s)
  end.

Lemma hashes_full ct c fs : hashes ct (PFull c fs) =
  let dh := do m <- hash_fields ct (c_attrs (ct c)) fs; Ok (sha256 m) in
  (dh, match c_hash (ct c) with
       | HTx => match fs with [VTx t] => do h <- tx_GetHash t; Ok (xor_pad h) | _ => Err AttributeError end
       | HTag _ => tagged ct c dh end).
Proof.
  cbn [hashes].
  assert (E : forall attrs fs,
    (fix go (attrs : list (string * ser)) (fs : list val) {struct fs} : result bytes :=
                 match attrs, fs with
                 | [], [] => Ok []
                 | (_, sr) :: attrs', f :: fs' =>
                   do x <- match sr with
                           | SerProof _ | SerUnion _ => snd (hashes ct f)
                           | _ => ser_leaf sr f
                           end;
                   do r <- go attrs' fs'; Ok (x ++ r)
                 | _, _ => Err AttributeError
                 end) attrs fs = hash_fields ct attrs fs).
  { intros attrs l. revert attrs. induction l as [|f l IH]; intros [|[n sr] attrs]; try reflexivity.
    cbn [hash_fields]. rewrite <- IH. reflexivity. }
  rewrite E. reflexivity.
Qed.

Lemma ser_proof_full ct c fs : ser_proof ct (PFull c fs) =
  do ix <- ser_variant ct (PFull c fs); do body <- ser_fields ct (c_attrs (ct c)) fs; Ok (x00 :: ix ++ body).
Proof.
  cbn [ser_proof].
  assert (E : forall attrs fs,
     (fix go (attrs : list (string * ser)) (fs : list val) {struct fs} : result bytes :=
                  match attrs, fs with
                  | [], [] => Ok []
                  | (_, sr) :: attrs', f :: fs' =>
                    do x <- match sr with
                            | SerProof _ => ser_proof ct f
                            | SerUnion cs => ser_union ct cs f (ser_proof ct f)
                            | _ => ser_leaf sr f
                            end;
                    do r <- go attrs' fs'; Ok (x ++ r)
                  | _, _ => Err AttributeError
                  end) attrs fs = ser_fields ct attrs fs).
  { intros attrs l. revert attrs. induction l as [|f l IH]; intros [|[n sr] attrs]; try reflexivity.
    cbn [ser_fields]. rewrite <- IH. reflexivity. }
  rewrite E. reflexivity.
Qed.

Lemma de_proof_S ct fuel c s : de_proof ct (S fuel) c s =
  do (fully_pruned, s) <- read_bool s;
  if fully_pruned : bool then do (dh, s) <- fd_read 32 s; Ok (PHash c dh, s)
  else
    do (uc, s) <- match c_kind (ct c) with
                  | Plain => Ok (c, s)
                  | Variant u =>
                    do (i, s) <- read_varuint s;
                    match (if (i <? N.of_nat (List.length u))%N then nth_error u (N.to_nat i) else None) with
                    | Some uc => Ok (uc, s)
                    | None => Err NameError
                    end
                  end;
    do (kw, s) <- de_fields ct fuel (c_attrs (ct uc)) s;
    do p <- construct ct uc kw; Ok (p, s).
Proof.
  cbn [de_proof].
  assert (E : forall attrs s,
     (fix go (attrs : list (string * ser)) (s : bytes) : result (list (string * val) * bytes) :=
                       match attrs with
                       | [] => Ok ([], s)
                       | (name, sr) :: attrs' =>
                         do (v, s) <- match sr with
                                      | SerProof c' => de_proof ct fuel c' s
                                      | SerUnion cs =>
                                        do (i, s) <- read_varuint s;
                                        match (if (i <? N.of_nat (List.length cs))%N then nth_error cs (N.to_nat i) else None) with
                                        | Some c' => de_proof ct fuel c' s
                                        | None => Err NameError
                                        end
                                      | _ => de_leaf sr s
                                      end;
                         do (r, s) <- go attrs' s; Ok ((name, v) :: r, s)
                       end) attrs s = de_fields ct fuel attrs s).
  { intros attrs. induction attrs as [|[n sr] attrs IH]; intros t; [reflexivity|].
    cbn [de_fields]. match goal with |- bind ?a _ = _ => change a with (de_val ct fuel sr t) end.
    destruct (de_val ct fuel sr t) as [[v r]|]; cbn [bind]; [rewrite IH; reflexivity|reflexivity]. }
  destruct (read_bool s) as [[b s1]|]; cbn [bind]; [|reflexivity]. destruct b; [reflexivity|].
  destruct (match c_kind (ct c) with Plain => _ | Variant u => _ end) as [[uc s2]|]; cbn [bind]; [|reflexivity].
  rewrite E. reflexivity.
Qed.

(** ** Leaves *)

Definition bits_error (e : exn) : Prop := e = IndexError \/ e = AssertionError.

Lemma prim_ok_check s v : prim_ok s v <-> prim_check s v = Ok tt.
Proof.
  destruct s, v; cbn; try (split; [tauto|discriminate]); try tauto.
  - destruct (N.eqb_spec (blen b) n); split; congruence || discriminate || auto.
  - destruct (N.leb_spec mn (blen b)), (N.leb_spec (blen b) mx); cbn; split; try discriminate; try lia; auto.
  - destruct (Z.leb_spec 0 z), (Z.leb_spec z mx); cbn; split; try discriminate; try lia; auto.
Qed.

Lemma bits_of_iter b : bits_ok b -> bits_iter b = Ok (map bit (bits_of b)).
Proof. intros H. apply yields_iff; [exact H|reflexivity]. Qed.

Lemma map_bit_bool l : map (fun n => negb (n =? 0)%N) (map bit l) = l.
Proof. rewrite map_map. rewrite <- (map_id l) at 2. apply map_ext. intros []; reflexivity. Qed.

Lemma bits_survive_dec l : bits_survive l \/ ~ bits_survive l.
Proof.
  unfold bits_survive. destruct (Nat.eq_dec (List.length l mod 8) 0); [|auto].
  destruct (list_eq_dec bool_dec l []); [right; tauto|].
  destruct (list_eq_dec bool_dec (skipn (List.length l - 8) l) (repeat false 8)); tauto.
Qed.

Lemma prefixed_codec {A} (ser : A -> result bytes) de (wf : A -> Prop) : codec ser de wf -> forall a, wf a ->
  exists enc, ser_prefixed (ser a) = Ok enc /\ (forall rest, de_prefixed de (enc ++ rest) = Ok (a, rest)) /\
    forall p q, enc = p ++ q -> q <> [] -> de_prefixed de p = Err TruncationError.
Proof.
  intros HC a Ha. destruct (HC a Ha) as (enc & E & D). unfold ser_prefixed. rewrite E. cbn [bind]. eexists. split; [reflexivity|]. split.
  - intros rest. rewrite <- app_assoc. unfold de_prefixed. rewrite read_write_varuint_N. cbn [bind].
    rewrite fd_read_app. cbn [bind]. unfold bdeserialize. specialize (D []). rewrite app_nil_r in D. rewrite D. reflexivity.
  - intros p q EQ Hq. unfold de_prefixed. destruct (app_split_cases _ _ _ _ EQ) as [(r & -> & Hb)|(r & Hr & Hw & _)].
    + rewrite read_write_varuint_N. cbn [bind]. rewrite fd_read_short; [reflexivity|]. subst enc. unfold blen. rewrite app_length.
      destruct q; [congruence|]. cbn [List.length]. lia.
    + erewrite read_varuint_truncated; [reflexivity| |exact Hw|exact Hr]. lia.
Qed.

Lemma leaf_bits_ser l : exists b, bits_new l = Ok b /\ bits_ok b /\ bits_of b = l.
Proof. apply bits_new_spec. Qed.

(** ** Classes *)

Lemma isinst_iff ct v c : isinst ct v c = true <-> exists k, class_of v = Some k /\ subclass ct k c.
Proof.
  unfold isinst, subclass. destruct (class_of v) as [k|]; [|split; [discriminate|intros (k & E & _); discriminate]].
  rewrite existsb_exists. split.
  - intros (x & Hx & E). apply Nat.eqb_eq in E. subst x. eauto.
  - intros (k' & E & H). inversion E; subst k'. exists c. split; [exact H|apply Nat.eqb_refl].
Qed.

Lemma isinst_false ct v k c : class_of v = Some k -> ~ subclass ct k c -> isinst ct v c = false.
Proof.
  intros E H. destruct (isinst ct v c) eqn:E2; [|reflexivity]. apply isinst_iff in E2. destruct E2 as (k' & E3 & H').
  rewrite E in E3. inversion E3; subst. contradiction.
Qed.

Lemma union_index_spec ct v k : class_of v = Some k -> forall cs i c, nth_error cs i = Some c -> subclass ct k c ->
  (forall j m, j < i -> nth_error cs j = Some m -> ~ subclass ct k m) -> union_index ct cs v = Some i.
Proof.
  intros Hk. induction cs as [|m cs IH]; intros i c Hn Hs Hno; [destruct i; discriminate|].
  cbn [union_index]. destruct i as [|i].
  - cbn in Hn. inversion Hn; subst m. assert (isinst ct v c = true) as -> by (apply isinst_iff; eauto). reflexivity.
  - rewrite (isinst_false ct v k m Hk) by (apply (Hno 0); [lia|reflexivity]).
    rewrite (IH i c Hn Hs); [reflexivity|]. intros j m' Hj Hm. apply (Hno (S j)); [lia|exact Hm].
Qed.

Definition okser (ct : ctable) (sr : ser) : Prop :=
  match sr with SerUnion cs => exists c name, In (name, SerUnion cs) (c_attrs (ct c)) | _ => True end.

Lemma attr_okser ct c name sr : In (name, sr) (c_attrs (ct c)) -> okser ct sr.
Proof. destruct sr; cbn; eauto. Qed.

Lemma fits_class ct Q c v : fits ct Q (SerProof c) v -> exists k, class_of v = Some k /\ declared ct c k.
Proof. intros H. inversion H; subst; cbn; eauto. Qed.

Lemma fits_proof ct Q c v : fits ct Q (SerProof c) v -> is_proof v = true.
Proof. intros H. inversion H; reflexivity. Qed.

(** ** Construction accepts fitting values *)

Lemma check_fits ct Q sr v : wf_table ct -> okser ct sr -> fits ct Q sr v -> check ct sr v = Ok tt.
Proof.
  intros W O H. inversion H; subst; cbn [check to_py]; try reflexivity.
  - apply prim_ok_check. assumption.
  - unfold declared in H0. destruct (c_kind (ct c)) as [|u] eqn:E; [reflexivity|].
    assert (existsb (isinst ct (PFull k fs)) u = true) as ->; [|reflexivity].
    apply existsb_exists. exists k. split; [exact H0|]. apply isinst_iff. exists k. split; [reflexivity|apply wf_self, W].
  - unfold declared in H0. destruct (c_kind (ct c)) as [|u] eqn:E; [reflexivity|].
    assert (existsb (isinst ct (PHash c dh)) u = true) as ->; [|reflexivity].
    apply existsb_exists. exists c. split; [exact H0|]. apply isinst_iff. exists c. split; [reflexivity|apply wf_self, W].
  - destruct O as (c' & name & Ha). destruct (fits_class _ _ _ _ H1) as (k & Hk & Hd). destruct (In_nth_error _ _ H0) as (i & Hi).
    assert (existsb (isinst ct v) cs = true) as ->; [|reflexivity].
    apply existsb_exists. exists c. split; [exact H0|]. apply isinst_iff. exists k. split; [exact Hk|].
    eapply (wf_unions ct W); eassumption.
Qed.

Lemma assoc_combine {A} (names : list string) (l : list A) : NoDup names -> List.length names = List.length l ->
  forall i n x, nth_error names i = Some n -> nth_error l i = Some x -> assoc n (combine names l) = Some x.
Proof.
  revert l. induction names as [|m names IH]; intros l ND HL i n x Hn Hx; [destruct i; discriminate|].
  destruct l as [|y l]; [discriminate|]. inversion ND; subst. cbn [combine assoc]. destruct i as [|i]; cbn in Hn, Hx.
  - inversion Hn; inversion Hx; subst. rewrite String.eqb_refl. reflexivity.
  - destruct (String.eqb_spec m n) as [->|_]; [exfalso; apply H1; eapply nth_error_In; exact Hn|].
    eapply IH; eauto.
Qed.

Lemma fits_all_length ct Q attrs fs : fits_all ct Q attrs fs -> List.length attrs = List.length fs.
Proof. induction 1; cbn; congruence. Qed.

Lemma construct_loop_fits ct Q kw : wf_table ct -> forall attrs fs, fits_all ct Q attrs fs ->
  (forall name sr, In (name, sr) attrs -> okser ct sr) ->
  (forall i n x, nth_error (map fst attrs) i = Some n -> nth_error fs i = Some x -> assoc n kw = Some x) ->
  construct_loop ct attrs kw = Ok fs.
Proof.
  intros W. induction 1 as [|name sr attrs f fs Hf Hfs IH]; intros Hok Ha; [reflexivity|]. cbn [construct_loop].
  rewrite (Ha 0 name f eq_refl eq_refl). cbn [bind].
  rewrite (check_fits ct Q sr f W (Hok name sr (or_introl eq_refl)) Hf). cbn [bind].
  assert ((match sr with SerProof _ => if is_proof f then Ok tt else Err AttributeError | _ => Ok tt end) = Ok tt) as ->.
  { destruct sr; try reflexivity. rewrite (fits_proof _ _ _ _ Hf). reflexivity. }
  cbn [bind]. rewrite IH; [reflexivity| |].
  - intros n s Hi. apply (Hok n). right. exact Hi.
  - intros i n x Hn Hx. apply (Ha (S i)); assumption.
Qed.

Lemma construct_fits ct Q k fs : wf_table ct -> fits_all ct Q (c_attrs (ct k)) fs ->
  construct ct k (combine (map fst (c_attrs (ct k))) fs) = Ok (PFull k fs).
Proof.
  intros W H. unfold construct. rewrite (construct_loop_fits ct Q _ W _ _ H); [reflexivity| |].
  - intros n s Hi. eapply attr_okser, Hi.
  - intros i n x. apply assoc_combine; [apply wf_names, W|]. rewrite map_length. eapply fits_all_length, H.
Qed.

(** ** Round trip *)

Definition transports (ct : ctable) (sr : ser) (v : val) : Prop := exists enc F, ser_val ct sr v = Ok enc /\
  ((fits ct bits_survive sr v /\ forall rest fuel, F <= fuel -> de_val ct fuel sr (enc ++ rest) = Ok (v, rest)) \/
   (~ fits ct bits_survive sr v /\ exists e, bits_error e /\ forall rest fuel, F <= fuel -> de_val ct fuel sr (enc ++ rest) = Err e)) /\
  (fits ct bits_survive sr v -> forall p q fuel, F <= fuel -> enc = p ++ q -> q <> [] -> de_val ct fuel sr p = Err TruncationError).

Definition transports_all (ct : ctable) (attrs : list (string * ser)) (fs : list val) : Prop := exists enc F,
  ser_fields ct attrs fs = Ok enc /\
  ((fits_all ct bits_survive attrs fs /\ forall rest fuel, F <= fuel ->
      de_fields ct fuel attrs (enc ++ rest) = Ok (combine (map fst attrs) fs, rest)) \/
   (~ fits_all ct bits_survive attrs fs /\ exists e, bits_error e /\ forall rest fuel, F <= fuel -> de_fields ct fuel attrs (enc ++ rest) = Err e)) /\
  (fits_all ct bits_survive attrs fs -> forall p q fuel, F <= fuel -> enc = p ++ q -> q <> [] -> de_fields ct fuel attrs p = Err TruncationError).

Lemma leaf_transports ct sr v : fits ct any_bits sr v ->
  match sr with SerProof _ | SerUnion _ => True | _ => transports ct sr v end.
Proof.
  intros H. destruct H; try exact I.
  - apply prim_ok_check in H. destruct (prim_roundtrip s v H) as (enc & E & D). exists enc, 0. split; [exact E|]. split.
    + left. split; [constructor; apply prim_ok_check; exact H|]. intros rest fuel _. cbn [de_val de_leaf]. rewrite D. reflexivity.
    + intros _ p q fuel _ EQ Hq. cbn [de_val de_leaf]. rewrite (prim_truncated s v enc p q H E EQ Hq). reflexivity.
  - destruct (bits_new_spec l) as (b & E & Hok & Hb). destruct (bits_ser_spec b Hok) as (pl & S1 & _).
    eexists _, 0. split; [cbn [ser_val ser_leaf]; rewrite E; cbn [bind]; exact S1|]. split.
    + assert (R : forall rest, _) by (intros rest; exact (bits_roundtrip b rest Hok)).
      destruct (bits_survive_dec l) as [HS|HS].
      * left. split; [constructor; exact HS|]. intros rest fuel _. destruct (R rest) as (enc & S2 & C). rewrite S1 in S2. injection S2 as <-.
        rewrite Hb in C. destruct C as [(_ & r & D & Hr & Hr2)|[(N & _)|(N & _)]]; [|contradiction|contradiction].
        cbn [de_val de_leaf]. rewrite D. cbn [bind]. rewrite (bits_of_iter r Hr). cbn [bind]. rewrite map_bit_bool.
        rewrite Hr2. reflexivity.
      * right. split; [intros C; inversion C; contradiction|]. rewrite Hb in R.
        destruct l as [|x l].
        -- exists IndexError. split; [left; reflexivity|]. intros rest fuel _. destruct (R rest) as (enc & S2 & C). rewrite S1 in S2. injection S2 as <-.
           destruct C as [(N & _)|[(_ & _ & D)|(_ & N & _)]]; [contradiction| |congruence]. cbn [de_val de_leaf]. rewrite D. reflexivity.
        -- exists AssertionError. split; [right; reflexivity|]. intros rest fuel _. destruct (R rest) as (enc & S2 & C). rewrite S1 in S2. injection S2 as <-.
           destruct C as [(N & _)|[(_ & N & _)|(_ & _ & D)]]; [contradiction|congruence|]. cbn [de_val de_leaf]. rewrite D. reflexivity.
    + intros _ p q fuel _ EQ Hq. cbn [de_val de_leaf]. rewrite (bits_truncated b _ p q Hok S1 EQ Hq). reflexivity.
  - destruct (prefixed_codec tx_ser tx_de wf_tx tx_codec t H) as (enc & E & D & T). exists enc, 0. split; [exact E|]. split.
    + left. split; [constructor; exact H|]. intros rest fuel _. cbn [de_val de_leaf]. rewrite D. reflexivity.
    + intros _ p q fuel _ EQ Hq. cbn [de_val de_leaf]. rewrite (T p q EQ Hq). reflexivity.
  - destruct (prefixed_codec outpoint_ser outpoint_de wf_outpoint outpoint_codec o H) as (enc & E & D & T). exists enc, 0. split; [exact E|]. split.
    + left. split; [constructor; exact H|]. intros rest fuel _. cbn [de_val de_leaf]. rewrite D. reflexivity.
    + intros _ p q fuel _ EQ Hq. cbn [de_val de_leaf]. rewrite (T p q EQ Hq). reflexivity.
Qed.

Lemma nth_error_if {A} (l : list A) i x : nth_error l i = Some x ->
  (if (Z.to_N (Z.of_nat i) <? N.of_nat (List.length l))%N then nth_error l (N.to_nat (Z.to_N (Z.of_nat i))) else None) = Some x.
Proof.
  intros H. assert (i < List.length l) by (apply nth_error_Some; congruence).
  replace (N.to_nat (Z.to_N (Z.of_nat i))) with i by lia. destruct (N.ltb_spec (Z.to_N (Z.of_nat i)) (N.of_nat (List.length l))); [exact H|lia].
Qed.

(** The class number in front of a complete proof. *)
Lemma variant_transports ct c k fs : wf_table ct -> declared ct c k -> exists ix, ser_variant ct (PFull k fs) = Ok ix /\
  forall G : cid * bytes -> result (val * bytes),
  (forall s, bind match c_kind (ct c) with
                  | Plain => Ok (c, ix ++ s)
                  | Variant u => do (i, s) <- read_varuint (ix ++ s);
                      match (if (i <? N.of_nat (List.length u))%N then nth_error u (N.to_nat i) else None) with
                      | Some uc => Ok (uc, s) | None => Err NameError end
                  end G = G (k, s)) /\
  (forall p q, ix = p ++ q -> q <> [] -> bind match c_kind (ct c) with
                  | Plain => Ok (c, p)
                  | Variant u => do (i, s) <- read_varuint p;
                      match (if (i <? N.of_nat (List.length u))%N then nth_error u (N.to_nat i) else None) with
                      | Some uc => Ok (uc, s) | None => Err NameError end
                  end G = Err TruncationError).
Proof.
  intros W D. unfold ser_variant. cbn [class_of]. unfold declared in D. destruct (c_kind (ct c)) as [|u] eqn:E.
  - subst k. rewrite E. exists []. split; [reflexivity|]. intros G. split; [reflexivity|].
    intros p q EQ Hq. symmetry in EQ. apply app_eq_nil in EQ. tauto.
  - destruct (In_nth_error _ _ D) as (i & Hi). destruct (wf_variants ct W c u i k E Hi) as (Ek & Hno). rewrite Ek.
    rewrite (union_index_spec ct (PFull k fs) k eq_refl u i k Hi (wf_self ct W k) Hno). eexists. split; [reflexivity|]. intros G. split.
    + intros s. rewrite read_write_varuint by lia. cbn [bind]. rewrite (nth_error_if u i k Hi). reflexivity.
    + intros p q EQ Hq. erewrite read_varuint_truncated; [reflexivity| |exact EQ|exact Hq]. lia.
Qed.

Lemma fits_retarget ct Q Q' c c' v : fits ct Q (SerProof c) v -> fits ct Q' (SerProof c') v -> fits ct Q' (SerProof c) v.
Proof. intros H1 H2. inversion H1; subst; inversion H2; subst; econstructor; eassumption. Qed.


Lemma all_transport ct : wf_table ct ->
  (forall sr v, fits ct any_bits sr v -> okser ct sr -> transports ct sr v) /\
  (forall attrs fs, fits_all ct any_bits attrs fs -> (forall name sr, In (name, sr) attrs -> okser ct sr) -> transports_all ct attrs fs).
Proof.
  intros W.
  apply (fits_both ct any_bits (fun sr v _ => okser ct sr -> transports ct sr v)
    (fun attrs fs _ => (forall name sr, In (name, sr) attrs -> okser ct sr) -> transports_all ct attrs fs)).
  - intros s v H _. apply (leaf_transports ct (SerPrim s)). constructor; exact H.
  - intros l H _. apply (leaf_transports ct SerBits). constructor; exact H.
  - intros t H _. apply (leaf_transports ct SerTx). constructor; exact H.
  - intros o H _. apply (leaf_transports ct SerOut). constructor; exact H.
  - (* complete proof *)
    intros c k fs D Hfs IH _. destruct IH as (enc & F & E & C & T); [intros n s Hi; eapply attr_okser, Hi|].
    destruct (variant_transports ct c k fs W D) as (ix & Eix & V).
    exists (x00 :: ix ++ enc), (S F). split; [cbn [ser_val]; rewrite ser_proof_full, Eix; cbn [bind]; rewrite E; reflexivity|]. split.
    + destruct C as [(HS & C)|(HS & e & He & C)]; [left|right].
      * split; [constructor; assumption|]. intros rest [|fuel] HF; [lia|]. cbn [de_val]. rewrite de_proof_S.
        change ((x00 :: ix ++ enc) ++ rest) with (write_bool false ++ (ix ++ enc) ++ rest). rewrite read_bool_write. cbn [bind].
        rewrite <- app_assoc, (proj1 (V _)). rewrite C by lia. cbn [bind].
        rewrite (construct_fits ct any_bits k fs W Hfs). reflexivity.
      * split; [intros H; inversion H; subst; contradiction|]. exists e. split; [exact He|]. intros rest [|fuel] HF; [lia|]. cbn [de_val]. rewrite de_proof_S.
        change ((x00 :: ix ++ enc) ++ rest) with (write_bool false ++ (ix ++ enc) ++ rest). rewrite read_bool_write. cbn [bind].
        rewrite <- app_assoc, (proj1 (V _)). rewrite C by lia. reflexivity.
    + intros HS p q [|fuel] HF EQ Hq; [lia|]. cbn [de_val]. rewrite de_proof_S.
      destruct p as [|x p]; [reflexivity|]. cbn [app] in EQ. injection EQ as <- EQ.
      change (x00 :: p) with (write_bool false ++ p). rewrite read_bool_write. cbn [bind].
      destruct (app_split_cases _ _ _ _ EQ) as [(r & -> & Hb)|(r & Hr & Hw & _)].
      * rewrite (proj1 (V _)). assert (HS' : fits_all ct bits_survive (c_attrs (ct k)) fs) by (inversion HS; assumption).
        rewrite (T HS' r q fuel ltac:(lia) Hb Hq). reflexivity.
      * exact (proj2 (V _) _ _ Hw Hr).
  - (* fully pruned *)
    intros c dh D L _. exists (xff :: dh), 1. split; [reflexivity|]. split.
    + left. split; [constructor; assumption|]. intros rest [|fuel] HF; [lia|]. cbn [de_val]. rewrite de_proof_S.
      change ((xff :: dh) ++ rest) with (write_bool true ++ dh ++ rest). rewrite read_bool_write. cbn [bind].
      rewrite fd_read_app_n; [reflexivity|]. unfold blen. rewrite L. reflexivity.
    + intros _ p q [|fuel] HF EQ Hq; [lia|]. cbn [de_val]. rewrite de_proof_S.
      destruct p as [|x p]; [reflexivity|]. cbn [app] in EQ. injection EQ as <- EQ.
      change (xff :: p) with (write_bool true ++ p). rewrite read_bool_write. cbn [bind].
      rewrite fd_read_short; [reflexivity|]. apply (f_equal (@List.length _)) in EQ. rewrite app_length, L in EQ. unfold blen.
      destruct q; [congruence|cbn in EQ; lia].
  - (* union *)
    intros cs c v Hc Hv IH O. destruct IH as (enc & F & E & C & T); [exact I|].
    destruct O as (c' & name & Ha). destruct (fits_class _ _ _ _ Hv) as (k & Hk & Hd). destruct (In_nth_error _ _ Hc) as (i & Hi).
    destruct (wf_unions ct W c' name cs i c k Ha Hi Hd) as (Hs & Hno).
    exists (write_varuint (Z.of_nat i) ++ enc), F. split.
    { cbn [ser_val] in *. unfold ser_union. rewrite (union_index_spec ct v k Hk cs i c Hi Hs Hno), E. reflexivity. }
    cbn [de_val] in *. split.
    + destruct C as [(HS & C)|(HS & e & He & C)]; [left|right].
      * split; [econstructor; eassumption|]. intros rest fuel HF. rewrite <- app_assoc, read_write_varuint by lia. cbn [bind].
        rewrite (nth_error_if cs i c Hi). apply C; exact HF.
      * split; [intros H; inversion H; subst; apply HS; eapply fits_retarget; eassumption|]. exists e. split; [exact He|].
        intros rest fuel HF. rewrite <- app_assoc, read_write_varuint by lia. cbn [bind]. rewrite (nth_error_if cs i c Hi). apply C; exact HF.
    + intros HS p q fuel HF EQ Hq. destruct (app_split_cases _ _ _ _ EQ) as [(r & -> & Hb)|(r & Hr & Hw & _)].
      * rewrite read_write_varuint by lia. cbn [bind]. rewrite (nth_error_if cs i c Hi). eapply T; eauto.
        inversion HS; subst. eapply fits_retarget; eassumption.
      * erewrite read_varuint_truncated; [reflexivity| |exact Hw|exact Hr]. lia.
  - intros _. exists [], 0. split; [reflexivity|]. split.
    + left. split; [constructor|]. reflexivity.
    + intros _ p q fuel _ EQ Hq. symmetry in EQ. apply app_eq_nil in EQ. tauto.
  - intros name sr attrs f fs Hf IHf Hfs IHfs O.
    destruct IHf as (e1 & F1 & E1 & C1 & T1); [eapply O; left; reflexivity|].
    destruct IHfs as (e2 & F2 & E2 & C2 & T2); [intros n s Hi; eapply O; right; exact Hi|].
    exists (e1 ++ e2), (Nat.max F1 F2). split; [cbn [ser_fields]; rewrite E1; cbn [bind]; rewrite E2; reflexivity|]. split.
    + destruct C1 as [(S1 & C1)|(S1 & x & Hx & C1)].
      * destruct C2 as [(S2 & C2)|(S2 & x & Hx & C2)]; [left|right].
        -- split; [constructor; assumption|]. intros rest fuel HF. cbn [de_fields]. rewrite <- app_assoc, C1 by lia. cbn [bind].
           rewrite C2 by lia. reflexivity.
        -- split; [intros H; inversion H; subst; contradiction|]. exists x. split; [exact Hx|]. intros rest fuel HF. cbn [de_fields].
           rewrite <- app_assoc, C1 by lia. cbn [bind]. rewrite C2 by lia. reflexivity.
      * right. split; [intros H; inversion H; subst; contradiction|]. exists x. split; [exact Hx|]. intros rest fuel HF. cbn [de_fields].
        rewrite <- app_assoc, C1 by lia. reflexivity.
    + intros HS p q fuel HF EQ Hq. inversion HS; subst. cbn [de_fields].
      destruct (app_split_cases _ _ _ _ EQ) as [(r & -> & Hb)|(r & Hr & Hw & _)].
      * destruct C1 as [(S1 & C1)|(S1 & _)]; [|contradiction]. rewrite C1 by lia. cbn [bind]. erewrite T2; [reflexivity|assumption| |exact Hb|exact Hq]. lia.
      * erewrite T1; [reflexivity|assumption| |exact Hw|exact Hr]. lia.
Qed.

(** ** The fuel of [de_proof] *)

Ltac bind_ok H := match type of H with
  | bind ?r _ = Ok _ => let E := fresh "E" in destruct r as [[? ?]|?] eqn:E; cbn [bind] in H; [|discriminate H]
  end.

Lemma read_varuint_lt s v r : read_varuint s = Ok (v, r) -> List.length r < List.length s.
Proof.
  intros H. apply read_varuint_iff in H. destruct H as (enc & -> & Hf & _). rewrite app_length.
  destruct enc; [contradiction Hf|cbn; lia].
Qed.

Lemma fd_read_le n s a r : fd_read n s = Ok (a, r) -> List.length r <= List.length s.
Proof. intros H. apply fd_read_iff in H. destruct H as (-> & _). rewrite app_length. lia. Qed.

Lemma read_bool_lt s b r : read_bool s = Ok (b, r) -> List.length r < List.length s.
Proof. intros H. apply read_bool_ok in H. subst s. rewrite app_length. destruct b; cbn; lia. Qed.

Lemma prim_de_le p s v r : prim_de p s = Ok (v, r) -> List.length r <= List.length s.
Proof.
  intros H. destruct p; cbn [prim_de] in H.
  - bind_ok H. inversion H; subst. apply read_bool_lt in E. lia.
  - bind_ok H. inversion H; subst. apply fd_read_le in E. lia.
  - bind_ok H. destruct (_ && _)%N; [|discriminate]. bind_ok H. inversion H; subst. apply read_varuint_lt in E. apply fd_read_le in E0. lia.
  - bind_ok H. destruct (_ && _)%Z; [|discriminate]. inversion H; subst. apply read_varuint_lt in E. lia.
Qed.

Lemma de_prefixed_le {A} (f : bytes -> result (A * bytes)) s v r : de_prefixed f s = Ok (v, r) -> List.length r <= List.length s.
Proof.
  unfold de_prefixed. intros H. bind_ok H. bind_ok H. destruct (bdeserialize _ _ _); [|discriminate]. cbn [bind] in H. inversion H; subst.
  apply read_varuint_lt in E. apply fd_read_le in E0. lia.
Qed.

Lemma bits_de_le s v r : bits_de s = Ok (v, r) -> List.length r <= List.length s.
Proof.
  unfold bits_de. intros H. bind_ok H. bind_ok H. apply read_varuint_lt in E. apply fd_read_le in E0.
  destruct (bits_from_bytes _ _); [|discriminate]. cbn [bind] in H. destruct (tail_bits _); [|discriminate]. cbn [bind] in H.
  destruct (match b0 with [] => _ | _ => _ end); [|discriminate]. cbn [bind] in H. destruct (assert _); [|discriminate].
  inversion H; subst. lia.
Qed.

Lemma de_leaf_le sr s v r : de_leaf sr s = Ok (v, r) -> List.length r <= List.length s.
Proof.
  intros H. destruct sr; cbn [de_leaf] in H; try discriminate H.
  - bind_ok H. inversion H; subst. eapply prim_de_le, E.
  - bind_ok H. destruct (bits_iter _); [|discriminate]. inversion H; subst. eapply bits_de_le, E.
  - bind_ok H. inversion H; subst. eapply de_prefixed_le, E.
  - bind_ok H. inversion H; subst. eapply de_prefixed_le, E.
Qed.

Lemma de_le ct fuel : forall c s v r, de_proof ct fuel c s = Ok (v, r) -> List.length r < List.length s.
Proof.
  induction fuel as [|fuel IH]; intros c s v r H; [discriminate H|]. rewrite de_proof_S in H. bind_ok H.
  apply read_bool_lt in E. destruct b.
  - bind_ok H. inversion H; subst. apply fd_read_le in E0. lia.
  - assert (K : forall attrs s kw r, de_fields ct fuel attrs s = Ok (kw, r) -> List.length r <= List.length s).
    { induction attrs as [|[n sr] attrs IHa]; intros s' kw r' H'; cbn [de_fields] in H'; [inversion H'; subst; lia|].
      bind_ok H'. bind_ok H'. inversion H'; subst. apply IHa in E1.
      assert (List.length b <= List.length s'); [|lia]. clear E1 H'. destruct sr; cbn [de_val] in E0; try (eapply de_leaf_le, E0).
      - apply IH in E0. lia.
      - bind_ok E0. apply read_varuint_lt in E1. destruct (if (_ <? _)%N then _ else _); [|discriminate]. apply IH in E0. lia. }
    bind_ok H. bind_ok H. destruct (construct _ _ _); [|discriminate]. cbn [bind] in H. inversion H; subst. apply K in E1.
    assert (List.length b <= List.length b0); [|lia]. clear H E1. destruct (c_kind (ct c)); [inversion E0; subst; lia|].
    bind_ok E0. apply read_varuint_lt in E1. destruct (if (_ <? _)%N then _ else _); [|discriminate]. inversion E0; subst. lia.
Qed.

Lemma de_val_le ct fuel sr s v r : de_val ct fuel sr s = Ok (v, r) -> List.length r <= List.length s.
Proof.
  intros H. destruct sr; cbn [de_val] in H; try (eapply de_leaf_le, H).
  - apply de_le in H. lia.
  - bind_ok H. apply read_varuint_lt in E. destruct (if (_ <? _)%N then _ else _); [|discriminate]. apply de_le in H. lia.
Qed.

(** More fuel than bytes is always enough. *)
Lemma de_proof_enough_fuel ct : forall fuel fuel' c s, List.length s < fuel -> List.length s < fuel' ->
  de_proof ct fuel c s = de_proof ct fuel' c s.
Proof.
  induction fuel as [|fuel IH]; intros [|fuel'] c s H H'; try lia. rewrite !de_proof_S.
  destruct (read_bool s) as [[b s1]|] eqn:E; cbn [bind]; [|reflexivity]. apply read_bool_lt in E. destruct b; [reflexivity|].
  assert (K : forall attrs s, List.length s < fuel -> List.length s < fuel' -> de_fields ct fuel attrs s = de_fields ct fuel' attrs s).
  { induction attrs as [|[n sr] attrs IHa]; intros t Ht Ht'; [reflexivity|]. cbn [de_fields].
    assert (de_val ct fuel sr t = de_val ct fuel' sr t) as EQ.
    { destruct sr; cbn [de_val]; try reflexivity; [apply IH; assumption|].
      destruct (read_varuint t) as [[i t1]|] eqn:E1; cbn [bind]; [|reflexivity]. apply read_varuint_lt in E1.
      destruct (if (_ <? _)%N then _ else _); [|reflexivity]. apply IH; lia. }
    rewrite EQ. destruct (de_val ct fuel' sr t) as [[x t1]|] eqn:E1; cbn [bind]; [|reflexivity].
    apply de_val_le in E1. rewrite IHa by lia. reflexivity. }
  destruct (c_kind (ct c)) as [|u]; cbn [bind].
  - rewrite K by lia. reflexivity.
  - destruct (read_varuint s1) as [[i t1]|] eqn:E1; cbn [bind]; [|reflexivity]. apply read_varuint_lt in E1.
    destruct (if (_ <? _)%N then _ else _); cbn [bind]; [|reflexivity]. rewrite K by lia. reflexivity.
Qed.

Lemma de_class_any ct c s F x : (forall fuel, F <= fuel -> de_proof ct fuel c s = x) -> de_class ct c s = x.
Proof.
  intros H. unfold de_class. rewrite <- (H (Nat.max F (S (List.length s)))) by lia. apply de_proof_enough_fuel; lia.
Qed.

Lemma construct_no_fuel ct c kw : construct ct c kw <> Err OutOfFuel.
Proof.
  unfold construct. assert (forall attrs, construct_loop ct attrs kw <> Err OutOfFuel).
  { induction attrs as [|[n sr] attrs IH]; [discriminate|]. cbn [construct_loop].
    destruct (assoc n kw) as [v|]; cbn [bind]; [|discriminate].
    assert (check ct sr v <> Err OutOfFuel).
    { destruct sr; cbn [check]; try discriminate.
      - destruct s, v; cbn; try discriminate; try destruct v; cbn; try discriminate; destruct (_ : bool); discriminate.
      - destruct v; discriminate.
      - destruct v; discriminate.
      - destruct (c_kind (ct c0)); [discriminate|]. destruct (existsb _ _); discriminate.
      - destruct (existsb _ _); discriminate. }
    destruct (check ct sr v); cbn [bind]; [|congruence].
    destruct (match sr with SerProof _ => _ | _ => _ end) eqn:E; cbn [bind].
    - destruct (construct_loop ct attrs kw); cbn [bind]; congruence.
    - destruct sr; try discriminate E. destruct (is_proof v); congruence. }
  specialize (H (c_attrs (ct c))). destruct (construct_loop _ _ _); cbn [bind]; congruence.
Qed.

(** ** Statements for the property file *)

Lemma proof_roundtrip ct c v : wf_table ct -> fits ct any_bits (SerProof c) v -> exists enc, ser_proof ct v = Ok enc /\
  (fits ct bits_survive (SerProof c) v -> forall rest, de_class ct c (enc ++ rest) = Ok (v, rest)) /\
  (~ fits ct bits_survive (SerProof c) v -> exists e, (e = IndexError \/ e = AssertionError) /\
     forall rest, de_class ct c (enc ++ rest) = Err e) /\
  (fits ct bits_survive (SerProof c) v -> forall p q, enc = p ++ q -> q <> [] -> de_class ct c p = Err TruncationError).
Proof.
  intros W H. destruct (proj1 (all_transport ct W) _ _ H I) as (enc & F & E & C & T). cbn [ser_val de_val] in *.
  exists enc. split; [exact E|]. repeat split.
  - intros HS rest. destruct C as [(_ & C)|(N & _)]; [|contradiction]. apply (de_class_any ct c _ F). intros fuel HF. apply C, HF.
  - intros HS. destruct C as [(N & _)|(_ & e & He & C)]; [contradiction|]. exists e. split; [exact He|].
    intros rest. apply (de_class_any ct c _ F). intros fuel HF. apply C, HF.
  - intros HS p q EQ Hq. apply (de_class_any ct c _ F). intros fuel HF. eapply T; eassumption.
Qed.
