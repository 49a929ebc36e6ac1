From Verif Require Import Base PySlice Sha256 Serialize_Model Serialize_Spec Serialize_Proofs Tx_Model Tx_Spec Tx_Proofs
  Proof_Model Proof_Spec Proof_Proofs ProofHash_Proofs Chain_Model Chain_Spec Chain_Proofs Grammar_Spec Grammar_Proofs Recipe_Spec.
From Coq Require Import ZifyBool ZifyNat ZifyN.
Local Open Scope string_scope.
Local Open Scope list_scope.

(** ** Numbers *)
Lemma groups_iff n b : groups n b <-> (0 <= n)%Z /\ b = write_varuint n.
Proof.
  split.
  - induction 1 as [n x R X|n x b R X G IH].
    + split; [lia|]. rewrite write_varuint_small by lia. f_equal. rewrite <- X, N2Z.id. symmetry. apply Nb_bN.
    + destruct IH as (_ & ->). split; [lia|]. rewrite (write_varuint_big n) by lia. f_equal. replace (n mod 128 + 128)%Z with (Z.of_N (bN x)) by lia. rewrite N2Z.id. symmetry. apply Nb_bN.
  - intros (N & ->). generalize N. revert n N. refine (Z_lt_induction (fun n => (0 <= n)%Z -> groups n (write_varuint n)) _). intros n IH N. destruct (Z.lt_ge_cases n 128) as [L|L].
    + rewrite write_varuint_small by lia. apply groups_last; [lia|]. rewrite bN_Nb_small; lia.
    + rewrite write_varuint_big by lia. pose proof (Z.mod_pos_bound n 128 ltac:(lia)). apply groups_more; [lia|rewrite bN_Nb_small; lia|].
      apply IH; [|apply Z.div_pos; lia]. split; [apply Z.div_pos; lia|apply Z.div_lt; lia].
Qed.

(** ** Exclusive or *)
Lemma xored_iff p : forall a c, List.length a = List.length p -> (xored a p c <-> c = xor_bytes a p).
Proof.
  induction p as [|y p IH]; intros [|x a] c L; try discriminate L.
  - split; [intros (_ & Lc & _); destruct c; [reflexivity|discriminate Lc]|intros ->; split; [reflexivity|split; [reflexivity|intros [|k] ? ? ? K; discriminate K]]].
  - cbn [List.length] in L. injection L as L. cbn [xor_bytes]. split.
    + intros (_ & Lc & X). destruct c as [|z c]; [discriminate Lc|]. cbn [List.length] in Lc. injection Lc as Lc.
      f_equal.
      * rewrite <- (X 0 x y z eq_refl eq_refl eq_refl). symmetry. apply Nb_bN.
      * apply IH; [exact L|]. split; [exact L|]. split; [exact Lc|]. intros k. exact (X (S k)).
    + intros ->. destruct (proj2 (IH a _ L) eq_refl) as (_ & Lc & X). split; [cbn [List.length]; lia|]. split; [cbn [List.length]; lia|].
      intros [|k] x' y' z'; cbn [nth_error]; [|apply X]. intros E1 E2 E3. injection E1 as <-. injection E2 as <-. injection E3 as <-.
      rewrite bN_Nb. apply N.mod_small. pose proof (bN_lt x). pose proof (bN_lt y).
      destruct (N.eq_dec (N.lxor (bN x) (bN y)) 0) as [->|Z]; [lia|]. change 256%N with (2 ^ 8)%N. apply N.log2_lt_pow2; [lia|].
      eapply N.le_lt_trans; [apply N.log2_lxor|]. assert (LL : forall b, (bN b < 256)%N -> (N.log2 (bN b) < 8)%N).
      { intros b B. destruct (N.eq_dec (bN b) 0) as [->|NZ]; [cbn; lia|]. apply N.log2_lt_pow2; [lia|exact B]. }
      pose proof (LL x (bN_lt x)). pose proof (LL y (bN_lt y)). lia.
Qed.

Scheme recipe_mut := Minimality for recipe Sort Prop with contents_mut := Minimality for contents Sort Prop.

Section Recipe.
Context (ct : ctable) (P : chain) (C : is_chain ct P).

Lemma marks_hash c m : In (c, m) (marks P) -> c_hash (ct c) = HTag (Some m).
Proof.
  unfold marks. cbn [In]. intros [E|[E|[E|[E|[E|[E|[E|[]]]]]]]]; injection E as <- <-;
  [destruct (d_outpoint ct P C) as (_ & _ & ->)|destruct (d_txin ct P C) as (_ & _ & ->)|destruct (d_txout ct P C) as (_ & _ & ->)|destruct (d_fseal ct P C) as (_ & _ & ->)
  |destruct (d_fwit ct P C) as (_ & _ & ->)|destruct (d_bseal ct P C) as (_ & _ & ->)|destruct (d_bwit ct P C) as (_ & _ & ->)]; unfold tag; f_equal; f_equal; vm_compute; reflexivity.
Qed.
Definition made (v : val) (x : bytes) : Prop := match v with PFull c fs => hash_fields ct (c_attrs (ct c)) fs = Ok x | _ => False end.
Lemma int_ser n : ser_leaf (SerPrim UInt32) (VPrim (PyInt n)) = Ok (write_varuint n). Proof. reflexivity. Qed.
Lemma out_ser o bn : List.length (o_hash o) = 32 -> le 4 (o_n o) bn -> ser_leaf SerOut (VOut o) = Ok (x24 :: o_hash o ++ bn).
Proof.
  intros L (Lb & E). cbn [ser_leaf]. unfold outpoint_ser. destruct (blen (o_hash o) =? 32)%N eqn:B; [|unfold blen in B; lia]. cbn [assert bind].
  unfold pack_u. assert (R : (0 <= little bn < 2 ^ 32)%Z). { rewrite little_dec. pose proof (le_dec_lt bn) as K. unfold blen in K. rewrite Lb in K. change (256 ^ N.of_nat 4)%N with 4294967296%N in K. lia. }
  rewrite <- E. destruct ((0 <=? little bn)%Z && (little bn <? 2 ^ (8 * Z.of_nat 4))%Z)%bool eqn:K; [|change (2 ^ (8 * Z.of_nat 4))%Z with (2 ^ 32)%Z in K; lia]. cbn [bind]. unfold ser_prefixed. cbn [bind].
  assert (EN : le_enc 4 (Z.to_N (little bn)) = bn). { rewrite little_dec, N2Z.id, <- Lb. apply le_enc_dec. }
  rewrite EN. replace (Z.of_N (blen (o_hash o ++ bn))) with 36%Z; [reflexivity|]. unfold blen. rewrite app_length. lia.
Qed.

Lemma recipe_hash : forall v h, recipe P v h -> phash ct v = Ok h.
Proof.
  apply (recipe_mut P (fun v h => phash ct v = Ok h) made).
  - intros t e h E X. rewrite (tx_phash ct P C). unfold tx_GetHash. rewrite E. cbn [bind]. f_equal. symmetry.
    apply (xored_iff pad) in X; [|rewrite sha256_length; reflexivity]. rewrite X. reflexivity.
  - intros c m fs x I _ M. unfold phash. rewrite hashes_full. cbn [snd]. cbn [made] in M. rewrite M. cbn [bind]. unfold tagged. rewrite (marks_hash c m I). reflexivity.
  - intros c m d I. unfold phash. cbn [hashes snd]. unfold tagged. rewrite (marks_hash c m I). reflexivity.
  - intros p n hp bn _ H G. apply groups_iff in G. destruct G as (_ & ->). cbn [made]. destruct (d_outpoint ct P C) as (-> & _). cbn [hash_fields]. rewrite H, int_ser. cbn [bind]. rewrite app_nil_r. reflexivity.
  - intros p n hp bn _ H G. apply groups_iff in G. destruct G as (_ & ->). cbn [made TxInProof]. destruct (d_txin ct P C) as (-> & _). cbn [hash_fields]. rewrite H, int_ser. cbn [bind]. rewrite app_nil_r. reflexivity.
  - intros p n hp bn _ H G. apply groups_iff in G. destruct G as (_ & ->). cbn [made TxOutProof]. destruct (d_txout ct P C) as (-> & _). cbn [hash_fields]. rewrite H, int_ser. cbn [bind]. rewrite app_nil_r. reflexivity.
  - intros h. cbn [made FakeSeal]. destruct (d_fseal ct P C) as (-> & _). cbn [hash_fields bind]. cbn. rewrite app_nil_r. reflexivity.
  - intros s hs _ H. cbn [made FakeWitness]. destruct (d_fwit ct P C) as (-> & _). cbn [hash_fields]. rewrite H. cbn [bind]. rewrite app_nil_r. reflexivity.
  - intros o n bn L B. cbn [made Seal]. destruct (d_bseal ct P C) as (-> & _). cbn [hash_fields]. rewrite (out_ser o bn L B). cbn [bind]. cbn [ser_leaf prim_ser to_py bind]. rewrite app_nil_r. cbn [app]. rewrite <- app_assoc. reflexivity.
  - intros s i o hs hi ho _ Hs _ Hi _ Ho. cbn [made Witness]. destruct (d_bwit ct P C) as (-> & _). cbn [hash_fields]. rewrite Hs, Hi, Ho. cbn [bind]. rewrite app_nil_r. reflexivity.
Qed.

(** ** Every hash that exists is made so *)
Lemma mark c : In c [p_outpoint P; p_txin P; p_txout P; p_fseal P; p_fwit P; p_bseal P; p_bwit P] -> exists m, In (c, m) (marks P).
Proof. cbn [In]. intros [<-|[<-|[<-|[<-|[<-|[<-|[<-|[]]]]]]]]; eexists; unfold marks; cbn [In]; auto 10. Qed.
Lemma full_hash c fs h : phash ct (PFull c fs) = Ok h -> In c [p_outpoint P; p_txin P; p_txout P; p_fseal P; p_fwit P; p_bseal P; p_bwit P] ->
  exists m x, In (c, m) (marks P) /\ hash_fields ct (c_attrs (ct c)) fs = Ok x /\ h = sha256 (m ++ sha256 x).
Proof.
  intros H I. destruct (mark c I) as (m & M). unfold phash in H. rewrite hashes_full in H. cbn [snd] in H. rewrite (marks_hash c m M) in H. unfold tagged in H. rewrite (marks_hash c m M) in H.
  destruct (hash_fields ct (c_attrs (ct c)) fs) as [x|] eqn:X; cbn [bind] in H; [|discriminate]. injection H as <-. exists m, x. auto.
Qed.
Lemma pruned_recipe c d h : In c [p_outpoint P; p_txin P; p_txout P; p_fseal P; p_fwit P; p_bseal P; p_bwit P] -> phash ct (PHash c d) = Ok h -> recipe P (PHash c d) h.
Proof.
  intros I H. destruct (mark c I) as (m & M). unfold phash in H. cbn [hashes snd] in H. unfold tagged in H. rewrite (marks_hash c m M) in H. cbn [bind] in H. injection H as <-. apply hash_pruned, M.
Qed.
Ltac inn := cbn [In]; auto 10.
Lemma tx_recipe v h : object ct (p_tx P) v -> phash ct v = Ok h -> recipe P v h.
Proof.
  intros O H. destruct (tx_shape ct P C v O) as [(t & -> & _)|(dh & -> & _)]; [|rewrite (phash_tx_hash ct P C) in H; discriminate].
  rewrite (tx_phash ct P C) in H. unfold tx_GetHash in H. destruct (tx_ser t) as [e|] eqn:E; cbn [bind] in H; [|discriminate]. injection H as <-.
  apply (hash_tx P t e _ E). apply xored_iff; [rewrite sha256_length; reflexivity|reflexivity].
Qed.
Lemma index_ok n : (0 <= n < 2 ^ 32)%Z -> groups n (write_varuint n).
Proof. intros R. apply groups_iff. split; [lia|reflexivity]. Qed.
Lemma txin_recipe v h : object ct (p_txin P) v -> phash ct v = Ok h -> recipe P v h.
Proof.
  intros O H. destruct (txin_shape ct P C v O) as [(i & p & -> & R & Op)|(dh & -> & _)]; [|apply pruned_recipe; [inn|exact H]].
  unfold TxInProof in H. destruct (full_hash _ _ _ H ltac:(inn)) as (m & x & M & X & ->). destruct (d_txin ct P C) as (A & _). rewrite A in X. cbn [hash_fields] in X. rewrite int_ser in X. cbn [bind] in X.
  destruct (phash ct p) as [hp|] eqn:E; cbn [bind] in X; [|discriminate]. injection X as <-. rewrite app_nil_r. apply hash_full; [exact M|]. apply in_txin; [apply tx_recipe; assumption|apply index_ok, R].
Qed.
Lemma txout_recipe v h : object ct (p_txout P) v -> phash ct v = Ok h -> recipe P v h.
Proof.
  intros O H. destruct (txout_shape ct P C v O) as [(i & p & -> & R & Op)|(dh & -> & _)]; [|apply pruned_recipe; [inn|exact H]].
  unfold TxOutProof in H. destruct (full_hash _ _ _ H ltac:(inn)) as (m & x & M & X & ->). destruct (d_txout ct P C) as (A & _). rewrite A in X. cbn [hash_fields] in X. rewrite int_ser in X. cbn [bind] in X.
  destruct (phash ct p) as [hp|] eqn:E; cbn [bind] in X; [|discriminate]. injection X as <-. rewrite app_nil_r. apply hash_full; [exact M|]. apply in_txout; [apply tx_recipe; assumption|apply index_ok, R].
Qed.
Lemma outpoint_recipe v h : object ct (p_outpoint P) v -> phash ct v = Ok h -> recipe P v h.
Proof.
  intros O H. destruct (object_cases _ _ _ _ _ (d_outpoint ct P C) O) as [(fs & -> & F)|(dh & -> & _)]; [|apply pruned_recipe; [inn|exact H]].
  inversion F as [|? ? ? f ? H1 H2]; subst. inversion H2 as [|? ? ? g ? H3 H4]; subst. inversion H4; subst. destruct (int_shape ct _ H3) as (i & -> & R).
  destruct (full_hash _ _ _ H ltac:(inn)) as (m & x & M & X & ->). destruct (d_outpoint ct P C) as (A & _). rewrite A in X. cbn [hash_fields] in X. rewrite int_ser in X. cbn [bind] in X.
  destruct (phash ct f) as [hp|] eqn:E; cbn [bind] in X; [|discriminate]. injection X as <-. rewrite app_nil_r. apply hash_full; [exact M|]. apply in_outpoint; [apply tx_recipe; assumption|apply index_ok, R].
Qed.
Lemma fseal_recipe v h : object ct (p_fseal P) v -> phash ct v = Ok h -> recipe P v h.
Proof.
  intros O H. destruct (fseal_shape ct P C v O) as [(d & -> & _)|(dh & -> & _)]; [|apply pruned_recipe; [inn|exact H]].
  unfold FakeSeal in H. destruct (full_hash _ _ _ H ltac:(inn)) as (m & x & M & X & ->). destruct (d_fseal ct P C) as (A & _). rewrite A in X. cbn in X. injection X as <-. rewrite app_nil_r. apply hash_full; [exact M|apply in_fseal].
Qed.
Lemma fwit_recipe v h : object ct (p_fwit P) v -> phash ct v = Ok h -> recipe P v h.
Proof.
  intros O H. destruct (fwit_shape ct P C v O) as [(s & -> & Os)|(dh & -> & _)]; [|apply pruned_recipe; [inn|exact H]].
  unfold FakeWitness in H. destruct (full_hash _ _ _ H ltac:(inn)) as (m & x & M & X & ->). destruct (d_fwit ct P C) as (A & _). rewrite A in X. cbn [hash_fields] in X.
  destruct (phash ct s) as [hs|] eqn:E; cbn [bind] in X; [|discriminate]. injection X as <-. rewrite app_nil_r. apply hash_full; [exact M|]. apply in_fwit, fseal_recipe; assumption.
Qed.
Lemma bseal_recipe v h : object ct (p_bseal P) v -> phash ct v = Ok h -> recipe P v h.
Proof.
  intros O H. destruct (seal_shape ct P C v O) as [(o & n & -> & (Lo & Ro) & _)|(dh & -> & _)]; [|apply pruned_recipe; [inn|exact H]].
  assert (B : le 4 (o_n o) (le_enc 4 (Z.to_N (o_n o)))). { split; [apply le_enc_length|]. rewrite little_dec, le_dec_enc; [lia|]. change (256 ^ N.of_nat 4)%N with 4294967296%N. lia. }
  unfold Seal in H. destruct (full_hash _ _ _ H ltac:(inn)) as (m & x & M & X & ->). destruct (d_bseal ct P C) as (A & _). rewrite A in X. cbn [hash_fields] in X. rewrite (out_ser o _ Lo B) in X.
  cbn [bind ser_leaf prim_ser to_py] in X. injection X as <-. rewrite app_nil_r. apply hash_full; [exact M|].
  change ((x24 :: o_hash o ++ le_enc 4 (Z.to_N (o_n o))) ++ n) with (x24 :: ((o_hash o ++ le_enc 4 (Z.to_N (o_n o))) ++ n)). rewrite <- app_assoc. apply in_bseal; assumption.
Qed.
Lemma bwit_recipe v h : object ct (p_bwit P) v -> phash ct v = Ok h -> recipe P v h.
Proof.
  intros O H. destruct (witness_shape ct P C v O) as [(s & i & o & -> & Os & Oi & Oo)|(dh & -> & _)]; [|apply pruned_recipe; [inn|exact H]].
  unfold Witness in H. destruct (full_hash _ _ _ H ltac:(inn)) as (m & x & M & X & ->). destruct (d_bwit ct P C) as (A & _). rewrite A in X. cbn [hash_fields] in X.
  destruct (phash ct s) as [hs|] eqn:Es; cbn [bind] in X; [|discriminate]. destruct (phash ct i) as [hi|] eqn:Ei; cbn [bind] in X; [|discriminate].
  destruct (phash ct o) as [ho|] eqn:Eo; cbn [bind] in X; [|discriminate]. injection X as <-. rewrite app_nil_r. apply hash_full; [exact M|].
  apply in_bwit; [apply bseal_recipe|apply txin_recipe|apply txout_recipe]; assumption.
Qed.

Lemma hash_recipe v c h : In c [p_tx P; p_outpoint P; p_txin P; p_txout P; p_fseal P; p_fwit P; p_bseal P; p_bwit P] -> object ct c v ->
  (phash ct v = Ok h <-> recipe P v h).
Proof.
  intros I O. split; [|apply recipe_hash].
  cbn [In] in I. destruct I as [<-|[<-|[<-|[<-|[<-|[<-|[<-|[<-|[]]]]]]]]];
  [apply tx_recipe|apply outpoint_recipe|apply txin_recipe|apply txout_recipe|apply fseal_recipe|apply fwit_recipe|apply bseal_recipe|apply bwit_recipe]; exact O.
Qed.
End Recipe.
