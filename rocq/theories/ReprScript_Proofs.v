(** Scripts spelled the shortest way: what pasting a printed script keeps, and what
    [has_canonical_pushes] tells. *)
From Verif Require Import Base Tx_Model Tx_Spec Script_Model Script_Spec Script_Proofs Base58_Model Base58_Spec PyText_Spec Repr_Model Repr_Spec Repr_Proofs ReprTx_Proofs.
From Coq Require Import Lia ZifyBool ZifyNat ZifyN.
Local Open Scope list_scope.

Lemma item_of_wf c : wf_cooked c -> wf_item (item_of c) /\ parsed (item_of c) = c.
Proof.
  destruct c as [d|z|n]; cbn [wf_cooked item_of wf_item parsed]; intros W.
  - split; [exact W|reflexivity].
  - destruct (z =? 0)%Z eqn:E; [lia|]. assert (((1 <=? z) && (z <=? 16))%Z%bool = true) as -> by lia. split; [|reflexivity].
    assert (Z.abs z = z) as -> by lia. apply Z.le_lt_trans with (Z.log2 16); [apply Z.log2_le_mono; lia|reflexivity].
  - destruct ((81 <=? n) && (n <=? 96))%N%bool eqn:E; [lia|]. split; [lia|reflexivity].
Qed.

Lemma respelled_ops s s' : respelled s s' -> forall ops, has_ops s ops -> has_ops s' ops.
Proof.
  intros (ops & H & ->) ops' H'. unfold has_ops in *. assert (ops' = ops) as -> by congruence. pose proof (iter_wf _ _ _ H) as W.
  destruct (script_parses (map item_of ops)) as (s' & E & P).
  { apply Forall_map. eapply Forall_impl; [|exact W]. intros c C. apply (item_of_wf c C). }
  rewrite cscript_spelled in E by exact W. injection E as <-. rewrite P. f_equal. rewrite map_map. clear -W.
  induction W as [|c l C _ IH]; [reflexivity|]. cbn [map]. rewrite IH. f_equal. apply (item_of_wf c C).
Qed.

Lemma respelled_twice s s' : respelled s s' -> respelled s' s'.
Proof. intros R. destruct R as (ops & H & E). exists ops. split; [|exact E]. apply (respelled_ops s s'); [exists ops; auto|exact H]. Qed.
Lemma respelled_fun s a b : respelled s a -> respelled s b -> a = b.
Proof. intros (x & X & ->) (y & Y & ->). unfold has_ops in *. congruence. Qed.

(** ** The shortest push *)

Definition short (op l : N) : bool :=
  negb ((op =? 0x4c) && (l <? 0x4c) || (op =? 0x4d) && (l <=? 0xff) || (op =? 0x4e) && (l <=? 0xffff))%N.

Lemma push_op_short op s l h s2 : push_size op s = Ok (l, h, s2) -> (op <= 0x4e)%N -> (short op l = true <-> push_op l = op).
Proof.
  intros P L. unfold push_size in P. unfold short, push_op. destruct (op <? 76)%N eqn:E.
  - injection P as <- <- <-. rewrite E. lia.
  - destruct (op =? 76)%N eqn:E1.
    + destruct s as [|b s]; [discriminate|]. injection P as <- <- <-. pose proof (bN_lt b).
      destruct (bN b <? 76)%N eqn:A; [lia|]. destruct (bN b <=? 255)%N eqn:B; lia.
    + destruct (op =? 77)%N eqn:E2.
      * destruct s as [|b [|b1 s]]; try discriminate. injection P as <- <- <-. rewrite N.shiftl_mul_pow2. pose proof (bN_lt b). pose proof (bN_lt b1). change (2 ^ 8)%N with 256%N.
        assert (op = 77)%N as -> by lia. cbn [N.eqb Pos.eqb andb orb]. assert (W : (bN b + bN b1 * 256 <= 65535)%N) by lia.
        revert W. generalize (bN b + bN b1 * 256)%N as l. intros l W. rewrite orb_false_r.
        destruct (l <? 76)%N eqn:A; [assert ((l <=? 255)%N = true) as -> by lia; cbn [negb]; split; [discriminate|lia]|].
        destruct (l <=? 255)%N eqn:B; [cbn [negb]; split; discriminate|]. cbn [negb]. assert ((l <=? 65535)%N = true) as -> by lia. tauto.
      * destruct (l <? 76)%N eqn:A; [lia|]. destruct (l <=? 255)%N eqn:B; [lia|]. destruct (l <=? 65535)%N eqn:C; lia.
Qed.

Lemma shortest_head d : (blen d < 2 ^ 32)%N -> exists b hdr, shortest_push d = b :: hdr ++ d /\ bN b = push_op (blen d) /\
  forall rest, push_size (bN b) (hdr ++ rest) = Ok (blen d, push_hdr (blen d), rest).
Proof.
  intros H. destruct (push_encoded d H) as (b & hdr & A & B & _ & C). exists b, hdr. split; [|auto].
  pose proof (coerce_item (CData d) H) as E. cbn [item_of coerce spelled] in E. congruence.
Qed.

(** The length is read from the bytes after the opcode in only one way. *)
Lemma push_size_inv op s l h s2 s' h' s2' : push_size op s = Ok (l, h, s2) -> push_size op s' = Ok (l, h', s2') -> exists hdr, s = hdr ++ s2 /\ s' = hdr ++ s2'.
Proof.
  unfold push_size. destruct (op <? 76)%N; [intros A B; injection A as A1 A2 A3; injection B as B1 B2 B3; subst; exists []; split; reflexivity|].
  destruct (op =? 76)%N.
  { destruct s as [|b s]; [discriminate|]. destruct s' as [|b' s']; [discriminate|]. intros A B; injection A as A1 A2 A3; injection B as B1 B2 B3; subst.
    apply bN_inj in B1. subst. exists [b]. split; reflexivity. }
  assert (D : forall x y x' y' : N, (x < 256 -> x' < 256 -> x + y * 256 = x' + y' * 256 -> x = x' /\ y = y')%N) by (intros; lia).
  destruct (op =? 77)%N.
  { destruct s as [|b [|b1 s]]; try discriminate. destruct s' as [|b' [|b1' s']]; try discriminate. rewrite !N.shiftl_mul_pow2. change (2 ^ 8)%N with 256%N.
    intros A B; injection A as A1 A2 A3; injection B as B1 B2 B3; subst. apply D in B1; [|apply bN_lt..]. destruct B1 as [X Y]. apply bN_inj in X, Y. subst. exists [b; b1]. split; reflexivity. }
  destruct s as [|b [|b1 [|b2 [|b3 s]]]]; try discriminate. destruct s' as [|b' [|b1' [|b2' [|b3' s']]]]; try discriminate. rewrite !N.shiftl_mul_pow2.
  change (2 ^ 8)%N with 256%N. change (2 ^ 16)%N with 65536%N. change (2 ^ 24)%N with 16777216%N.
  intros A B; injection A as A1 A2 A3; injection B as B1 B2 B3; subst.
  pose proof (bN_lt b). pose proof (bN_lt b1). pose proof (bN_lt b2). pose proof (bN_lt b3). pose proof (bN_lt b'). pose proof (bN_lt b1'). pose proof (bN_lt b2'). pose proof (bN_lt b3').
  assert (bN b = bN b') as X0 by lia. assert (bN b1 = bN b1') as X1 by lia. assert (bN b2 = bN b2') as X2 by lia. assert (bN b3 = bN b3') as X3 by lia.
  apply bN_inj in X0, X1, X2, X3. subst. exists [b'; b1'; b2'; b3']. split; reflexivity.
Qed.

Definition short_item (x : N * option bytes * nat) : bool :=
  match x with (op, Some d, _) => short op (blen d) | _ => true end.

Lemma spelled_op op i : (0x4e < op < 256)%N -> spelled (cook (op, None, i)) = [Nb op].
Proof.
  intros H. unfold cook, is_small_int, decode_op_n. destruct (op =? 0)%N eqn:Z; [lia|].
  destruct ((81 <=? op)%N && (op <=? 96)%N)%bool eqn:E; cbn [orb spelled]; [|reflexivity]. do 2 f_equal. lia.
Qed.

Lemma spelled_iff fuel : forall i s raws, (List.length s < fuel)%nat -> raw_iter_loop fuel i s = (raws, None) ->
  (s = flat_map spelled (map cook raws) <-> forallb short_item raws = true).
Proof.
  induction fuel as [|f IH]; intros i s raws F R; [lia|]. destruct s as [|b s]; [cbn in R; injection R as <-; cbn; tauto|].
  cbn [List.length] in F. rewrite raw_loop_S in R. pose proof (bN_lt b). destruct (78 <? bN b)%N eqn:E.
  - destruct (raw_iter_loop f (S i) s) as [raws' e] eqn:R'. cbn [fst snd] in R. injection R as <- ->.
    cbn [map flat_map forallb short_item andb]. rewrite spelled_op by lia. rewrite Nb_bN. cbn [app]. rewrite <- (IH (S i) s raws') by (assumption || lia).
    split; intros Q; congruence.
  - destruct (push_size (bN b) s) as [[[l h] s2]|x] eqn:P; [|discriminate]. destruct (blen s2 <? l)%N eqn:L; [discriminate|].
    destruct (raw_iter_loop f _ (skipn (N.to_nat l) s2)) as [raws' e] eqn:R'. cbn [fst snd] in R. injection R as <- ->.
    set (d := firstn (N.to_nat l) s2) in *. pose proof (push_size_le _ _ _ _ _ P) as PL. pose proof (push_size_bound _ _ _ _ _ P) as PB.
    assert (BD : blen d = l) by (unfold d, blen in *; rewrite firstn_length; lia).
    apply (IH _ _ raws') in R'; [|rewrite skipn_length; lia].
    cbn [map flat_map forallb short_item cook spelled]. rewrite BD. rewrite andb_true_iff, <- R', (push_op_short _ _ _ _ _ P) by lia.
    destruct (shortest_head d ltac:(lia)) as (b' & hdr & E1 & E2 & E3). rewrite BD in *. rewrite E1. cbn [app]. rewrite <- app_assoc.
    set (t := flat_map spelled (map cook raws')) in *.
    pose proof (E3 (d ++ t)) as E4. rewrite <- (firstn_skipn (N.to_nat l) s2) in P. fold d in P. split.
    + intros Q. injection Q as -> Q. split; [congruence|].
      rewrite Q, E3 in P. injection P as _ P. apply (app_inv_head d). symmetry. exact P.
    + intros [Q S]. assert (b' = b) as -> by (apply bN_inj; congruence).
      destruct (push_size_inv _ _ _ _ _ _ _ _ P E4) as (hdr' & -> & Q2). rewrite <- S in Q2. apply app_inv_tail in Q2. subst hdr'. rewrite S. reflexivity.
Qed.


Lemma canonical_item fuel : forall i s x, In x (fst (raw_iter_loop fuel i s)) -> canonical_push x = true <-> short_item x = true /\ ~ small_push (cook x).
Proof.
  induction fuel as [|f IH]; intros i s x I; [destruct I|]. destruct s as [|b s]; [destruct I|]. rewrite raw_loop_S in I.
  destruct (78 <? bN b)%N eqn:E.
  - destruct I as [<-|I]; [|apply (IH _ _ _ I)]. cbn [canonical_push short_item]. split; [intros _|reflexivity]. split; [reflexivity|].
    pose proof (cook_op (bN b) i ltac:(pose proof (bN_lt b); lia)). unfold cook. destruct (is_small_int (bN b)); [destruct (decode_op_n (bN b))|]; cbn; tauto.
  - destruct (push_size (bN b) s) as [[[l h] s2]|e] eqn:P; [|destruct I]. destruct (blen s2 <? l)%N eqn:L; [destruct I|].
    destruct I as [<-|I]; [|apply (IH _ _ _ I)]. set (d := firstn (N.to_nat l) s2).
    assert (BD : blen d = l) by (unfold d, blen in *; rewrite firstn_length; lia). cbn [canonical_push short_item cook small_push]. unfold short.
    destruct (96 <? bN b)%N eqn:E0; [lia|].
    assert (LOP : (bN b < 76)%N -> l = bN b) by (intros Q; unfold push_size in P; destruct (bN b <? 76)%N eqn:G; [congruence|lia]).
    destruct d as [|y [|y2 d']]; unfold blen in BD; cbn [List.length] in BD; unfold blen; cbn [List.length].
    + cbn [N.of_nat N.eqb]. rewrite andb_false_r. cbn [andb].
      destruct ((bN b =? 76)%N && _)%bool; [|destruct ((bN b =? 77)%N && _)%bool; [|destruct ((bN b =? 78)%N && _)%bool]]; cbn [orb negb]; intuition discriminate.
    + change (N.of_nat 1) with 1%N in *. destruct (bN b <? 76)%N eqn:G.
      * specialize (LOP ltac:(lia)). assert ((bN b =? 76)%N = false /\ (bN b =? 77)%N = false /\ (bN b =? 78)%N = false /\ (0 <? bN b)%N = true) as (-> & -> & -> & ->) by lia.
        cbn [andb orb negb N.eqb Pos.eqb]. destruct (bN y <=? 16)%N eqn:Y; split; intros Q; try discriminate; try reflexivity; [lia|split; [reflexivity|lia]].
      * cbn [andb]. assert (bN b = 76 \/ bN b = 77 \/ bN b = 78)%N as [-> | [-> | ->]] by lia; cbn; intuition discriminate.
    + assert ((N.of_nat (S (S (List.length d'))) =? 1)%N = false) as -> by lia. rewrite andb_false_r. cbn [andb].
      destruct ((bN b =? 76)%N && _)%bool; [|destruct ((bN b =? 77)%N && _)%bool; [|destruct ((bN b =? 78)%N && _)%bool]]; cbn [orb negb]; intuition discriminate.
Qed.

Lemma canonical_iff s : has_canonical_pushes s = true <-> respelled s s /\ forall ops, has_ops s ops -> Forall (fun c => ~ small_push c) ops.
Proof.
  unfold has_canonical_pushes, respelled, has_ops, script_iter. pose proof (canonical_item (S (List.length s)) 0 s) as CI.
  pose proof (spelled_iff (S (List.length s)) 0 s) as SI. unfold raw_iter. destruct (raw_iter_loop (S (List.length s)) 0 s) as [raws [e|]]; cbn [fst] in CI.
  - rewrite andb_false_r. split; [discriminate|]. intros [(ops & H & _) _]. discriminate.
  - rewrite andb_true_r. specialize (SI raws ltac:(lia) eq_refl). split.
    + intros H. rewrite forallb_forall in H. split.
      * exists (map cook raws). split; [reflexivity|]. apply SI, forallb_forall. intros x X. apply (CI x X), H, X.
      * intros ops O. injection O as <-. apply Forall_map, Forall_forall. intros x X. apply (CI x X), H, X.
    + intros [(ops & O & E) N]. injection O as <-. apply SI in E. rewrite forallb_forall in *. specialize (N _ eq_refl). rewrite Forall_map, Forall_forall in N.
      intros x X. apply (CI x X). auto.
Qed.

(** ** When the transaction that comes back is the one that was printed *)

Lemma pasted_identity t t' : pasted_tx t t' ->
  (t' = t <-> Forall (fun s => respelled s s) (scripts t) /\ Forall (fun o => pasted_amount (o_nValue o) = o_nValue o) (t_vout t)).
Proof.
  intros (I & O & L & V). unfold scripts. rewrite Forall_app, !Forall_map.
  assert (A : t_vin t' = t_vin t <-> Forall (fun i => respelled (i_scriptSig i) (i_scriptSig i)) (t_vin t)).
  { clear -I. induction I as [|i i' l l' (P & Q & R) _ IH]; [split; [constructor|reflexivity]|]. split.
    - intros E. injection E as -> ->. constructor; [exact R|apply IH; reflexivity].
    - intros F. inversion F as [|x y R' F']; subst. f_equal; [|apply IH, F']. destruct i, i'; cbn in *. subst. f_equal. apply (respelled_fun _ _ _ R R'). }
  assert (B : t_vout t' = t_vout t <-> Forall (fun o => respelled (o_scriptPubKey o) (o_scriptPubKey o)) (t_vout t) /\ Forall (fun o => pasted_amount (o_nValue o) = o_nValue o) (t_vout t)).
  { clear -O. induction O as [|i i' l l' (P & R) _ IH]; [split; [split; constructor|reflexivity]|]. split.
    - intros E. injection E as -> ->. split; (constructor; [|apply IH; reflexivity]); [exact R|congruence].
    - intros [F G]. inversion F as [|x y R' F']; subst. inversion G as [|x y P' G']; subst. f_equal; [|apply IH; split; assumption].
      destruct i, i'; cbn in *. f_equal; [congruence|apply (respelled_fun _ _ _ R R')]. }
  split.
  - intros ->. destruct A as [A _]. destruct B as [B _]. specialize (A eq_refl). specialize (B eq_refl). tauto.
  - intros [[F G] H]. apply A in F. assert (K : t_vout t' = t_vout t) by (apply B; auto). destruct t, t'; cbn in *. congruence.
Qed.
