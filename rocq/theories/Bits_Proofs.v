(** Lemmas about the Bits model. *)
From Verif Require Import Base PySlice PySlice_Proofs Bits_Model Bits_Spec.
From Coq Require Import ZifyBool ZifyNat ZifyN.
Ltac Zify.zify_post_hook ::= Z.div_mod_to_equations.

(** ** Bytes and bits *)

Lemma byte_bits_length b : List.length (byte_bits b) = 8.
Proof. reflexivity. Qed.

Lemma bytes_bits_length b : List.length (bytes_bits b) = 8 * List.length b.
Proof.
  induction b as [|x b IH]; [reflexivity|].
  cbn [bytes_bits flat_map]. fold (bytes_bits b).
  rewrite app_length, byte_bits_length, IH. cbn [List.length]. lia.
Qed.

Lemma bytes_bits_app a b : bytes_bits (a ++ b) = bytes_bits a ++ bytes_bits b.
Proof. unfold bytes_bits. apply flat_map_app. Qed.

Lemma bytes_bits_cons a b : bytes_bits (a :: b) = byte_bits a ++ bytes_bits b.
Proof. reflexivity. Qed.

Lemma byte_bits_nth b i : i < 8 ->
  nth_error (byte_bits b) i = Some (N.testbit (bN b) (N.of_nat (7 - i))).
Proof.
  intros H. do 8 (destruct i as [|i]; [reflexivity|]). lia.
Qed.

Lemma bytes_bits_nth buf i :
  nth_error (bytes_bits buf) i =
  option_map (fun b => N.testbit (bN b) (N.of_nat (7 - i mod 8))) (nth_error buf (i / 8)).
Proof.
  revert i; induction buf as [|x buf IH]; intros i.
  - cbn. rewrite !(proj2 (nth_error_None _ _)) by (cbn; lia). reflexivity.
  - rewrite bytes_bits_cons. destruct (Nat.lt_ge_cases i 8) as [Hi|Hi].
    + rewrite nth_error_app1 by (rewrite byte_bits_length; exact Hi).
      rewrite byte_bits_nth by exact Hi.
      rewrite Nat.div_small, Nat.mod_small by exact Hi. reflexivity.
    + rewrite nth_error_app2 by (rewrite byte_bits_length; exact Hi).
      rewrite byte_bits_length, IH.
      replace (i / 8) with (S ((i - 8) / 8)) by lia.
      replace ((i - 8) mod 8) with (i mod 8) by lia. reflexivity.
Qed.

Lemma byte_bits_inj a b : byte_bits a = byte_bits b -> a = b.
Proof.
  intros H. apply bN_inj. unfold byte_bits in H. cbn [map] in H.
  injection H as H7 H6 H5 H4 H3 H2 H1 H0.
  apply N.bits_inj. intros n.
  destruct (N.lt_ge_cases n 8) as [Hn|Hn].
  - assert (n = 0 \/ n = 1 \/ n = 2 \/ n = 3 \/ n = 4 \/ n = 5 \/ n = 6 \/ n = 7)%N as Hc by lia.
    intuition (subst; assumption).
  - assert (forall x, N.testbit (bN x) n = false) as Hz.
    { intros x. destruct (N.eq_dec (bN x) 0) as [->|Hx]; [apply N.bits_0|].
      apply N.bits_above_log2. pose proof (bN_lt x).
      apply N.lt_le_trans with 8%N; [|exact Hn].
      apply N.log2_lt_pow2; [lia|]. cbn. lia. }
    rewrite !Hz. reflexivity.
Qed.

Lemma bytes_bits_inj a b : bytes_bits a = bytes_bits b -> a = b.
Proof.
  revert b; induction a as [|x a IH]; intros [|y b] H; try reflexivity.
  - apply (f_equal (@List.length _)) in H. rewrite !bytes_bits_length in H. cbn in H. lia.
  - apply (f_equal (@List.length _)) in H. rewrite !bytes_bits_length in H. cbn in H. lia.
  - rewrite !bytes_bits_cons in H. apply app_inj_len in H; [|reflexivity].
    destruct H as [H1 H2]. f_equal; [apply byte_bits_inj; exact H1 | apply IH; exact H2].
Qed.

Lemma bytes_bits_firstn k buf : bytes_bits (firstn k buf) = firstn (8 * k) (bytes_bits buf).
Proof.
  revert k; induction buf as [|x buf IH]; intros [|k]; try reflexivity.
  cbn [firstn]. rewrite !bytes_bits_cons, IH.
    replace (8 * S k) with (8 + 8 * k) by lia.
    rewrite firstn_app, byte_bits_length. rewrite (firstn_all2 (n := 8 + 8 * k) (byte_bits x)) by (rewrite byte_bits_length; lia).
    f_equal. f_equal. lia.
Qed.

Lemma bytes_bits_skipn k buf : bytes_bits (skipn k buf) = skipn (8 * k) (bytes_bits buf).
Proof.
  revert k; induction buf as [|x buf IH]; intros [|k]; try reflexivity.
  cbn [skipn]. rewrite !bytes_bits_cons, IH.
    replace (8 * S k) with (8 + 8 * k) by lia.
    rewrite skipn_app, byte_bits_length, (skipn_all2 (n := 8 + 8 * k) (byte_bits x)) by (rewrite byte_bits_length; lia).
    cbn [app]. f_equal. lia.
Qed.

Lemma bits_of_length b : bits_ok b -> List.length (bits_of b) = b_len b.
Proof. intros H. unfold bits_of. rewrite firstn_length, bytes_bits_length. unfold bits_ok in H. lia. Qed.

Lemma nth_error_firstn {A} (l : list A) n i : i < n -> nth_error (firstn n l) i = nth_error l i.
Proof.
  revert n l; induction i as [|i IH]; intros [|n] [|x l] H; try lia; try reflexivity.
  cbn. apply IH. lia.
Qed.

Lemma nth_error_ext {A} (l l' : list A) :
  (forall i, nth_error l i = nth_error l' i) -> l = l'.
Proof.
  revert l'; induction l as [|x l IH]; intros [|y l'] H; try reflexivity.
  - specialize (H 0); discriminate.
  - specialize (H 0); discriminate.
  - f_equal; [specialize (H 0); cbn in H; congruence|]. apply IH. intros i. exact (H (S i)).
Qed.

Lemma nth_error_lt {A} (l : list A) i : i < List.length l -> exists x, nth_error l i = Some x.
Proof. intros H. destruct (nth_error l i) eqn:E; [eauto|]. apply nth_error_None in E. lia. Qed.

(** ** Reading bits *)

Lemma bit_at_spec buf i :
  bit_at buf i = match nth_error (bytes_bits buf) i with Some x => Ok (bit x) | None => Err IndexError end.
Proof.
  unfold bit_at, byte_at. rewrite bytes_bits_nth.
  destruct (nth_error buf (i / 8)) as [b|]; cbn [bind option_map]; [|reflexivity].
  f_equal. unfold bit.
  set (k := N.of_nat (7 - i mod 8)).
  replace k with (0 + k)%N at 2 by lia. rewrite <- N.shiftr_spec'.
  generalize (N.shiftr (bN b) k) as m. intros m.
  change 1%N with (N.ones 1) at 1. rewrite N.land_ones. rewrite N.bit0_odd.
  change (2 ^ 1)%N with 2%N. rewrite <- N.bit0_mod. rewrite N.bit0_odd.
  destruct (N.odd m); reflexivity.
Qed.

Lemma map_res_ok {A B} (f : A -> result B) (g : A -> B) l :
  (forall a, In a l -> f a = Ok (g a)) -> map_res f l = Ok (map g l).
Proof.
  induction l as [|a l IH]; intros H; [reflexivity|]. cbn.
  rewrite (H a) by (left; reflexivity). cbn. rewrite IH by (intros; apply H; right; assumption). reflexivity.
Qed.

Lemma map_nth_seq {A} (d : A) l : map (fun i => nth i l d) (seq 0 (List.length l)) = l.
Proof.
  induction l as [|x l IH]; [reflexivity|].
  cbn. rewrite <- seq_shift, map_map. f_equal. exact IH.
Qed.

Lemma bits_of_nth b i : i < b_len b -> nth_error (bits_of b) i = nth_error (bytes_bits (b_buf b)) i.
Proof. intros H. apply nth_error_firstn. exact H. Qed.

Lemma bits_iter_spec b : bits_ok b -> bits_iter b = Ok (map bit (bits_of b)).
Proof.
  intros Hok. unfold bits_iter.
  rewrite (map_res_ok _ (fun i => bit (nth i (bits_of b) false))).
  - rewrite <- (map_map (fun i => nth i (bits_of b) false) bit).
    rewrite <- (bits_of_length b Hok) at 1. rewrite map_nth_seq. reflexivity.
  - intros i Hi. apply in_seq in Hi. rewrite bit_at_spec.
    rewrite <- bits_of_nth by lia.
    destruct (nth_error (bits_of b) i) eqn:E.
    + rewrite (nth_error_nth _ _ _ E). reflexivity.
    + apply nth_error_None in E. rewrite bits_of_length in E by assumption. lia.
Qed.

Lemma bits_getitem_spec b i : bits_ok b ->
  bits_getitem b i = match py_index (bits_of b) i with Ok x => Ok (bit x) | Err e => Err e end.
Proof.
  intros Hok. unfold bits_getitem, py_index. rewrite bits_of_length by assumption.
  set (j := if (i <? 0)%Z then (Z.of_nat (b_len b) + i)%Z else i).
  replace (if (i <? 0)%Z then (i + Z.of_nat (b_len b))%Z else i) with j by (subst j; destruct (i <? 0)%Z; lia).
  unfold znth. destruct (Z.ltb_spec j 0) as [Hj|Hj].
  - replace (0 <=? j)%Z with false by lia. reflexivity.
  - replace (0 <=? j)%Z with true by lia.
    destruct (Z.ltb_spec j (Z.of_nat (b_len b))) as [Hl|Hl]; cbn [andb negb].
    + rewrite bit_at_spec, <- bits_of_nth by lia.
      destruct (nth_error (bits_of b) (Z.to_nat j)); reflexivity.
    + rewrite (proj2 (nth_error_None _ _)); [reflexivity|].
      rewrite bits_of_length by assumption. lia.
Qed.

(** ** Building from an iterable *)

Lemma bytes_of_ints_ok l : Forall (fun n => n < 256)%N l -> bytes_of_ints l = Ok (map Nb l).
Proof.
  induction 1 as [|n l Hn Hl IH]; [reflexivity|]. cbn [bytes_of_ints]. rewrite pybyte_ok by assumption.
  cbn [bind]. rewrite IH. reflexivity.
Qed.

(** Value of a partially filled byte: bits [l] from the top. *)
Fixpoint top_bits (k : nat) (l : list bool) : N :=
  match l with
  | [] => 0%N
  | x :: l' => N.lor (N.shiftl (N.b2n x) (N.of_nat k)) (top_bits (k - 1) l')
  end.

Fixpoint all_bool_lists (n : nat) : list (list bool) :=
  match n with
  | O => [[]]
  | S n' => flat_map (fun l => [true :: l; false :: l]) (all_bool_lists n')
  end.

Lemma all_bool_lists_complete l : In l (all_bool_lists (List.length l)).
Proof.
  induction l as [|x l IH]; [left; reflexivity|].
  cbn [List.length all_bool_lists]. apply in_flat_map. exists l. split; [exact IH|].
  destruct x; cbn; auto.
Qed.

Definition bools_eqb (a b : list bool) : bool := if list_eq_dec bool_dec a b then true else false.
Lemma bools_eqb_eq a b : bools_eqb a b = true <-> a = b.
Proof. unfold bools_eqb. destruct (list_eq_dec bool_dec a b); split; congruence. Qed.

Lemma sweep_bools (n : nat) (P : list bool -> bool) :
  forallb P (all_bool_lists n) = true -> forall l, List.length l = n -> P l = true.
Proof. intros H l Hl. rewrite forallb_forall in H. apply H. rewrite <- Hl. apply all_bool_lists_complete. Qed.

(** A byte assembled from at most 8 bits. *)
Lemma top_bits_sweep : forall n, n <= 8 -> forall l, List.length l = n ->
  ((top_bits 7 l <? 256)%N && bools_eqb (byte_bits (Nb (top_bits 7 l))) (l ++ repeat false (8 - n))) = true.
Proof.
  intros n Hn. do 9 (destruct n as [|n]; [apply sweep_bools; vm_compute; reflexivity|]). lia.
Qed.

Lemma top_bits_lt l : List.length l <= 8 -> (top_bits 7 l < 256)%N.
Proof. intros H. pose proof (top_bits_sweep _ H l eq_refl) as E. apply andb_true_iff in E as [E _]. lia. Qed.

Lemma top_bits_bits l : List.length l <= 8 ->
  byte_bits (Nb (top_bits 7 l)) = l ++ repeat false (8 - List.length l).
Proof. intros H. pose proof (top_bits_sweep _ H l eq_refl) as E. apply andb_true_iff in E as [_ E].
  apply bools_eqb_eq in E. exact E. Qed.

Lemma top_bits_snoc k l x : List.length l <= k ->
  top_bits k (l ++ [x]) = N.lor (top_bits k l) (N.shiftl (N.b2n x) (N.of_nat (k - List.length l))).
Proof.
  revert k; induction l as [|y l IH]; intros k Hk; cbn [app top_bits List.length].
  - rewrite N.lor_0_r, N.lor_0_l, Nat.sub_0_r. reflexivity.
  - rewrite IH by (cbn in Hk; lia). rewrite N.lor_assoc. do 3 f_equal. cbn in Hk; lia.
Qed.

Lemma bits_new_loop_spec it : forall (done : list bool) buf part,
  List.length part < 8 -> List.length done = 8 * List.length buf ->
  bytes_bits (map Nb buf) = done -> Forall (fun n => n < 256)%N buf ->
  exists buf' part',
    bits_new_loop it buf (top_bits 7 part) (List.length done + List.length part)
      = (buf', top_bits 7 part', List.length done + List.length part + List.length it) /\
    List.length part' < 8 /\ Forall (fun n => n < 256)%N buf' /\
    bytes_bits (map Nb buf') ++ part' = done ++ part ++ it.
Proof.
  induction it as [|x it IH]; intros done buf part Hp Hd Hb Hf; cbn [bits_new_loop].
  - exists buf, part. rewrite Hb, app_nil_r. cbn [List.length]. repeat split; auto.
  - replace (7 - (List.length done + List.length part) mod 8) with (7 - List.length part) by lia.
    rewrite <- top_bits_snoc by lia.
    replace (S (List.length done + List.length part)) with (List.length done + List.length (part ++ [x]))
      by (rewrite app_length; cbn; lia).
    assert (List.length (part ++ [x]) = S (List.length part)) as HS by (rewrite app_length; cbn; lia).
    destruct (Nat.eqb_spec ((List.length done + List.length (part ++ [x])) mod 8) 0) as [H0|H0].
    + assert (List.length (part ++ [x]) = 8) as H8 by lia.
      change 0%N with (top_bits 7 []).
      specialize (IH (done ++ part ++ [x]) (buf ++ [top_bits 7 (part ++ [x])]) []).
      destruct IH as (buf' & part' & E1 & E2 & E3 & E4).
      * cbn; lia.
      * rewrite !app_length, <- app_length, H8. cbn. lia.
      * rewrite map_app, bytes_bits_app, Hb. cbn [map bytes_bits flat_map].
        rewrite top_bits_bits by lia. rewrite H8. cbn [Nat.sub repeat]. rewrite !app_nil_r. reflexivity.
      * apply Forall_app; split; [assumption|]. constructor; [|constructor]. apply top_bits_lt. lia.
      * exists buf', part'. split; [|split; [|split]]; try assumption.
        -- replace (List.length done + List.length (part ++ [x]))
             with (List.length (done ++ part ++ [x]) + List.length (@nil bool))
             by (rewrite !app_length; cbn; lia).
           rewrite E1. f_equal. rewrite !app_length. cbn. lia.
        -- rewrite E4. rewrite <- !app_assoc. reflexivity.
    + specialize (IH done buf (part ++ [x])).
      destruct IH as (buf' & part' & E1 & E2 & E3 & E4); auto.
      * lia.
      * exists buf', part'. split; [|split; [|split]]; try assumption.
        -- rewrite E1. f_equal. rewrite !app_length. cbn. lia.
        -- rewrite E4. rewrite <- !app_assoc. reflexivity.
Qed.

Lemma firstn_app_exact {A} (a b : list A) n : List.length a = n -> firstn n (a ++ b) = a.
Proof. intros <-. rewrite firstn_app, Nat.sub_diag, firstn_all. cbn. apply app_nil_r. Qed.

Lemma bits_new_spec it : exists b, bits_new it = Ok b /\ bits_ok b /\ bits_of b = it.
Proof.
  destruct (bits_new_loop_spec it [] [] []) as (buf & part & E1 & E2 & E3 & E4);
    [cbn; lia | reflexivity | reflexivity | constructor |].
  cbn [List.length Nat.add top_bits app] in E1, E4. unfold bits_new. rewrite E1.
  destruct (Nat.eqb_spec (List.length it) 0) as [H0|H0].
  - destruct it; [|discriminate]. exists bits_empty. repeat split. unfold bits_ok; cbn; lia.
  - assert (Forall (fun n => n < 256)%N (buf ++ [top_bits 7 part])) as Hf.
    { apply Forall_app; split; [assumption|]. constructor; [|constructor]. apply top_bits_lt; lia. }
    rewrite bytes_of_ints_ok by exact Hf. cbn [bind].
    eexists. split; [reflexivity|].
    pose proof (f_equal (@List.length _) E4) as HL. rewrite app_length, bytes_bits_length, map_length in HL.
    split.
    + unfold bits_ok. cbn [b_len b_buf]. rewrite map_length, app_length. cbn. lia.
    + unfold bits_of. cbn [b_len b_buf]. rewrite map_app, bytes_bits_app. cbn [map bytes_bits flat_map].
      rewrite top_bits_bits by lia. rewrite app_nil_r, app_assoc, E4.
      apply firstn_app_exact. reflexivity.
Qed.

Lemma bits_from_bytes_spec buf l :
  bits_from_bytes buf (Some l) =
    if ((0 <=? l) && (l <=? 8 * Z.of_nat (List.length buf)))%Z
    then Ok (mkBits (Z.to_nat l) (if (l =? 0)%Z then [] else buf)) else Err ValueError.
Proof.
  unfold bits_from_bytes. destruct (Z.ltb_spec l 0); [replace (0 <=? l)%Z with false by lia; reflexivity|].
  replace (0 <=? l)%Z with true by lia.
  destruct (Z.ltb_spec (Z.of_nat (List.length buf) * 8) l).
  - replace (l <=? 8 * Z.of_nat (List.length buf))%Z with false by lia. reflexivity.
  - replace (l <=? 8 * Z.of_nat (List.length buf))%Z with true by lia. reflexivity.
Qed.

Lemma bits_from_bytes_ok buf n : n <= 8 * List.length buf ->
  exists b, bits_from_bytes buf (Some (Z.of_nat n)) = Ok b /\ bits_ok b /\ b_len b = n /\
            bits_of b = firstn n (bytes_bits buf).
Proof.
  intros H. rewrite bits_from_bytes_spec.
  replace ((0 <=? Z.of_nat n) && (Z.of_nat n <=? 8 * Z.of_nat (List.length buf)))%Z with true by lia.
  eexists; split; [reflexivity|]. unfold bits_ok, bits_of; cbn [b_len b_buf]. rewrite Nat2Z.id.
  destruct (Z.eqb_spec (Z.of_nat n) 0).
  - assert (n = 0) by lia. subst. cbn. repeat split; lia.
  - repeat split. lia.
Qed.

Lemma bits_from_bytes_none buf :
  exists b, bits_from_bytes buf None = Ok b /\ bits_ok b /\ bits_of b = bytes_bits buf.
Proof.
  replace (bits_from_bytes buf None) with (bits_from_bytes buf (Some (Z.of_nat (8 * List.length buf))%Z)).
  - destruct (bits_from_bytes_ok buf (8 * List.length buf)) as (b & E1 & E2 & E3 & E4); [lia|].
    exists b. repeat split; auto. rewrite E4. apply firstn_all2. rewrite bytes_bits_length. lia.
  - unfold bits_from_bytes. replace (Z.of_nat (8 * List.length buf)) with (Z.of_nat (List.length buf) * 8)%Z by lia.
    reflexivity.
Qed.

(** ** Equality *)

Lemma mask_sweep : forall o, o < 8 ->
  forall b, ((N.land (bN b) (N.shiftl 255 (N.of_nat (8 - o))) <? 256)%N &&
    bools_eqb (byte_bits (Nb (N.land (bN b) (N.shiftl 255 (N.of_nat (8 - o))))))
              (firstn o (byte_bits b) ++ repeat false (8 - o))) = true.
Proof.
  intros o Ho. do 8 (destruct o as [|o]; [apply forall_bytes; vm_compute; reflexivity|]). lia.
Qed.

Lemma mask_lt o b : o < 8 -> (N.land (bN b) (N.shiftl 255 (N.of_nat (8 - o))) < 256)%N.
Proof. intros H. pose proof (mask_sweep o H b) as E. apply andb_true_iff in E as [E _]. lia. Qed.

Lemma mask_bits o b : o < 8 ->
  byte_bits (Nb (N.land (bN b) (N.shiftl 255 (N.of_nat (8 - o))))) = firstn o (byte_bits b) ++ repeat false (8 - o).
Proof. intros H. pose proof (mask_sweep o H b) as E. apply andb_true_iff in E as [_ E].
  apply bools_eqb_eq in E. exact E. Qed.

(** The byte holding the odd bits. *)
Lemma ok_tail_byte b : bits_ok b -> b_len b mod 8 <> 0 -> exists x, nth_error (b_buf b) (b_len b / 8) = Some x.
Proof. intros H H0. unfold bits_ok in H. apply nth_error_lt. lia. Qed.

Lemma firstn_snoc_nth {A} (l : list A) k x : nth_error l k = Some x -> l = firstn k l ++ x :: skipn (S k) l.
Proof.
  revert l; induction k as [|k IH]; intros [|y l] H; try discriminate; cbn in *.
  - congruence.
  - f_equal. apply IH. exact H.
Qed.

Lemma full_width_prefix_length b : bits_ok b -> List.length (full_width_prefix b) = b_len b / 8.
Proof. intros H. unfold full_width_prefix. rewrite firstn_length. unfold bits_ok in H. lia. Qed.

Lemma bits_of_split b : bits_ok b ->
  (b_len b mod 8 = 0 /\ bits_of b = bytes_bits (full_width_prefix b) /\ tail_bits b = Ok 0%N) \/
  (exists x, b_len b mod 8 <> 0 /\ nth_error (b_buf b) (b_len b / 8) = Some x /\
     bits_of b = bytes_bits (full_width_prefix b) ++ firstn (b_len b mod 8) (byte_bits x) /\
     tail_bits b = Ok (N.land (bN x) (N.shiftl 255 (N.of_nat (8 - b_len b mod 8))))).
Proof.
  intros Hok. unfold tail_bits. destruct (Nat.eqb_spec (b_len b mod 8) 0) as [H0|H0].
  - left. repeat split; auto. unfold bits_of, full_width_prefix. rewrite bytes_bits_firstn. f_equal. lia.
  - right. destruct (ok_tail_byte b Hok H0) as [x Hx]. exists x. repeat split; auto.
    + unfold bits_of, full_width_prefix. rewrite (firstn_snoc_nth _ _ _ Hx) at 1.
      rewrite bytes_bits_app, bytes_bits_cons.
      assert (List.length (bytes_bits (firstn (b_len b / 8) (b_buf b))) = 8 * (b_len b / 8)) as HL.
      { rewrite bytes_bits_length, firstn_length. unfold bits_ok in Hok. lia. }
      rewrite firstn_app, HL. rewrite firstn_all2 by lia. f_equal.
      replace (b_len b - 8 * (b_len b / 8)) with (b_len b mod 8) by lia.
      rewrite firstn_app, byte_bits_length.
      replace (b_len b mod 8 - 8) with 0 by lia. rewrite firstn_O, app_nil_r. reflexivity.
    + unfold byte_at. rewrite Hx. reflexivity.
Qed.

Lemma mask_eq_iff o x y : o < 8 ->
  (N.land (bN x) (N.shiftl 255 (N.of_nat (8 - o))) =? N.land (bN y) (N.shiftl 255 (N.of_nat (8 - o))))%N
  = bools_eqb (firstn o (byte_bits x)) (firstn o (byte_bits y)).
Proof.
  intros Ho. apply eq_true_iff_eq. rewrite bools_eqb_eq, N.eqb_eq. split; intros H.
  - apply (f_equal (fun n => byte_bits (Nb n))) in H. rewrite !mask_bits in H by assumption.
    apply app_inj_len in H; [tauto|]. rewrite !firstn_length, !byte_bits_length. reflexivity.
  - rewrite <- (bN_Nb_small _ (mask_lt o x Ho)), <- (bN_Nb_small _ (mask_lt o y Ho)).
    f_equal. apply byte_bits_inj. rewrite !mask_bits by assumption. rewrite H. reflexivity.
Qed.

Lemma bits_eq_spec a b : bits_ok a -> bits_ok b ->
  bits_eq a b = Ok (bools_eqb (bits_of a) (bits_of b)).
Proof.
  intros Ha Hb. unfold bits_eq.
  destruct (Nat.eqb_spec (b_len a) (b_len b)) as [Hl|Hl]; cbn [negb].
  2:{ f_equal. symmetry. apply not_true_iff_false. rewrite bools_eqb_eq. intros E.
      apply (f_equal (@List.length _)) in E. rewrite !bits_of_length in E by assumption. lia. }
  assert (List.length (full_width_prefix a) = List.length (full_width_prefix b)) as HL
    by (rewrite !full_width_prefix_length by assumption; congruence).
  assert (List.length (bytes_bits (full_width_prefix a)) = List.length (bytes_bits (full_width_prefix b))) as HL'
    by (rewrite !bytes_bits_length; congruence).
  destruct (bits_of_split a Ha) as [(A0 & A1 & A2)|(x & A0 & Ax & A1 & A2)];
  destruct (bits_of_split b Hb) as [(B0 & B1 & B2)|(y & B0 & By & B1 & B2)]; try (rewrite Hl in *; congruence).
  - rewrite A1, B1, A2, B2.
    destruct (bytes_eqb (full_width_prefix a) (full_width_prefix b)) eqn:E; cbn [negb bind].
    + apply bytes_eqb_eq in E. rewrite E. f_equal. symmetry. apply bools_eqb_eq. reflexivity.
    + apply bytes_eqb_neq in E. f_equal. symmetry. apply not_true_iff_false. rewrite bools_eqb_eq.
      intros H. apply E, bytes_bits_inj, H.
  - rewrite A1, B1, A2, B2.
    destruct (bytes_eqb (full_width_prefix a) (full_width_prefix b)) eqn:E; cbn [negb bind].
    + apply bytes_eqb_eq in E. rewrite E. rewrite <- Hl. rewrite mask_eq_iff by lia.
      f_equal. apply eq_true_iff_eq. rewrite !bools_eqb_eq. split; intros H; [rewrite H; reflexivity|].
      apply app_inv_head in H. exact H.
    + apply bytes_eqb_neq in E. f_equal. symmetry. apply not_true_iff_false. rewrite bools_eqb_eq.
      intros H. apply app_inj_len in H; [|exact HL']. apply E, bytes_bits_inj, H.
Qed.

(** ** Slices *)

Lemma map_bit_truth l : map (fun n => negb (n =? 0)%N) (map bit l) = l.
Proof. rewrite map_map. rewrite <- (map_id l) at 2. apply map_ext. intros []; reflexivity. Qed.

Lemma bits_slice_spec b s : bits_ok b ->
  match py_slice (bits_of b) s with
  | Ok l => exists r, bits_slice b s = Ok r /\ bits_ok r /\ bits_of r = l
  | Err e => bits_slice b s = Err e
  end.
Proof.
  intros Hok. unfold bits_slice.
  pose proof (bits_of_length b Hok) as HL.
  destruct (slice_indices s (Z.of_nat (b_len b))) as [[[a e] st]|x] eqn:E; cbn [bind].
  2:{ unfold py_slice. rewrite HL, E. reflexivity. }
  pose proof (slice_indices_bounds _ _ _ _ _ (Nat2Z.is_nonneg _) E) as HB.
  destruct ((st =? 1) && (a =? 0))%Z eqn:F.
  - assert (st = 1%Z /\ a = 0%Z) as [-> ->] by lia.
    rewrite (py_slice_unit (bits_of b) s 0 e) by (rewrite HL; exact E).
    rewrite Z.sub_0_r. cbn [Z.to_nat skipn].
    destruct (Z.eqb_spec e 0); [|destruct (Z.eqb_spec e (Z.of_nat (b_len b)))].
    + subst. exists bits_empty. repeat split. unfold bits_ok; cbn; lia.
    + subst. exists b. repeat split; auto. rewrite firstn_all2; [reflexivity|]. rewrite HL. lia.
    + exists (mkBits (Z.to_nat e) (b_buf b)). unfold bits_ok in *. cbn [b_len b_buf].
      repeat split; [lia|]. unfold bits_of. cbn [b_len b_buf]. rewrite firstn_firstn. f_equal. lia.
  - rewrite bits_iter_spec by assumption. cbn [bind]. rewrite py_slice_map.
    destruct (py_slice (bits_of b) s) as [l|]; cbn [bind]; [|reflexivity].
    rewrite map_bit_truth. destruct (bits_new_spec l) as (r & E1 & E2 & E3). eauto.
Qed.

(** ** Concatenation *)

Lemma shr_sweep : forall o, 0 < o < 8 -> forall b,
  ((N.shiftr (bN b) (N.of_nat o) <? 256)%N &&
   bools_eqb (byte_bits (Nb (N.shiftr (bN b) (N.of_nat o)))) (repeat false o ++ firstn (8 - o) (byte_bits b)) &&
   (N.land (N.shiftl (bN b) (N.of_nat (8 - o))) 255 <? 256)%N &&
   bools_eqb (byte_bits (Nb (N.land (N.shiftl (bN b) (N.of_nat (8 - o))) 255)))
             (skipn (8 - o) (byte_bits b) ++ repeat false (8 - o))) = true.
Proof.
  intros o Ho. destruct o as [|o]; [lia|].
  do 7 (destruct o as [|o]; [apply forall_bytes; vm_compute; reflexivity|]). lia.
Qed.

Fixpoint zip_or (a b : list bool) : list bool :=
  match a, b with x :: a', y :: b' => (x || y) :: zip_or a' b' | _, _ => [] end.

Lemma lor_lt a b : (a < 256)%N -> (b < 256)%N -> (N.lor a b < 256)%N.
Proof.
  intros Ha Hb. destruct (N.eq_dec (N.lor a b) 0) as [->|H0]; [lia|].
  change 256%N with (2 ^ 8)%N. apply N.log2_lt_pow2; [lia|]. rewrite N.log2_lor.
  apply N.max_lub_lt.
  - destruct (N.eq_dec a 0) as [->|]; [cbn; lia|]. apply N.log2_lt_pow2; [lia|exact Ha].
  - destruct (N.eq_dec b 0) as [->|]; [cbn; lia|]. apply N.log2_lt_pow2; [lia|exact Hb].
Qed.

Lemma byte_bits_lor a b : (a < 256)%N -> (b < 256)%N ->
  byte_bits (Nb (N.lor a b)) = zip_or (byte_bits (Nb a)) (byte_bits (Nb b)).
Proof.
  intros Ha Hb. unfold byte_bits.
  rewrite (bN_Nb_small _ (lor_lt a b Ha Hb)), (bN_Nb_small _ Ha), (bN_Nb_small _ Hb).
  cbn [map zip_or]. rewrite !N.lor_spec. reflexivity.
Qed.

Lemma zip_or_disjoint (a b : list bool) o :
  List.length a = o -> List.length b = 8 - o -> o <= 8 ->
  zip_or (a ++ repeat false (8 - o)) (repeat false o ++ b) = a ++ b.
Proof.
  intros Ha Hb Ho. subst o.
  assert (forall n (b : list bool), List.length b = n -> zip_or (repeat false n) b = b) as Hz.
  { clear. induction n as [|n IH]; intros [|y b] H; cbn in *; try discriminate; auto. f_equal. apply IH. lia. }
  rewrite <- Hb. clear Hb Ho. induction a as [|x a IH]; cbn.
  - apply Hz. reflexivity.
  - rewrite orb_false_r. f_equal. exact IH.
Qed.

Lemma add_loop_spec o bs : 0 < o < 8 -> forall tl t,
  (t < 256)%N -> List.length tl = o -> byte_bits (Nb t) = tl ++ repeat false (8 - o) ->
  Forall (fun n => n < 256)%N (add_loop o t bs) /\
  bytes_bits (map Nb (add_loop o t bs)) = tl ++ bytes_bits bs ++ repeat false (8 - o).
Proof.
  intros Ho. induction bs as [|b bs IH]; intros tl t Ht Htl Hbits; cbn [add_loop].
  - split; [constructor; [assumption|constructor]|].
    cbn [map bytes_bits flat_map]. rewrite Hbits, app_nil_r. reflexivity.
  - pose proof (shr_sweep o Ho b) as S. rewrite !andb_true_iff in S. destruct S as [[[S1 S2] S3] S4].
    apply bools_eqb_eq in S2, S4. apply N.ltb_lt in S1, S3.
    assert (List.length (skipn (8 - o) (byte_bits b)) = o) as Hsk by (rewrite skipn_length, byte_bits_length; lia).
    destruct (IH (skipn (8 - o) (byte_bits b)) _ S3 Hsk S4) as [I1 I2].
    split.
    + constructor; [apply lor_lt; lia | assumption].
    + cbn [map]. rewrite bytes_bits_cons, I2, byte_bits_lor by lia. rewrite Hbits, S2.
      rewrite zip_or_disjoint by (try lia; rewrite firstn_length, byte_bits_length; lia).
      rewrite bytes_bits_cons. rewrite <- !app_assoc. f_equal.
      rewrite <- (firstn_skipn (8 - o) (byte_bits b)) at 3.
      rewrite <- !app_assoc. reflexivity.
Qed.

Lemma bits_add_spec a b : bits_ok a -> bits_ok b ->
  exists r, bits_add a b = Ok r /\ bits_ok r /\ bits_of r = bits_of a ++ bits_of b.
Proof.
  intros Ha Hb. unfold bits_add.
  destruct (Nat.eqb_spec (b_len a) 0) as [A0|A0].
  { exists b. repeat split; auto. unfold bits_of at 2. rewrite A0. reflexivity. }
  destruct (Nat.eqb_spec (b_len b) 0) as [B0|B0].
  { exists a. repeat split; auto. unfold bits_of at 3. rewrite B0. cbn. rewrite app_nil_r. reflexivity. }
  assert (List.length (firstn (b_len a / 8) (b_buf a)) = b_len a / 8) as HF
    by (rewrite firstn_length; unfold bits_ok in Ha; lia).
  destruct (bits_of_split a Ha) as [(M0 & M1 & M2)|(x & M0 & Mx & M1 & M2)].
  - rewrite M0. cbn [Nat.eqb bind]. eexists. split; [reflexivity|].
    unfold bits_ok, bits_of in *. cbn [b_len b_buf]. split.
    + rewrite app_length, HF. lia.
    + rewrite bytes_bits_app, firstn_app, bytes_bits_length, HF. rewrite firstn_all2 by (rewrite bytes_bits_length, HF; lia).
      replace (b_len a + b_len b - 8 * (b_len a / 8)) with (b_len b) by lia.
      rewrite M1. reflexivity.
  - replace (b_len a mod 8 =? 0) with false by lia.
    unfold byte_at. rewrite Mx. cbn [bind].
    set (o := b_len a mod 8) in *. assert (0 < o < 8) as Ho by lia.
    set (bs := firstn _ (b_buf b)).
    destruct (add_loop_spec o bs Ho (firstn o (byte_bits x)) _
                (mask_lt o x ltac:(lia)) ltac:(rewrite firstn_length, byte_bits_length; lia)
                (mask_bits o x ltac:(lia))) as [L1 L2].
    rewrite bytes_of_ints_ok by exact L1. cbn [bind]. eexists. split; [reflexivity|].
    assert (List.length bs = b_len b / 8 + (if (b_len b mod 8 =? 0)%nat then 0 else 1)) as HB.
    { subst bs. rewrite firstn_length. unfold bits_ok in Hb. destruct (Nat.eqb_spec (b_len b mod 8) 0); lia. }
    pose proof (f_equal (@List.length _) L2) as HL.
    rewrite !app_length, !bytes_bits_length, map_length, firstn_length, byte_bits_length, repeat_length in HL.
    assert (8 * List.length bs >= b_len b) as HG by (rewrite HB; destruct (Nat.eqb_spec (b_len b mod 8) 0); lia).
    split.
    + unfold bits_ok. cbn [b_len b_buf]. rewrite app_length, map_length, HF. lia.
    + unfold bits_of at 1. cbn [b_len b_buf]. rewrite bytes_bits_app, L2.
      rewrite firstn_app, bytes_bits_length, HF, (firstn_all2 (bytes_bits (firstn (b_len a / 8) (b_buf a))))
        by (rewrite bytes_bits_length, HF; lia).
      replace (b_len a + b_len b - 8 * (b_len a / 8)) with (o + b_len b) by lia.
      rewrite M1. fold (full_width_prefix a). rewrite <- app_assoc. f_equal.
      rewrite firstn_app, firstn_length, byte_bits_length.
      rewrite (firstn_all2 (n := o + b_len b)) by (rewrite firstn_length, byte_bits_length; lia). f_equal.
      replace (o + b_len b - Nat.min o 8) with (b_len b) by lia.
      rewrite firstn_app, bytes_bits_length. replace (b_len b - 8 * List.length bs) with 0 by lia.
      rewrite firstn_O, app_nil_r. unfold bits_of. subst bs. rewrite bytes_bits_firstn, firstn_firstn.
      f_equal. destruct (Nat.eqb_spec (b_len b mod 8) 0); lia.
Qed.

(** ** Inversion *)

Lemma inv_sweep : forall b, ((N.lxor (bN b) 255 <? 256)%N &&
  bools_eqb (byte_bits (Nb (N.lxor (bN b) 255))) (map negb (byte_bits b))) = true.
Proof. apply forall_bytes. vm_compute. reflexivity. Qed.

Lemma inv_bytes l : Forall (fun n => n < 256)%N (map (fun byte => N.lxor (bN byte) 255) l) /\
  bytes_bits (map Nb (map (fun byte => N.lxor (bN byte) 255) l)) = map negb (bytes_bits l).
Proof.
  induction l as [|b l [I1 I2]]; [split; [constructor|reflexivity]|].
  pose proof (inv_sweep b) as S. apply andb_true_iff in S as [S1 S2]. apply bools_eqb_eq in S2.
  cbn [map]. split; [constructor; [lia|assumption]|].
  rewrite !bytes_bits_cons, map_app, I2, S2. reflexivity.
Qed.

Lemma bits_invert_spec a : bits_ok a ->
  exists r, bits_invert a = Ok r /\ bits_ok r /\ bits_of r = map negb (bits_of a).
Proof.
  intros Ha. unfold bits_invert. destruct (Nat.eqb_spec (b_len a) 0) as [A0|A0].
  { exists a. repeat split; auto. unfold bits_of. rewrite A0. reflexivity. }
  destruct (inv_bytes (firstn (b_len a / 8 + 1) (b_buf a))) as [I1 I2].
  rewrite bytes_of_ints_ok by exact I1. cbn [bind].
  destruct (bits_from_bytes_ok (map Nb (map (fun byte => N.lxor (bN byte) 255) (firstn (b_len a / 8 + 1) (b_buf a)))) (b_len a))
    as (r & R1 & R2 & R3 & R4).
  { rewrite !map_length, firstn_length. unfold bits_ok in Ha. lia. }
  exists r. repeat split; auto. rewrite R4, I2. unfold bits_of.
  rewrite firstn_map, bytes_bits_firstn, firstn_firstn. do 2 f_equal. lia.
Qed.

(** ** Prefixes *)

Definition prefix_of (p l : list bool) : bool := bools_eqb (firstn (List.length p) l) p.

Lemma prefix_of_iff p l : prefix_of p l = true <-> is_prefix p l.
Proof.
  unfold prefix_of. rewrite bools_eqb_eq. split.
  - intros H. exists (skipn (List.length p) l). rewrite <- H at 1. symmetry. apply firstn_skipn.
  - intros [r ->]. apply firstn_app_exact. reflexivity.
Qed.

Lemma bits_startswith_spec a p : bits_ok a -> bits_ok p ->
  bits_startswith a p = Ok (prefix_of (bits_of p) (bits_of a)).
Proof.
  intros Ha Hp. unfold bits_startswith, prefix_of. rewrite (bits_of_length p Hp).
  destruct (Nat.ltb_spec (b_len a) (b_len p)) as [H|H].
  { f_equal. symmetry. apply not_true_iff_false. rewrite bools_eqb_eq. intros E.
    apply (f_equal (@List.length _)) in E. rewrite firstn_length, !bits_of_length in E by assumption. lia. }
  destruct (Nat.eqb_spec (b_len p) (b_len a)) as [He|He].
  { rewrite bits_eq_spec by assumption. f_equal. rewrite firstn_all2 by (rewrite bits_of_length by assumption; lia).
    apply eq_true_iff_eq. rewrite !bools_eqb_eq. split; congruence. }
  pose proof (bits_slice_spec a (Slice None (Some (Z.of_nat (b_len p))) None) Ha) as S.
  rewrite (py_slice_unit _ _ 0 (Z.of_nat (b_len p))) in S.
  2:{ rewrite bits_of_length by assumption. unfold slice_indices, adjust. cbn [sl_start sl_stop sl_step Z.eqb Z.ltb Z.compare].
      replace (Z.of_nat (b_len p) <? 0)%Z with false by lia. do 2 f_equal. f_equal. lia. }
  destruct S as (r & S1 & S2 & S3). rewrite S1. cbn [bind].
  rewrite bits_eq_spec by assumption. rewrite S3. cbn [Z.to_nat skipn]. rewrite Z.sub_0_r, Nat2Z.id. reflexivity.
Qed.

(** Length of the longest common prefix. *)
Fixpoint lcpl (a b : list bool) : nat :=
  match a, b with
  | x :: a', y :: b' => if Bool.eqb x y then S (lcpl a' b') else 0
  | _, _ => 0
  end.

Lemma lcpl_app p a b : lcpl (p ++ a) (p ++ b) = List.length p + lcpl a b.
Proof. induction p as [|x p IH]; [reflexivity|]. cbn. rewrite eqb_reflx, IH. reflexivity. Qed.

Lemma lcpl_firstn n m a b : lcpl (firstn n a) (firstn m b) = Nat.min (Nat.min n m) (lcpl a b).
Proof.
  revert n m b; induction a as [|x a IH]; intros n m b.
  - rewrite firstn_nil. cbn. lia.
  - destruct b as [|y b]; [rewrite firstn_nil; destruct n; cbn; lia|].
    destruct n as [|n], m as [|m]; cbn; try lia.
    destruct (Bool.eqb x y); [|lia]. rewrite IH. lia.
Qed.

Lemma lcpl_comm a b : lcpl a b = lcpl b a.
Proof. revert b; induction a as [|x a IH]; intros [|y b]; cbn; auto. destruct x, y; cbn; auto. Qed.

Lemma lcpl_le_l a b : lcpl a b <= List.length a.
Proof. revert b; induction a as [|x a IH]; intros [|y b]; cbn; try lia. destruct (Bool.eqb x y); [|lia]. specialize (IH b). lia. Qed.

Lemma lcpl_firstn_eq a b : firstn (lcpl a b) a = firstn (lcpl a b) b.
Proof.
  revert b; induction a as [|x a IH]; intros [|y b]; cbn; auto.
  destruct (Bool.eqb x y) eqn:E; [|reflexivity]. apply eqb_prop in E. subst. cbn. f_equal. apply IH.
Qed.

Lemma lcpl_max q a b : is_prefix q a -> is_prefix q b -> List.length q <= lcpl a b.
Proof. intros [r ->] [s ->]. rewrite lcpl_app. lia. Qed.

Lemma is_prefix_firstn {A} n (l : list A) : is_prefix (firstn n l) l.
Proof. exists (skipn n l). symmetry. apply firstn_skipn. Qed.

Lemma is_prefix_total {A} (p q l : list A) :
  is_prefix p l -> is_prefix q l -> List.length p <= List.length q -> is_prefix p q.
Proof.
  intros [r ->] [s E] H. exists (skipn (List.length p) q).
  pose proof (f_equal (firstn (List.length p)) E) as F.
  rewrite firstn_app_exact in F by reflexivity.
  rewrite firstn_app in F. replace (List.length p - List.length q) with 0 in F by lia.
  rewrite firstn_O, app_nil_r in F. rewrite F at 1. symmetry. apply firstn_skipn.
Qed.

Lemma lcpl_longest a b : longest_common_prefix (firstn (lcpl a b) a) a b.
Proof.
  split; [apply is_prefix_firstn|]. split; [rewrite lcpl_firstn_eq; apply is_prefix_firstn|].
  intros q Hq1 Hq2. pose proof (lcpl_max q a b Hq1 Hq2) as H.
  apply is_prefix_total with a; auto; [apply is_prefix_firstn|].
  rewrite firstn_length. pose proof (lcpl_le_l a b). lia.
Qed.

Lemma lcpl_byte_neq (bx by_ ra rb : list bool) :
  List.length bx = List.length by_ -> bx <> by_ -> lcpl (bx ++ ra) (by_ ++ rb) = lcpl bx by_ /\ lcpl bx by_ < List.length bx.
Proof.
  revert by_; induction bx as [|x bx IH]; intros [|y by_] HL HN; cbn in *; try discriminate; try congruence.
  destruct (Bool.eqb x y) eqn:E; [|split; lia].
  apply eqb_prop in E. subst. destruct (IH by_) as [I1 I2]; [lia|congruence|]. split; lia.
Qed.

Lemma lcpl_refl a : lcpl a a = List.length a.
Proof. induction a as [|x a IH]; [reflexivity|]. cbn. rewrite eqb_reflx, IH. reflexivity. Qed.

(** ** The two scans of common_prefix *)

Lemma first_diff_spec lhs rhs : forall n i,
  i + n <= List.length lhs -> i + n <= List.length rhs ->
  (first_diff lhs rhs i n = Ok None /\ firstn n (skipn i lhs) = firstn n (skipn i rhs)) \/
  (exists j x y, first_diff lhs rhs i n = Ok (Some j) /\ i <= j < i + n /\
     nth_error lhs j = Some x /\ nth_error rhs j = Some y /\ x <> y /\
     firstn (j - i) (skipn i lhs) = firstn (j - i) (skipn i rhs)).
Proof.
  induction n as [|n IH]; intros i Hl Hr; cbn [first_diff].
  - left. auto.
  - destruct (nth_error_lt lhs i ltac:(lia)) as [x Hx]. destruct (nth_error_lt rhs i ltac:(lia)) as [y Hy].
    unfold byte_at. rewrite Hx, Hy. cbn [bind].
    assert (skipn i lhs = x :: skipn (S i) lhs) as Sl.
    { rewrite (firstn_snoc_nth _ _ _ Hx) at 1. rewrite skipn_app, skipn_all2 by (rewrite firstn_length; lia).
      rewrite firstn_length. replace (i - Nat.min i (List.length lhs)) with 0 by lia. reflexivity. }
    assert (skipn i rhs = y :: skipn (S i) rhs) as Sr.
    { rewrite (firstn_snoc_nth _ _ _ Hy) at 1. rewrite skipn_app, skipn_all2 by (rewrite firstn_length; lia).
      rewrite firstn_length. replace (i - Nat.min i (List.length rhs)) with 0 by lia. reflexivity. }
    destruct (N.eqb_spec (bN x) (bN y)) as [E|E]; cbn [negb].
    + apply bN_inj in E. subst y.
      destruct (IH (S i) ltac:(lia) ltac:(lia)) as [[I1 I2]|(j & u & v & I1 & I2 & I3 & I4 & I5 & I6)].
      * left. split; [exact I1|]. rewrite Sl, Sr. cbn [firstn]. f_equal. exact I2.
      * right. exists j, u, v. repeat split; auto; try lia.
        replace (j - i) with (S (j - S i)) by lia. rewrite Sl, Sr. cbn [firstn]. f_equal. exact I6.
    + right. exists i, x, y. repeat split; auto; try lia. congruence. rewrite Nat.sub_diag. reflexivity.
Qed.

Fixpoint lead (l : list bool) : nat :=
  match l with [] => 0 | x :: l' => if x then 0 else S (lead l') end.

Fixpoint zip_xor (a b : list bool) : list bool :=
  match a, b with x :: a', y :: b' => xorb x y :: zip_xor a' b' | _, _ => [] end.

Lemma lead_xor a b : List.length a = List.length b -> lead (zip_xor a b) = lcpl a b.
Proof.
  revert b; induction a as [|x a IH]; intros [|y b] H; cbn in *; try discriminate; auto.
  destruct x, y; cbn; auto.
Qed.

Lemma lxor_lt a b : (a < 256)%N -> (b < 256)%N -> (N.lxor a b < 256)%N.
Proof.
  intros Ha Hb. destruct (N.eq_dec (N.lxor a b) 0) as [->|H0]; [lia|].
  change 256%N with (2 ^ 8)%N. apply N.log2_lt_pow2; [lia|].
  eapply N.le_lt_trans; [apply N.log2_lxor|].
  apply N.max_lub_lt.
  - destruct (N.eq_dec a 0) as [->|]; [cbn; lia|]. apply N.log2_lt_pow2; [lia|exact Ha].
  - destruct (N.eq_dec b 0) as [->|]; [cbn; lia|]. apply N.log2_lt_pow2; [lia|exact Hb].
Qed.

Lemma byte_bits_xor x y :
  byte_bits (Nb (N.lxor (bN x) (bN y))) = zip_xor (byte_bits x) (byte_bits y).
Proof.
  unfold byte_bits. rewrite bN_Nb_small by (apply lxor_lt; apply bN_lt).
  cbn [map zip_xor]. rewrite !N.lxor_spec. reflexivity.
Qed.

Lemma shift_sweep : forall b,
  (Bool.eqb (N.land (bN b) 128 =? 0)%N (negb (hd false (byte_bits b))) &&
   (N.land (N.shiftl (bN b) 1) 255 <? 256)%N &&
   bools_eqb (byte_bits (Nb (N.land (N.shiftl (bN b) 1) 255))) (tl (byte_bits b) ++ [false])) = true.
Proof. apply forall_bytes. vm_compute. reflexivity. Qed.

Lemma repeat_snoc {A} (x : A) n : repeat x n ++ [x] = repeat x (S n).
Proof. induction n as [|n IH]; [reflexivity|]. cbn. f_equal. exact IH. Qed.

Lemma shift_loop_spec : forall fuel len cpl d L,
  (d < 256)%N -> List.length L <= 8 ->
  byte_bits (Nb d) = L ++ repeat false (8 - List.length L) ->
  cpl <= len -> len - cpl <= fuel ->
  (lead L = List.length L -> len - cpl <= List.length L) ->
  shift_loop fuel len cpl d = Nat.min len (cpl + lead L).
Proof.
  induction fuel as [|fuel IH]; intros len cpl d L Hd HL Hb Hc Hf Hl; cbn [shift_loop].
  - lia.
  - destruct (Nat.ltb_spec cpl len) as [Hlt|Hge]; cbn [andb]; [|lia].
    pose proof (shift_sweep (Nb d)) as S. rewrite !andb_true_iff in S. destruct S as [[S1 S2] S3].
    rewrite (bN_Nb_small d Hd) in S1, S2, S3.
    apply eqb_prop in S1. apply bools_eqb_eq in S3. apply N.ltb_lt in S2.
    rewrite S1. rewrite Hb in *.
    destruct L as [|x L].
    + cbn [lead List.length] in *. exfalso. specialize (Hl eq_refl). lia.
    + cbn [app hd tl] in *. destruct x; cbn [negb lead] in *; [lia|].
      cbn [List.length] in *.
      rewrite (IH len (S cpl) _ L); try assumption; try lia.
      rewrite S3, <- app_assoc, repeat_snoc. do 2 f_equal. lia.
Qed.

Lemma bits_common_prefix_le lhs rhs : bits_ok lhs -> bits_ok rhs -> b_len lhs <= b_len rhs ->
  exists r,
    (do fd <- first_diff (b_buf lhs) (b_buf rhs) 0 (b_len lhs / 8);
     let '(cpl, fwb_eq) :=
       match fd with Some i => (i * 8, false) | None => (b_len lhs / 8 * 8, true) end in
     do cpl <-
       (if (cpl <? b_len lhs)%nat then
          do x <- byte_at (b_buf lhs) (cpl / 8);
          do y <- byte_at (b_buf rhs) (cpl / 8);
          Ok (shift_loop (b_len lhs - cpl) (b_len lhs) cpl (N.lxor x y))
        else Ok cpl);
     do _ <- assert (cpl <=? b_len lhs)%nat;
     if (cpl =? b_len lhs)%nat then do _ <- assert fwb_eq; Ok lhs
     else bits_from_bytes (b_buf lhs) (Some (Z.of_nat cpl))) = Ok r /\
    bits_ok r /\ bits_of r = firstn (lcpl (bits_of lhs) (bits_of rhs)) (bits_of lhs).
Proof.
  intros Hl Hr Hlen.
  assert (lcpl (bits_of lhs) (bits_of rhs)
          = Nat.min (b_len lhs) (lcpl (bytes_bits (b_buf lhs)) (bytes_bits (b_buf rhs)))) as HL.
  { unfold bits_of. rewrite lcpl_firstn. lia. }
  assert (forall n, n <= b_len lhs -> n = lcpl (bits_of lhs) (bits_of rhs) ->
    exists r, (if (n =? b_len lhs)%nat then Ok lhs else bits_from_bytes (b_buf lhs) (Some (Z.of_nat n))) = Ok r /\
       bits_ok r /\ bits_of r = firstn (lcpl (bits_of lhs) (bits_of rhs)) (bits_of lhs)) as Hfin.
  { intros n Hn E. rewrite <- E. destruct (Nat.eqb_spec n (b_len lhs)).
    - exists lhs. repeat split; auto. rewrite firstn_all2; [reflexivity|]. rewrite bits_of_length by assumption. lia.
    - destruct (bits_from_bytes_ok (b_buf lhs) n) as (r & R1 & R2 & R3 & R4).
      { unfold bits_ok in Hl. lia. }
      exists r. repeat split; auto. rewrite R4. unfold bits_of. rewrite firstn_firstn. f_equal. lia. }
  unfold bits_ok in Hl, Hr.
  destruct (first_diff_spec (b_buf lhs) (b_buf rhs) (b_len lhs / 8) 0) as [[F1 F2]|(j & x & y & F1 & F2 & F3 & F4 & F5 & F6)];
    try lia; rewrite F1; cbn [bind].
  - cbn [skipn] in F2. set (c := b_len lhs / 8 * 8).
    destruct (Nat.ltb_spec c (b_len lhs)) as [Hc|Hc].
    + assert (c / 8 = b_len lhs / 8) as -> by (subst c; lia).
      destruct (nth_error_lt (b_buf lhs) (b_len lhs / 8) ltac:(lia)) as [x Hx].
      destruct (nth_error_lt (b_buf rhs) (b_len lhs / 8) ltac:(lia)) as [y Hy].
      unfold byte_at. rewrite Hx, Hy. cbn [bind].
      rewrite (shift_loop_spec _ _ _ _ (zip_xor (byte_bits x) (byte_bits y))).
      2:{ apply lxor_lt; apply bN_lt. }
      2:{ cbn. lia. }
      2:{ rewrite byte_bits_xor. cbn. reflexivity. }
      2,3: lia.
      2:{ intros _. change (List.length (zip_xor (byte_bits x) (byte_bits y))) with 8. subst c. lia. }
      rewrite lead_xor by reflexivity.
      set (n := Nat.min _ _). unfold assert.
      replace (n <=? b_len lhs) with true by lia. cbn [bind].
      apply Hfin; [lia|]. rewrite HL.
      rewrite (firstn_snoc_nth _ _ _ Hx), (firstn_snoc_nth _ _ _ Hy), F2.
      rewrite !bytes_bits_app, !bytes_bits_cons, lcpl_app, bytes_bits_length, firstn_length.
      replace (8 * Nat.min (b_len lhs / 8) (List.length (b_buf rhs))) with c by (subst c; lia).
      destruct (list_eq_dec bool_dec (byte_bits x) (byte_bits y)) as [E|E].
      * rewrite E, lcpl_app, byte_bits_length. subst n. rewrite E, lcpl_refl, byte_bits_length. subst c. lia.
      * destruct (lcpl_byte_neq (byte_bits x) (byte_bits y) (bytes_bits (skipn (S (b_len lhs / 8)) (b_buf lhs)))
                   (bytes_bits (skipn (S (b_len lhs / 8)) (b_buf rhs))) eq_refl E) as [-> _]. reflexivity.
    + cbn [bind]. unfold assert. replace (c <=? b_len lhs) with true by (subst c; lia). cbn [bind].
      apply Hfin; [subst c; lia|]. rewrite HL.
      rewrite <- (firstn_skipn (b_len lhs / 8) (b_buf lhs)), <- (firstn_skipn (b_len lhs / 8) (b_buf rhs)), F2.
      rewrite !bytes_bits_app, lcpl_app, bytes_bits_length, firstn_length. subst c. lia.
  - cbn [skipn] in F6. rewrite Nat.sub_0_r in F6.
    replace (j * 8 <? b_len lhs) with true by lia.
    replace (j * 8 / 8) with j by lia.
    unfold byte_at. rewrite F3, F4. cbn [bind].
    assert (byte_bits x <> byte_bits y) as Hne by (intros E; apply F5, byte_bits_inj, E).
    destruct (lcpl_byte_neq (byte_bits x) (byte_bits y) (bytes_bits (skipn (S j) (b_buf lhs)))
               (bytes_bits (skipn (S j) (b_buf rhs))) eq_refl Hne) as [L1 L2].
    rewrite byte_bits_length in L2.
    rewrite (shift_loop_spec _ _ _ _ (zip_xor (byte_bits x) (byte_bits y))).
    2:{ apply lxor_lt; apply bN_lt. }
    2:{ cbn. lia. }
    2:{ rewrite byte_bits_xor. cbn. reflexivity. }
    2,3: lia.
    2:{ rewrite lead_xor by reflexivity. change (List.length (zip_xor (byte_bits x) (byte_bits y))) with 8. lia. }
    rewrite lead_xor by reflexivity.
    set (n := Nat.min _ _). unfold assert.
    replace (n <=? b_len lhs) with true by lia. cbn [bind].
    assert (n = lcpl (bits_of lhs) (bits_of rhs)) as En.
    { rewrite HL. rewrite (firstn_snoc_nth _ _ _ F3), (firstn_snoc_nth _ _ _ F4), F6.
      rewrite !bytes_bits_app, !bytes_bits_cons, lcpl_app, bytes_bits_length, firstn_length, L1. subst n. lia. }
    destruct (Hfin n ltac:(lia) En) as (r & R1 & R2).
    assert (n =? b_len lhs = false) as Hf by lia. rewrite Hf in *. exists r. split; [exact R1|exact R2].
Qed.

Lemma bits_common_prefix_spec a b : bits_ok a -> bits_ok b ->
  exists r, bits_common_prefix a b = Ok r /\ bits_ok r /\
            bits_of r = firstn (lcpl (bits_of a) (bits_of b)) (bits_of a).
Proof.
  intros Ha Hb. unfold bits_common_prefix. destruct (Nat.leb_spec (b_len a) (b_len b)) as [H|H].
  - apply bits_common_prefix_le; assumption.
  - destruct (bits_common_prefix_le b a Hb Ha) as (r & R1 & R2 & R3); [lia|].
    exists r. split; [exact R1|]. split; [exact R2|]. rewrite R3, lcpl_comm, lcpl_firstn_eq. reflexivity.
Qed.

(** ** Reachable values *)

Lemma bits_from_bytes_any_ok buf l b : bits_from_bytes buf l = Ok b -> bits_ok b.
Proof.
  unfold bits_from_bytes. set (n := match l with None => _ | Some v => v end).
  destruct (Z.ltb_spec n 0); [discriminate|].
  destruct (Z.ltb_spec (Z.of_nat (List.length buf) * 8) n); [discriminate|].
  intros E; injection E as <-. unfold bits_ok. cbn [b_len b_buf].
  destruct (Z.eqb_spec n 0); cbn [List.length]; lia.
Qed.

Lemma api_bits_ok b : api_bits b -> bits_ok b.
Proof.
  induction 1 as [it b E|buf l b E|a s b Ha IH E|a b r Ha IHa Hb IHb E|a r Ha IH E|a b r Ha IHa Hb IHb E].
  - destruct (bits_new_spec it) as (b' & E1 & E2 & _). congruence.
  - eapply bits_from_bytes_any_ok; exact E.
  - pose proof (bits_slice_spec a s IH) as S. destruct (py_slice (bits_of a) s).
    + destruct S as (r & S1 & S2 & _). congruence.
    + congruence.
  - destruct (bits_add_spec a b IHa IHb) as (x & E1 & E2 & _). congruence.
  - destruct (bits_invert_spec a IH) as (x & E1 & E2 & _). congruence.
  - destruct (bits_common_prefix_spec a b IHa IHb) as (x & E1 & E2 & _). congruence.
Qed.

Lemma map_bit_inj l l' : map bit l = map bit l' -> l = l'.
Proof.
  intros H. rewrite <- (map_bit_truth l), <- (map_bit_truth l'), H. reflexivity.
Qed.

Lemma yields_iff b l : bits_ok b -> (yields b l <-> bits_of b = l).
Proof.
  intros H. unfold yields. rewrite bits_iter_spec by assumption. split.
  - intros E. injection E as E. apply map_bit_inj, E.
  - intros <-. reflexivity.
Qed.

Lemma api_yields b : api_bits b -> yields b (bits_of b).
Proof. intros H. apply yields_iff; [apply api_bits_ok, H|reflexivity]. Qed.

(** ** Order *)

Lemma bits_lex_irrefl a : bits_lex a a = false.
Proof. induction a as [|x a IH]; [reflexivity|]. cbn. rewrite eqb_reflx. exact IH. Qed.

Lemma bits_lex_app p a b : bits_lex (p ++ a) (p ++ b) = bits_lex a b.
Proof. induction p as [|x p IH]; [reflexivity|]. cbn. rewrite eqb_reflx. exact IH. Qed.

Lemma bits_lex_app_neq p q a b : List.length p = List.length q -> p <> q ->
  bits_lex (p ++ a) (q ++ b) = bits_lex p q.
Proof.
  revert q; induction p as [|x p IH]; intros [|y q] HL HN; cbn in *; try discriminate; [congruence|].
  destruct (Bool.eqb x y) eqn:E; [|reflexivity]. apply eqb_prop in E. subst. apply IH; [lia|congruence].
Qed.

Lemma byte_lt_sweep : forall x y, Bool.eqb (bN x <? bN y)%N (bits_lex (byte_bits x) (byte_bits y)) = true.
Proof.
  assert (forallb (fun x => forallb (fun y => Bool.eqb (bN x <? bN y)%N (bits_lex (byte_bits x) (byte_bits y)))
            all_bytes) all_bytes = true) as H by (vm_compute; reflexivity).
  intros x. apply forall_bytes. revert x. apply forall_bytes. exact H.
Qed.

Lemma byte_lt_bits x y : (bN x <? bN y)%N = bits_lex (byte_bits x) (byte_bits y).
Proof. apply eqb_prop, byte_lt_sweep. Qed.

Lemma bytes_lt_bits a b : List.length a = List.length b ->
  bytes_ltb a b = bits_lex (bytes_bits a) (bytes_bits b).
Proof.
  revert b; induction a as [|x a IH]; intros [|y b] HL; cbn [bytes_ltb List.length] in *; try discriminate; [reflexivity|].
  rewrite !bytes_bits_cons. destruct (Byte.eqb x y) eqn:E.
  - apply byte_eqb_eq in E. subst. rewrite N.ltb_irrefl, bits_lex_app. cbn [orb andb]. apply IH. lia.
  - rewrite byte_lt_bits. cbn [andb]. rewrite orb_false_r. symmetry. apply bits_lex_app_neq; [reflexivity|].
    intros H. apply byte_bits_inj in H. subst. rewrite (proj2 (byte_eqb_eq y y) eq_refl) in E. discriminate.
Qed.

Lemma mask_lt_iff o x y : o < 8 ->
  (N.land (bN x) (N.shiftl 255 (N.of_nat (8 - o))) <? N.land (bN y) (N.shiftl 255 (N.of_nat (8 - o))))%N
  = bits_lex (firstn o (byte_bits x)) (firstn o (byte_bits y)).
Proof.
  intros Ho. rewrite <- (bN_Nb_small _ (mask_lt o x Ho)), <- (bN_Nb_small _ (mask_lt o y Ho)).
  rewrite byte_lt_bits, !mask_bits by assumption.
  destruct (list_eq_dec bool_dec (firstn o (byte_bits x)) (firstn o (byte_bits y))) as [E|E].
  - rewrite E, !bits_lex_irrefl. reflexivity.
  - apply bits_lex_app_neq; [|exact E]. rewrite !firstn_length, !byte_bits_length. reflexivity.
Qed.

Lemma bits_lt_same_len a b : bits_ok a -> bits_ok b -> b_len a = b_len b ->
  bits_lt a b = Ok (bits_lex (bits_of a) (bits_of b)).
Proof.
  intros Ha Hb Hl. unfold bits_lt.
  assert (List.length (full_width_prefix a) = List.length (full_width_prefix b)) as HL
    by (rewrite !full_width_prefix_length by assumption; congruence).
  assert (List.length (bytes_bits (full_width_prefix a)) = List.length (bytes_bits (full_width_prefix b))) as HL'
    by (rewrite !bytes_bits_length; congruence).
  rewrite bytes_lt_bits by assumption.
  destruct (bytes_eqb (full_width_prefix a) (full_width_prefix b)) eqn:E.
  - apply bytes_eqb_eq in E.
    destruct (bits_of_split a Ha) as [(A0 & A1 & A2)|(x & A0 & Ax & A1 & A2)];
    destruct (bits_of_split b Hb) as [(B0 & B1 & B2)|(y & B0 & By & B1 & B2)]; try (rewrite Hl in *; congruence);
    rewrite A1, B1, A2, B2, E, bits_lex_irrefl; cbn [bind].
    + reflexivity.
    + rewrite bits_lex_app, <- Hl, mask_lt_iff by lia. reflexivity.
  - apply bytes_eqb_neq in E.
    assert (bytes_bits (full_width_prefix a) <> bytes_bits (full_width_prefix b)) as En
      by (intros H; apply E, bytes_bits_inj, H).
    destruct (bits_of_split a Ha) as [(A0 & A1 & A2)|(x & A0 & Ax & A1 & A2)];
    destruct (bits_of_split b Hb) as [(B0 & B1 & B2)|(y & B0 & By & B1 & B2)]; try (rewrite Hl in *; congruence);
    rewrite A1, B1, ?bits_lex_app_neq by assumption;
    destruct (bits_lex (bytes_bits (full_width_prefix a)) (bytes_bits (full_width_prefix b))); reflexivity.
Qed.

(** In general [__lt__] compares the pair (full-width bytes, masked tail). *)
Lemma tail_bits_ok b : bits_ok b -> exists t, tail_bits b = Ok t.
Proof. intros H. destruct (bits_of_split b H) as [(_ & _ & E)|(x & _ & _ & _ & E)]; eauto. Qed.

Lemma bytes_ltb_irrefl a : bytes_ltb a a = false.
Proof. induction a as [|x a IH]; [reflexivity|]. cbn. rewrite N.ltb_irrefl, IH, andb_false_r. reflexivity. Qed.

Lemma bytes_ltb_trans a b c : bytes_ltb a b = true -> bytes_ltb b c = true -> bytes_ltb a c = true.
Proof.
  revert b c; induction a as [|x a IH]; intros [|y b] [|z c]; cbn; try discriminate; auto.
  rewrite !orb_true_iff, !andb_true_iff, !byte_eqb_eq, !N.ltb_lt.
  intros [H1|[-> H1]] [H2|[-> H2]]; [left; lia|left; lia|left; lia|right].
  split; [reflexivity|]. eapply IH; eassumption.
Qed.

Lemma bits_lt_val a b ta tb : tail_bits a = Ok ta -> tail_bits b = Ok tb ->
  bits_lt a b = Ok (bytes_ltb (full_width_prefix a) (full_width_prefix b) ||
                    (bytes_eqb (full_width_prefix a) (full_width_prefix b) && (ta <? tb)%N)).
Proof.
  intros Ha Hb. unfold bits_lt. rewrite Ha, Hb.
  destruct (bytes_ltb _ _); [reflexivity|]. destruct (bytes_eqb _ _); reflexivity.
Qed.

Lemma bits_lt_irrefl a : bits_ok a -> bits_lt a a = Ok false.
Proof.
  intros H. destruct (tail_bits_ok a H) as [t Ht]. rewrite (bits_lt_val _ _ _ _ Ht Ht).
  rewrite bytes_ltb_irrefl, N.ltb_irrefl, andb_false_r. reflexivity.
Qed.

Lemma bits_lt_trans a b c : bits_ok a -> bits_ok b -> bits_ok c ->
  bits_lt a b = Ok true -> bits_lt b c = Ok true -> bits_lt a c = Ok true.
Proof.
  intros Ha Hb Hc. destruct (tail_bits_ok a Ha) as [ta Ta], (tail_bits_ok b Hb) as [tb Tb], (tail_bits_ok c Hc) as [tc Tc].
  rewrite (bits_lt_val _ _ _ _ Ta Tb), (bits_lt_val _ _ _ _ Tb Tc), (bits_lt_val _ _ _ _ Ta Tc).
  intros H1 H2. injection H1 as H1. injection H2 as H2. f_equal.
  rewrite orb_true_iff, andb_true_iff in *. rewrite N.ltb_lt, bytes_eqb_eq in *.
  destruct H1 as [H1|[H1 H1']], H2 as [H2|[H2 H2']].
  - left. eapply bytes_ltb_trans; eassumption.
  - left. rewrite <- H2. exact H1.
  - left. rewrite H1. exact H2.
  - right. split; [congruence|lia].
Qed.

Lemma bits_lex_total a b : List.length a = List.length b -> a <> b ->
  bits_lex a b = negb (bits_lex b a).
Proof.
  revert b; induction a as [|x a IH]; intros [|y b] HL HN; cbn in *; try discriminate; [congruence|].
  destruct (Bool.eqb x y) eqn:E.
  - apply eqb_prop in E. subst. rewrite eqb_reflx. apply IH; [lia|congruence].
  - destruct x, y; cbn in *; congruence.
Qed.

(** ** Property statements in terms of the public operations *)

Lemma bits_new_observed it : exists b,
  bits_new it = Ok b /\ api_bits b /\ yields b it /\ bits_len b = List.length it.
Proof.
  destruct (bits_new_spec it) as (b & E1 & E2 & E3). exists b.
  repeat split; auto; [econstructor; exact E1 | apply yields_iff; assumption |].
  unfold bits_len. rewrite <- E3. symmetry. apply bits_of_length. assumption.
Qed.

Lemma bits_from_bytes_observed buf (l : Z) :
  if ((0 <=? l) && (l <=? 8 * Z.of_nat (List.length buf)))%Z
  then exists b, bits_from_bytes buf (Some l) = Ok b /\ yields b (firstn (Z.to_nat l) (bytes_bits buf)) /\
                 bits_len b = Z.to_nat l
  else bits_from_bytes buf (Some l) = Err ValueError.
Proof.
  destruct ((0 <=? l) && (l <=? 8 * Z.of_nat (List.length buf)))%Z eqn:E.
  - destruct (bits_from_bytes_ok buf (Z.to_nat l) ltac:(lia)) as (b & E1 & E2 & E3 & E4).
    rewrite Z2Nat.id in E1 by lia. exists b. repeat split; auto. apply yields_iff; assumption.
  - rewrite bits_from_bytes_spec, E. reflexivity.
Qed.

Lemma bits_from_bytes_default buf : exists b,
  bits_from_bytes buf None = Ok b /\ yields b (bytes_bits buf) /\ bits_len b = 8 * List.length buf.
Proof.
  destruct (bits_from_bytes_none buf) as (b & E1 & E2 & E3). exists b. repeat split; auto.
  - apply yields_iff; assumption.
  - unfold bits_len. rewrite <- (bits_of_length b E2), E3. apply bytes_bits_length.
Qed.

Lemma bits_sequence b : api_bits b -> exists l,
  yields b l /\ bits_len b = List.length l /\
  forall i, bits_getitem b i = match py_index l i with Ok x => Ok (bit x) | Err e => Err e end.
Proof.
  intros H. pose proof (api_bits_ok b H) as Hok. exists (bits_of b).
  split; [apply api_yields, H|]. split; [symmetry; apply bits_of_length, Hok|].
  intros i. apply bits_getitem_spec, Hok.
Qed.

Lemma bits_slice_observed b l s : api_bits b -> yields b l ->
  match py_slice l s with
  | Ok r => exists b', bits_slice b s = Ok b' /\ api_bits b' /\ yields b' r
  | Err e => bits_slice b s = Err e
  end.
Proof.
  intros H Hy. pose proof (api_bits_ok b H) as Hok. apply yields_iff in Hy; [|assumption]. subst l.
  pose proof (bits_slice_spec b s Hok) as S. destruct (py_slice (bits_of b) s); [|exact S].
  destruct S as (r & S1 & S2 & S3). exists r. split; [exact S1|]. split; [eapply api_slice; eassumption|].
  apply yields_iff; assumption.
Qed.

Lemma bits_eq_observed a b la lb : api_bits a -> api_bits b -> yields a la -> yields b lb ->
  exists r, bits_eq a b = Ok r /\ (r = true <-> la = lb).
Proof.
  intros Ha Hb Ya Yb. apply yields_iff in Ya, Yb; try (apply api_bits_ok; assumption). subst.
  exists (bools_eqb (bits_of a) (bits_of b)). split; [|apply bools_eqb_eq].
  apply bits_eq_spec; apply api_bits_ok; assumption.
Qed.

Lemma bits_add_observed a b la lb : api_bits a -> api_bits b -> yields a la -> yields b lb ->
  exists r, bits_add a b = Ok r /\ api_bits r /\ yields r (la ++ lb).
Proof.
  intros Ha Hb Ya Yb. apply yields_iff in Ya, Yb; try (apply api_bits_ok; assumption). subst.
  destruct (bits_add_spec a b) as (r & R1 & R2 & R3); try (apply api_bits_ok; assumption).
  exists r. repeat split; auto; [eapply api_add; [exact Ha|exact Hb|exact R1] | apply yields_iff; assumption].
Qed.

Lemma bits_invert_observed a la : api_bits a -> yields a la ->
  exists r, bits_invert a = Ok r /\ api_bits r /\ yields r (map negb la).
Proof.
  intros Ha Ya. apply yields_iff in Ya; try (apply api_bits_ok; assumption). subst.
  destruct (bits_invert_spec a) as (r & R1 & R2 & R3); try (apply api_bits_ok; assumption).
  exists r. repeat split; auto; [eapply api_invert; [exact Ha|exact R1] | apply yields_iff; assumption].
Qed.

Lemma bits_startswith_observed a p la lp : api_bits a -> api_bits p -> yields a la -> yields p lp ->
  exists r, bits_startswith a p = Ok r /\ (r = true <-> is_prefix lp la).
Proof.
  intros Ha Hb Ya Yb. apply yields_iff in Ya, Yb; try (apply api_bits_ok; assumption). subst.
  exists (prefix_of (bits_of p) (bits_of a)). split; [|apply prefix_of_iff].
  apply bits_startswith_spec; apply api_bits_ok; assumption.
Qed.

Lemma bits_common_prefix_observed a b la lb : api_bits a -> api_bits b -> yields a la -> yields b lb ->
  exists r p, bits_common_prefix a b = Ok r /\ api_bits r /\ yields r p /\ longest_common_prefix p la lb.
Proof.
  intros Ha Hb Ya Yb. apply yields_iff in Ya, Yb; try (apply api_bits_ok; assumption). subst.
  destruct (bits_common_prefix_spec a b) as (r & R1 & R2 & R3); try (apply api_bits_ok; assumption).
  exists r, (firstn (lcpl (bits_of a) (bits_of b)) (bits_of a)).
  repeat split; [exact R1|eapply api_common_prefix; [exact Ha|exact Hb|exact R1]|apply yields_iff; assumption|..];
  apply lcpl_longest.
Qed.

Lemma bits_order_same_length a b la lb : api_bits a -> api_bits b -> yields a la -> yields b lb ->
  List.length la = List.length lb ->
  bits_lt a b = Ok (bits_lex la lb) /\
  (bits_lt a b = Ok true \/ bits_eq a b = Ok true \/ bits_lt b a = Ok true).
Proof.
  intros Ha Hb Ya Yb Hl. apply api_bits_ok in Ha, Hb. apply yields_iff in Ya, Yb; try assumption. subst.
  rewrite !bits_of_length in Hl by assumption.
  rewrite !bits_lt_same_len, bits_eq_spec by (assumption || congruence).
  split; [reflexivity|].
  destruct (list_eq_dec bool_dec (bits_of a) (bits_of b)) as [E|E].
  - right. left. f_equal. apply bools_eqb_eq. exact E.
  - pose proof (bits_lex_total (bits_of a) (bits_of b)) as T. rewrite !bits_of_length in T by assumption.
    specialize (T Hl E). rewrite T. destruct (bits_lex (bits_of b) (bits_of a)); auto.
Qed.

Lemma bits_order_strict a b c : api_bits a -> api_bits b -> api_bits c ->
  bits_lt a a = Ok false /\ (bits_lt a b = Ok true -> bits_lt b c = Ok true -> bits_lt a c = Ok true).
Proof.
  intros Ha Hb Hc. apply api_bits_ok in Ha, Hb, Hc. split; [apply bits_lt_irrefl; assumption|].
  apply bits_lt_trans; assumption.
Qed.

(** Abbreviation for examples: Bits(l) (bits.py:51-68); bits_new never errors (bits_new_observed). *)
Definition mk_bits (l : list bool) : Bits := match bits_new l with Ok b => b | Err _ => bits_empty end.

Lemma mk_bits_api l : api_bits (mk_bits l) /\ yields (mk_bits l) l.
Proof. unfold mk_bits. destruct (bits_new_observed l) as (b & -> & H1 & H2 & _). auto. Qed.
