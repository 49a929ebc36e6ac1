From Verif Require Import Base Bits_Model Bits_Spec Bits_Proofs Sha256 Serialize_Model Serialize_Spec.
From Coq Require Import ZifyBool ZifyNat ZifyN.
Ltac Zify.zify_post_hook ::= Z.div_mod_to_equations.

(** ** Varuints *)

Lemma land127 (v : Z) : Z.land v 127 = (v mod 128)%Z.
Proof. change 127%Z with (Z.ones 7). rewrite Z.land_ones by lia. reflexivity. Qed.

Lemma lor128 (v : Z) : (0 <= v < 128 -> Z.lor v 128 = v + 128)%Z.
Proof.
  intros H. rewrite <- Z.lxor_lor, <- Z.add_nocarry_lxor; [reflexivity|..].
  all: change 128%Z with (2 ^ 7)%Z; apply Z.bits_inj'; intros n Hn; rewrite Z.land_spec, Z.bits_0, Z.pow2_bits_eqb by lia;
    destruct (7 =? n)%Z eqn:E; [|apply andb_false_r]; rewrite andb_true_r;
    assert (n = 7%Z) by lia; subst; rewrite Z.testbit_false by lia; change (2 ^ 7)%Z with 128%Z; rewrite Z.div_small; [reflexivity|lia].
Qed.

Lemma log2_div128 v : (128 <= v -> Z.log2 (v / 128) < Z.log2 v)%Z.
Proof.
  intros H. pose proof (Z.log2_shiftr v 7 ltac:(lia)) as L. rewrite Z.shiftr_div_pow2 in L by lia.
  change (2 ^ 7)%Z with 128%Z in L. pose proof (Z.log2_le_mono 128 v H) as M. change (Z.log2 128) with 7%Z in M. lia.
Qed.

Lemma wv_loop_fuel fuel fuel' v : (0 < v)%Z -> Z.to_nat (Z.log2 v) < fuel -> Z.to_nat (Z.log2 v) < fuel' ->
  write_varuint_loop fuel v = write_varuint_loop fuel' v.
Proof.
  revert fuel' v; induction fuel as [|fuel IH]; intros [|fuel'] v Hv H1 H2; try lia.
  cbn [write_varuint_loop]. destruct (v =? 0)%Z eqn:E0; [reflexivity|].
  destruct (v <=? 127)%Z eqn:E1; [reflexivity|]. f_equal.
  rewrite Z.shiftr_div_pow2 by lia. change (2 ^ 7)%Z with 128%Z.
  assert (L : (Z.log2 (v / 128) < Z.log2 v)%Z).
  { apply log2_div128; lia. }
  pose proof (Z.log2_nonneg (v / 128)). apply IH; [lia|..]; remember (Z.log2 (v / 128)) as l; clear Heql; lia.
Qed.

Lemma write_varuint_unfold v : (0 <= v)%Z -> write_varuint v =
  if (v <? 128)%Z then [Nb (Z.to_N v)] else Nb (Z.to_N (v mod 128 + 128)) :: write_varuint (v / 128).
Proof.
  intros Hv. destruct (v <? 128)%Z eqn:E.
  - unfold write_varuint. destruct (v =? 0)%Z eqn:E0.
    + assert (v = 0%Z) by lia; subst; reflexivity.
    + cbn [write_varuint_loop]. rewrite E0. destruct (127 <? v)%Z eqn:E1; [lia|].
      destruct (v <=? 127)%Z eqn:E2; [|lia]. rewrite land127, Z.mod_small by lia. reflexivity.
  - unfold write_varuint at 1. destruct (v =? 0)%Z eqn:E0; [lia|].
    cbn [write_varuint_loop]. rewrite E0. destruct (127 <? v)%Z eqn:E1; [|lia].
    destruct (v <=? 127)%Z eqn:E2; [lia|]. rewrite land127, lor128 by lia. f_equal.
    rewrite Z.shiftr_div_pow2 by lia. change (2 ^ 7)%Z with 128%Z.
    unfold write_varuint. destruct (v / 128 =? 0)%Z eqn:E3; [lia|].
    assert (L : (Z.log2 (v / 128) < Z.log2 v)%Z).
    { apply log2_div128; lia. }
    pose proof (Z.log2_nonneg (v / 128)). apply wv_loop_fuel; [lia|..]; remember (Z.log2 (v / 128)) as l; clear Heql; lia.
Qed.

(** Induction along the digits. *)
Lemma digits_ind (P : Z -> Prop) :
  (forall v, (0 <= v < 128)%Z -> P v) ->
  (forall v, (128 <= v)%Z -> P (v / 128)%Z -> P v) -> forall v, (0 <= v)%Z -> P v.
Proof.
  intros H1 H2 v Hv. pattern v. apply Zlt_0_ind; [|exact Hv]. clear v Hv. intros v IH Hv.
  destruct (Z_lt_le_dec v 128); [apply H1; lia|]. apply H2; [lia|]. apply IH. lia.
Qed.

Lemma write_varuint_small v : (0 <= v < 128)%Z -> write_varuint v = [Nb (Z.to_N v)].
Proof. intros H. rewrite write_varuint_unfold by lia. destruct (v <? 128)%Z eqn:E; [reflexivity|lia]. Qed.
Lemma write_varuint_big v : (128 <= v)%Z -> write_varuint v = Nb (Z.to_N (v mod 128 + 128)) :: write_varuint (v / 128).
Proof. intros H. rewrite write_varuint_unfold by lia. destruct (v <? 128)%Z eqn:E; [lia|reflexivity]. Qed.

Lemma write_varuint_value v : (0 <= v)%Z -> varuint_value (write_varuint v) = Z.to_N v.
Proof.
  revert v. apply digits_ind; intros v H; [|intros IH].
  - rewrite write_varuint_small by lia. cbn [varuint_value]. rewrite bN_Nb_small by lia. lia.
  - rewrite write_varuint_big by lia. cbn [varuint_value]. rewrite bN_Nb_small, IH by lia. lia.
Qed.

Lemma write_varuint_nonempty v : (0 <= v)%Z -> write_varuint v <> [].
Proof. intros H. rewrite write_varuint_unfold by lia. destruct (v <? 128)%Z; discriminate. Qed.

Lemma varuint_framed_cons b e : (128 <= bN b)%N -> varuint_framed e -> varuint_framed (b :: e).
Proof. intros H1 H2. destruct e; [destruct H2|]. split; assumption. Qed.

Lemma varuint_framed_inv b e : varuint_framed (b :: e) ->
  ((bN b < 128)%N /\ e = []) \/ ((128 <= bN b)%N /\ varuint_framed e).
Proof. destruct e; cbn; [auto|]. intros [H1 H2]. auto. Qed.

Lemma write_varuint_framed v : (0 <= v)%Z -> varuint_framed (write_varuint v).
Proof.
  revert v. apply digits_ind; intros v H; [|intros IH].
  - rewrite write_varuint_small by lia. cbn. rewrite bN_Nb_small by lia. lia.
  - rewrite write_varuint_big by lia. apply varuint_framed_cons; [rewrite bN_Nb_small by lia; lia|exact IH].
Qed.

Lemma land_byte_127 b : N.land (bN b) 127 = (bN b mod 128)%N.
Proof. change 127%N with (N.ones 7). rewrite N.land_ones. reflexivity. Qed.

Lemma land_byte_128 b : (N.land (bN b) 128 =? 0)%N = (bN b <? 128)%N.
Proof.
  apply Bool.eqb_prop.
  apply (forall_bytes (fun b => Bool.eqb (N.land (bN b) 128 =? 0)%N (bN b <? 128)%N)).
  vm_compute. reflexivity.
Qed.

Lemma lor_shiftl_add a b s : (a < 2 ^ s)%N -> N.lor a (N.shiftl b s) = (a + b * 2 ^ s)%N.
Proof.
  intros H. rewrite N.shiftl_mul_pow2.
  assert (D : N.land a (b * 2 ^ s) = 0%N).
  { apply N.bits_inj. intros n. rewrite N.land_spec, N.bits_0.
    destruct (N.lt_ge_cases n s) as [L|L].
    - rewrite N.mul_pow2_bits_low by exact L. apply andb_false_r.
    - assert (Z : N.testbit a n = false); [|rewrite Z; reflexivity].
      destruct (N.eq_dec a 0) as [->|Ha]; [apply N.bits_0|].
      apply N.bits_above_log2. apply N.log2_lt_pow2 in H; lia. }
  rewrite <- N.lxor_lor by exact D. symmetry. apply N.add_nocarry_lxor. exact D.
Qed.

Lemma pow2_7 s : (2 ^ (s + 7) = 2 ^ s * 128)%N.
Proof. rewrite N.pow_add_r. reflexivity. Qed.

Lemma acc_bound v P d : (v < P -> d < 128 -> v + d * P < P * 128)%N.
Proof. intros H1 H2. assert (d * P <= 127 * P)%N by (apply N.mul_le_mono_r; lia). lia. Qed.

Lemma acc_step v P d e : (v + d * P + e * (P * 128) = v + (d + 128 * e) * P)%N.
Proof. rewrite N.mul_add_distr_r. lia. Qed.

Lemma read_loop_sound value shift s v rest : (value < 2 ^ shift)%N ->
  read_varuint_loop value shift s = Ok (v, rest) ->
  exists enc, s = enc ++ rest /\ varuint_framed enc /\ v = (value + varuint_value enc * 2 ^ shift)%N.
Proof.
  revert value shift. induction s as [|b s IH]; intros value shift Hv H; cbn [read_varuint_loop] in H; [discriminate|].
  rewrite land_byte_127, land_byte_128, lor_shiftl_add in H by exact Hv.
  destruct (bN b <? 128)%N eqn:E.
  - inversion H; subst. exists [b]. repeat split; [cbn; lia|]. cbn [varuint_value]. rewrite N.mul_0_r, N.add_0_r. reflexivity.
  - destruct (IH _ _ ltac:(rewrite pow2_7; apply acc_bound; [exact Hv|apply N.mod_lt; lia]) H) as (e & E1 & E2 & E3).
    exists (b :: e). repeat split; [cbn; congruence|apply varuint_framed_cons; [lia|exact E2]|].
    rewrite E3, pow2_7. cbn [varuint_value]. apply acc_step.
Qed.

Lemma read_loop_complete value shift enc rest : (value < 2 ^ shift)%N -> varuint_framed enc ->
  read_varuint_loop value shift (enc ++ rest) = Ok ((value + varuint_value enc * 2 ^ shift)%N, rest).
Proof.
  revert value shift. induction enc as [|b s IH]; intros value shift Hv H; [destruct H|].
  cbn [read_varuint_loop app].
  rewrite land_byte_127, land_byte_128, lor_shiftl_add by exact Hv.
  destruct (varuint_framed_inv _ _ H) as [[H1 ->]|[H1 H2]].
  - destruct (bN b <? 128)%N eqn:E; [|lia]. cbn [app varuint_value]. rewrite N.mul_0_r, N.add_0_r. reflexivity.
  - destruct (bN b <? 128)%N eqn:E; [lia|].
    rewrite IH; [|rewrite pow2_7; apply acc_bound; [exact Hv|apply N.mod_lt; lia]|exact H2].
    rewrite pow2_7. cbn [varuint_value]. f_equal. f_equal. apply acc_step.
Qed.

Lemma read_loop_trunc value shift p : (forall b, In b p -> (128 <= bN b)%N) ->
  read_varuint_loop value shift p = Err TruncationError.
Proof.
  revert value shift; induction p as [|b p IH]; intros value shift H; cbn [read_varuint_loop]; [reflexivity|].
  rewrite land_byte_128. destruct (bN b <? 128)%N eqn:E.
  - specialize (H b (or_introl eq_refl)). lia.
  - apply IH. intros x Hx. apply H. right; exact Hx.
Qed.

Lemma read_varuint_iff s v rest : read_varuint s = Ok (v, rest) <->
  exists enc, s = enc ++ rest /\ varuint_framed enc /\ v = varuint_value enc.
Proof.
  unfold read_varuint. split.
  - intros H. apply read_loop_sound in H; [|cbn; lia]. destruct H as (e & E1 & E2 & E3).
    exists e. repeat split; auto. rewrite E3. cbn [N.pow]. lia.
  - intros (e & -> & E2 & ->). rewrite read_loop_complete; [|cbn; lia|exact E2]. f_equal. f_equal. cbn [N.pow]. lia.
Qed.

Lemma read_write_varuint v rest : (0 <= v)%Z -> read_varuint (write_varuint v ++ rest) = Ok (Z.to_N v, rest).
Proof.
  intros H. apply read_varuint_iff. exists (write_varuint v). repeat split.
  - apply write_varuint_framed; exact H.
  - symmetry. apply write_varuint_value; exact H.
Qed.

Lemma read_write_varuint_N v rest : read_varuint (write_varuint (Z.of_N v) ++ rest) = Ok (v, rest).
Proof. rewrite read_write_varuint by lia. rewrite N2Z.id. reflexivity. Qed.

Lemma read_varuint_err s e : read_varuint s = Err e -> e = TruncationError.
Proof.
  unfold read_varuint. generalize 0%N at 2 as sh. generalize 0%N as v.
  induction s as [|b s IH]; intros v sh; cbn [read_varuint_loop]; [congruence|].
  destruct (_ =? 0)%N; [discriminate|apply IH].
Qed.

(** A proper initial segment of a framed encoding has all high bits set. *)
Lemma framed_prefix enc p q : varuint_framed enc -> enc = p ++ q -> q <> [] -> forall b, In b p -> (128 <= bN b)%N.
Proof.
  revert p; induction enc as [|x enc IH]; intros p F E Hq b Hb; [destruct F|].
  destruct p as [|y p]; [destruct Hb|]. cbn in E. inversion E; subst.
  destruct (varuint_framed_inv _ _ F) as [[H1 H2]|[H1 H2]].
  - destruct p; [|discriminate]. cbn in H2. congruence.
  - destruct Hb as [->|Hb]; [exact H1|]. eapply IH; eauto.
Qed.

Lemma read_varuint_truncated v p q : (0 <= v)%Z -> write_varuint v = p ++ q -> q <> [] ->
  read_varuint p = Err TruncationError.
Proof.
  intros Hv E Hq. apply read_loop_trunc.
  eapply framed_prefix; [apply write_varuint_framed; exact Hv|exact E|exact Hq].
Qed.

(** The written encoding is the shortest and the only one of that length. *)
Lemma framed_shortest v : (0 <= v)%Z -> forall enc, varuint_framed enc -> varuint_value enc = Z.to_N v ->
  List.length (write_varuint v) <= List.length enc /\
  (List.length enc = List.length (write_varuint v) -> enc = write_varuint v).
Proof.
  revert v. apply (digits_ind (fun v => forall enc, varuint_framed enc -> varuint_value enc = Z.to_N v ->
    List.length (write_varuint v) <= List.length enc /\
    (List.length enc = List.length (write_varuint v) -> enc = write_varuint v))); intros v Hv.
  - intros [|b e] F V; [destruct F|]. rewrite write_varuint_small by exact Hv. cbn [List.length]. split; [lia|].
    intros L. destruct e; [|discriminate]. cbn in F, V. f_equal. apply bN_inj. rewrite bN_Nb_small; lia.
  - intros IH [|b e] F V; [destruct F|]. rewrite write_varuint_big by exact Hv. cbn [List.length].
    cbn [varuint_value] in V.
    destruct (varuint_framed_inv _ _ F) as [[H1 ->]|[H1 H2]].
    + cbn in V. lia.
    + pose proof (bN_lt b). destruct (IH e H2 ltac:(lia)) as [I1 I2]. split; [lia|].
      intros L. rewrite <- I2 by lia. f_equal. apply bN_inj. rewrite bN_Nb_small by lia. lia.
Qed.

Lemma varuint_value_app a b : varuint_value (a ++ b) = (varuint_value a + 128 ^ blen a * varuint_value b)%N.
Proof.
  induction a as [|x a IH]; [cbn [app varuint_value]; change (blen []) with 0%N; lia|].
  cbn [app varuint_value]. rewrite blen_cons, N.pow_succ_r', IH. lia.
Qed.

Lemma framed_app a b : (forall x, In x a -> (128 <= bN x)%N) -> varuint_framed b -> varuint_framed (a ++ b).
Proof.
  induction a as [|x a IH]; intros H F; cbn [app]; [exact F|].
  apply varuint_framed_cons; [apply H; left; reflexivity|]. apply IH; [intros; apply H; right; assumption|exact F].
Qed.

Lemma framed_last e : varuint_framed e -> exists p b, e = p ++ [b] /\ (bN b < 128)%N /\ forall x, In x p -> (128 <= bN x)%N.
Proof.
  induction e as [|x e IH]; intros F; [destruct F|].
  destruct (varuint_framed_inv _ _ F) as [[H1 ->]|[H1 H2]].
  - exists [], x. repeat split; [exact H1|intros ? []].
  - destruct (IH H2) as (p & b & -> & Hb & Hp). exists (x :: p), b. repeat split; [exact Hb|].
    intros y [->|Hy]; auto.
Qed.

(** The encodings of a value are the written one and those padded with zero digits. *)
Lemma framed_canonical_iff enc : varuint_framed enc ->
  (enc = write_varuint (Z.of_N (varuint_value enc)) <-> ~ varuint_padded enc).
Proof.
  intros F. split.
  - intros E (e & b & E2 & Hne & Hb).
    (* dropping the padding gives a shorter encoding of the same value *)
    destruct (exists_last Hne) as (e' & x & ->).
    assert (Hx : (128 <= bN x)%N).
    { eapply (framed_prefix enc (e' ++ [x]) [b]); eauto; [discriminate|]. apply in_or_app. right; left; reflexivity. }
    assert (He' : forall y, In y e' -> (128 <= bN y)%N).
    { intros y Hy. eapply (framed_prefix enc (e' ++ [x]) [b]); eauto; [discriminate|]. apply in_or_app. left; exact Hy. }
    set (short := e' ++ [Nb (bN x - 128)]).
    pose proof (bN_lt x).
    assert (Fs : varuint_framed short) by (apply framed_app; [exact He'|cbn; rewrite bN_Nb_small by lia; lia]).
    assert (Vs : varuint_value short = Z.to_N (Z.of_N (varuint_value enc))).
    { rewrite N2Z.id, E2. unfold short. rewrite !varuint_value_app. cbn [varuint_value].
      rewrite bN_Nb_small, Hb by lia. replace (bN x mod 128)%N with (bN x - 128)%N by lia.
      replace ((bN x - 128) mod 128)%N with (bN x - 128)%N by lia. change (0 mod 128)%N with 0%N. lia. }
    destruct (framed_shortest _ (N2Z.is_nonneg _) short Fs Vs) as [L _].
    rewrite <- E in L. rewrite E2 in L. unfold short in L. rewrite !app_length in L. cbn in L. lia.
  - intros NP. induction enc as [|b e IH]; [destruct F|].
    destruct (varuint_framed_inv _ _ F) as [[H1 ->]|[H1 H2]].
    + cbn [varuint_value]. rewrite write_varuint_small by lia. f_equal. apply bN_inj. rewrite bN_Nb_small by lia. lia.
    + assert (NPe : ~ varuint_padded e).
      { intros (p & x & -> & Hp & Hx). apply NP. exists (b :: p), x. repeat split; auto. discriminate. }
      specialize (IH H2 NPe).
      assert (Hv : varuint_value e <> 0%N).
      { intros Hz. rewrite Hz in IH. cbn in IH. apply NP. exists [b], x00. rewrite IH. repeat split. discriminate. }
      cbn [varuint_value]. rewrite write_varuint_big by lia. f_equal.
      * pose proof (bN_lt b). apply bN_inj. rewrite bN_Nb_small by lia. lia.
      * rewrite IH at 1. f_equal. lia.
Qed.

(** ** Fixed reads *)

Lemma fd_read_app a rest : fd_read (blen a) (a ++ rest) = Ok (a, rest).
Proof.
  unfold fd_read. rewrite blen_app. destruct (_ <? _)%N eqn:E; [lia|].
  unfold blen. rewrite Nat2N.id, firstn_app, Nat.sub_diag, firstn_all, skipn_app, Nat.sub_diag, skipn_all.
  cbn. rewrite app_nil_r. reflexivity.
Qed.

Lemma fd_read_app_n n a rest : n = blen a -> fd_read n (a ++ rest) = Ok (a, rest).
Proof. intros ->. apply fd_read_app. Qed.

Lemma fd_read_iff n s a rest : fd_read n s = Ok (a, rest) <-> s = a ++ rest /\ blen a = n.
Proof.
  split.
  - unfold fd_read. destruct (_ <? _)%N eqn:E; [discriminate|]. intros H; inversion H; subst.
    split; [symmetry; apply firstn_skipn|]. unfold blen in *. rewrite firstn_length. lia.
  - intros [-> <-]. apply fd_read_app.
Qed.

Lemma fd_read_short n s : (blen s < n)%N -> fd_read n s = Err TruncationError.
Proof. intros H. unfold fd_read. destruct (_ <? _)%N eqn:E; [reflexivity|lia]. Qed.

Lemma fd_read_err n s e : fd_read n s = Err e -> e = TruncationError.
Proof. unfold fd_read. destruct (_ <? _)%N; congruence. Qed.

Lemma read_bool_write v rest : read_bool (write_bool v ++ rest) = Ok (v, rest).
Proof.
  unfold read_bool. destruct v; cbn [write_bool].
  - rewrite (fd_read_app_n 1 [xff]) by reflexivity. reflexivity.
  - rewrite (fd_read_app_n 1 [x00]) by reflexivity. reflexivity.
Qed.

Lemma read_bool_ok s v rest : read_bool s = Ok (v, rest) -> s = write_bool v ++ rest.
Proof.
  unfold read_bool. destruct (fd_read 1 s) as [[r s']|] eqn:E; cbn [bind]; [|discriminate].
  apply fd_read_iff in E. destruct E as [-> L]. destruct r as [|b [|c r]]; [discriminate L| |rewrite !blen_cons in L; lia].
  destruct (bN b =? 255)%N eqn:E1; [|destruct (bN b =? 0)%N eqn:E2; [|discriminate]]; intros H; inversion H; subst; cbn.
  - replace b with xff; [reflexivity|]. apply bN_inj. apply N.eqb_eq in E1. rewrite E1. reflexivity.
  - replace b with x00; [reflexivity|]. apply bN_inj. apply N.eqb_eq in E2. rewrite E2. reflexivity.
Qed.

(** ** Primitive serializers *)

Lemma prim_roundtrip s v : prim_check s v = Ok tt -> exists enc, prim_ser s v = Ok enc /\
  forall rest, prim_de s (enc ++ rest) = Ok (v, rest).
Proof.
  destruct s as [|n|mn mx|mx], v as [b|z|b|]; cbn [prim_check]; try discriminate; intros H; cbn [prim_ser];
    eexists; (split; [reflexivity|]); intros rest; cbn [prim_de].
  - rewrite read_bool_write. reflexivity.
  - destruct (blen b =? n)%N eqn:E; [|discriminate]. rewrite fd_read_app_n by lia. reflexivity.
  - destruct (_ && _)%N eqn:E; [|discriminate]. rewrite <- app_assoc, read_write_varuint_N. cbn [bind].
    rewrite E, fd_read_app. reflexivity.
  - destruct (_ && _)%Z eqn:E; [|discriminate]. rewrite read_write_varuint by lia. cbn [bind].
    rewrite Z2N.id by lia. rewrite E. reflexivity.
Qed.

Lemma prim_de_checked s st v rest : prim_de s st = Ok (v, rest) -> prim_check s v = Ok tt.
Proof.
  destruct s as [|n|mn mx|mx]; cbn [prim_de].
  - destruct (read_bool st) as [[? ?]|]; cbn [bind]; [|discriminate]. intros H; inversion H; subst. reflexivity.
  - destruct (fd_read n st) as [[? ?]|] eqn:E; cbn [bind]; [|discriminate]. intros H; inversion H; subst.
    apply fd_read_iff in E. cbn [prim_check]. destruct (_ =? _)%N eqn:E2; [reflexivity|lia].
  - destruct (read_varuint st) as [[l st']|] eqn:E; cbn [bind]; [|discriminate].
    destruct (_ && _)%N eqn:E2; [|discriminate].
    destruct (fd_read l st') as [[? ?]|] eqn:E3; cbn [bind]; [|discriminate]. intros H; inversion H; subst.
    apply fd_read_iff in E3. destruct E3 as [_ <-]. cbn [prim_check]. rewrite E2. reflexivity.
  - destruct (read_varuint st) as [[l st']|] eqn:E; cbn [bind]; [|discriminate].
    destruct (_ && _)%Z eqn:E2; [|discriminate]. intros H; inversion H; subst. cbn [prim_check]. rewrite E2. reflexivity.
Qed.

Lemma app_split_cases {A} (a b p q : list A) : a ++ b = p ++ q ->
  (exists r, p = a ++ r /\ b = r ++ q) \/ (exists r, r <> [] /\ a = p ++ r /\ q = r ++ b).
Proof.
  revert p; induction a as [|x a IH]; intros p E; cbn in E.
  - left. exists p. auto.
  - destruct p as [|y p]; cbn in E.
    + right. exists (x :: a). repeat split; [discriminate|]. rewrite <- E. reflexivity.
    + inversion E; subst. destruct (IH _ H1) as [(r & -> & ->)|(r & Hr & -> & ->)]; [left|right]; exists r; auto.
Qed.

Lemma prim_truncated s v enc p q : prim_check s v = Ok tt -> prim_ser s v = Ok enc -> enc = p ++ q -> q <> [] ->
  prim_de s p = Err TruncationError.
Proof.
  destruct s as [|n|mn mx|mx], v as [b|z|b|]; cbn [prim_check]; try discriminate; intros H S E Hq; cbn [prim_ser] in S;
    inversion S; clear S; subst enc; cbn [prim_de].
  - assert (p = []) as ->; [|reflexivity]. destruct p as [|x p]; [reflexivity|].
    destruct b; cbn in H1; inversion H1; destruct p; cbn in *; congruence.
  - subst b. destruct (_ =? _)%N eqn:E; [|discriminate]. rewrite blen_app in E.
    assert (blen q <> 0%N) by (destruct q; [congruence|rewrite blen_cons; lia]). rewrite fd_read_short by lia. reflexivity.
  - destruct (_ && _)%N eqn:E; [|discriminate].
    destruct (app_split_cases _ _ _ _ H1) as [(r & -> & Hb)|(r & Hr & Hw & _)].
    + rewrite read_write_varuint_N. cbn [bind]. rewrite E. subst b. rewrite blen_app.
      assert (blen q <> 0%N) by (destruct q; [congruence|rewrite blen_cons; lia]). rewrite fd_read_short by lia. reflexivity.
    + erewrite read_varuint_truncated; [reflexivity| |exact Hw|exact Hr]. lia.
  - destruct (_ && _)%Z eqn:E; [|discriminate]. erewrite read_varuint_truncated; [reflexivity| |exact H1|exact Hq]. lia.
Qed.

(** Errors of a primitive reader. *)
Lemma prim_de_err s st e : prim_de s st = Err e -> e = TruncationError \/ e = DeserializationError.
Proof.
  destruct s as [|n|mn mx|mx]; cbn [prim_de].
  - unfold read_bool. destruct (fd_read 1 st) as [[r s']|] eqn:E; cbn [bind].
    + apply fd_read_iff in E. destruct E as [_ L]. destruct r as [|b r]; [discriminate L|].
      destruct (_ =? 255)%N; cbn; [discriminate|]. destruct (_ =? 0)%N; cbn; [discriminate|]. intros H; inversion H; auto.
    + apply fd_read_err in E. intros H; inversion H; subst; auto.
  - destruct (fd_read n st) as [[? ?]|] eqn:E; cbn [bind]; [discriminate|]. apply fd_read_err in E. intros H; inversion H; subst; auto.
  - destruct (read_varuint st) as [[l st']|] eqn:E; cbn [bind].
    + destruct (_ && _)%N; [|intros H; inversion H; auto].
      destruct (fd_read l st') as [[? ?]|] eqn:E3; cbn [bind]; [discriminate|]. apply fd_read_err in E3. intros H; inversion H; subst; auto.
    + apply read_varuint_err in E. intros H; inversion H; subst; auto.
  - destruct (read_varuint st) as [[l st']|] eqn:E; cbn [bind].
    + destruct (_ && _)%Z; [discriminate|intros H; inversion H; auto].
    + apply read_varuint_err in E. intros H; inversion H; subst; auto.
Qed.

(** A primitive reader never returns more stream than it got, and what it consumed
    has at least the length of the canonical encoding. *)
Lemma prim_de_consumes s st v rest : prim_de s st = Ok (v, rest) ->
  exists enc can, st = enc ++ rest /\ prim_ser s v = Ok can /\ List.length can <= List.length enc /\
    (forall rest', prim_de s (enc ++ rest') = Ok (v, rest')) /\
    (List.length can = List.length enc -> enc = can).
Proof.
  destruct s as [|n|mn mx|mx]; cbn [prim_de].
  - destruct (read_bool st) as [[b r]|] eqn:E; cbn [bind]; [|discriminate]. intros H; inversion H; subst.
    apply read_bool_ok in E. exists (write_bool b), (write_bool b). repeat split; auto.
    intros rest'. rewrite read_bool_write. reflexivity.
  - destruct (fd_read n st) as [[b ?]|] eqn:E; cbn [bind]; [|discriminate]. intros H; inversion H; subst.
    apply fd_read_iff in E. destruct E as [-> <-]. exists b, b. repeat split; auto.
    intros rest'. rewrite fd_read_app. reflexivity.
  - destruct (read_varuint st) as [[l st']|] eqn:E; cbn [bind]; [|discriminate].
    destruct (_ && _)%N eqn:E2; [|discriminate].
    destruct (fd_read l st') as [[b ?]|] eqn:E3; cbn [bind]; [|discriminate]. intros H; inversion H; subst.
    apply read_varuint_iff in E. destruct E as (e & -> & Fe & ->).
    apply fd_read_iff in E3. destruct E3 as [-> Lb].
    exists (e ++ b), (write_varuint (Z.of_N (blen b)) ++ b).
    destruct (framed_shortest (Z.of_N (blen b)) ltac:(lia) e Fe ltac:(lia)) as [L1 L2].
    split; [rewrite app_assoc; reflexivity|]. split; [reflexivity|]. rewrite !app_length. split; [lia|]. split.
    + intros rest'. rewrite <- app_assoc.
      assert (R : read_varuint (e ++ b ++ rest') = Ok (varuint_value e, b ++ rest')) by (apply read_varuint_iff; eauto).
      rewrite R. cbn [bind]. rewrite E2, <- Lb, fd_read_app. reflexivity.
    + intros L. rewrite L2; [reflexivity|lia].
  - destruct (read_varuint st) as [[l st']|] eqn:E; cbn [bind]; [|discriminate].
    destruct (_ && _)%Z eqn:E2; [|discriminate]. intros H; inversion H; subst.
    apply read_varuint_iff in E. destruct E as (e & -> & Fe & ->).
    destruct (framed_shortest (Z.of_N (varuint_value e)) ltac:(lia) e Fe ltac:(lia)) as [L1 L2].
    exists e, (write_varuint (Z.of_N (varuint_value e))). repeat split; auto.
    intros rest'. assert (R : read_varuint (e ++ rest') = Ok (varuint_value e, rest')) by (apply read_varuint_iff; eauto).
    rewrite R. cbn [bind]. rewrite E2. reflexivity.
Qed.

(** ** Bits serialization *)

Lemma bits_ser_spec b : bits_ok b -> exists payload,
  bits_ser b = Ok (write_varuint (Z.of_nat (b_len b)) ++ payload) /\
  List.length payload = b_len b / 8 + (if (b_len b mod 8 =? 0) then 0 else 1) /\
  bytes_bits payload = bits_of b ++ repeat false (8 * List.length payload - b_len b).
Proof.
  intros Hok. pose proof (full_width_prefix_length b Hok) as HL. unfold bits_ser.
  destruct (bits_of_split b Hok) as [(H0 & H1 & H2)|(x & H0 & H1 & H2 & H3)].
  - apply Nat.eqb_eq in H0 as H0'. rewrite H0'. exists (full_width_prefix b). repeat split; [lia|].
    rewrite HL. replace (8 * (b_len b / 8) - b_len b) with 0 by lia. cbn [repeat]. rewrite app_nil_r. symmetry; exact H1.
  - apply Nat.eqb_neq in H0 as H0'. rewrite H0'. rewrite H3. cbn [bind].
    assert (Ho : b_len b mod 8 < 8) by lia. rewrite pybyte_ok by (apply mask_lt; exact Ho). cbn [bind].
    eexists. split; [rewrite <- app_assoc; reflexivity|]. rewrite app_length, HL. cbn [List.length]. split; [lia|].
    rewrite bytes_bits_app, bytes_bits_cons, mask_bits by exact Ho. cbn [bytes_bits flat_map]. rewrite app_nil_r, H2, <- app_assoc.
    f_equal. f_equal. f_equal. lia.
Qed.

Lemma bits_ser_canonical a b : bits_ok a -> bits_ok b -> bits_of a = bits_of b -> bits_ser a = bits_ser b.
Proof.
  intros Ha Hb E. destruct (bits_ser_spec a Ha) as (pa & Sa & La & Ba), (bits_ser_spec b Hb) as (pb & Sb & Lb & Bb).
  assert (EL : b_len a = b_len b) by (rewrite <- (bits_of_length a Ha), <- (bits_of_length b Hb), E; reflexivity).
  rewrite Sa, Sb, EL. f_equal. f_equal. apply bytes_bits_inj. rewrite Ba, Bb, E, La, Lb, EL. reflexivity.
Qed.

Lemma bits_ser_prefix_free a b ea eb r1 r2 : bits_ok a -> bits_ok b ->
  bits_ser a = Ok ea -> bits_ser b = Ok eb -> ea ++ r1 = eb ++ r2 -> bits_of a = bits_of b.
Proof.
  intros Ha Hb Ea Eb E. destruct (bits_ser_spec a Ha) as (pa & Sa & La & Ba), (bits_ser_spec b Hb) as (pb & Sb & Lb & Bb).
  rewrite Sa in Ea. rewrite Sb in Eb. inversion Ea; inversion Eb; subst ea eb. rewrite <- !app_assoc in E.
  pose proof (f_equal read_varuint E) as R. rewrite !read_write_varuint in R by lia. inversion R as [[R1 R2]].
  assert (EL : b_len a = b_len b) by lia.
  apply app_inj_len in R2; [|rewrite La, Lb, EL; reflexivity]. destruct R2 as [-> _].
  rewrite Bb in Ba. rewrite EL in Ba. apply app_inj_len in Ba; [symmetry; apply Ba|].
  rewrite !bits_of_length by assumption. lia.
Qed.

Lemma last_nth {A} (l : list A) d k x : List.length l = S k -> nth_error l k = Some x -> List.last l d = x.
Proof.
  revert k; induction l as [|y l IH]; intros k HL HN; [discriminate|]. destruct l as [|z l].
  - cbn in HL. destruct k; [|discriminate]. cbn in *. congruence.
  - destruct k as [|k]; [discriminate|]. cbn [nth_error] in HN. change (List.last (z :: l) d = x).
    apply (IH k); [cbn in *; lia|exact HN].
Qed.

Lemma zero_byte_bits x : byte_bits x = repeat false 8 -> x = x00.
Proof. intros H. apply byte_bits_inj. rewrite H. reflexivity. Qed.

Lemma bits_roundtrip b rest : bits_ok b -> exists enc, bits_ser b = Ok enc /\
  ((bits_survive (bits_of b) /\ exists r, bits_de (enc ++ rest) = Ok (r, rest) /\ bits_ok r /\ bits_of r = bits_of b) \/
   (~ bits_survive (bits_of b) /\ bits_of b = [] /\ bits_de (enc ++ rest) = Err IndexError) \/
   (~ bits_survive (bits_of b) /\ bits_of b <> [] /\ bits_de (enc ++ rest) = Err AssertionError)).
Proof.
  intros Hok. destruct (bits_ser_spec b Hok) as (p & Ser & L & B). eexists. split; [exact Ser|].
  rewrite <- app_assoc. unfold bits_de. rewrite read_write_varuint by lia. cbn [bind].
  rewrite fd_read_app_n; [cbn [bind]|unfold blen; rewrite L; destruct (b_len b mod 8 =? 0) eqn:E1, (Z.to_N (Z.of_nat (b_len b)) mod 8 =? 0)%N eqn:E2; lia].
  rewrite Z2N.id by lia.
  assert (LB : b_len b <= 8 * List.length p) by (destruct (b_len b mod 8 =? 0) eqn:E1; lia).
  destruct (bits_from_bytes_ok p (b_len b) LB) as (r & R1 & R2 & R3 & R4).
  assert (BR : bits_of r = bits_of b).
  { rewrite R4, B. apply firstn_app_exact. apply bits_of_length, Hok. }
  rewrite R1. cbn [bind].
  pose proof (bits_of_length b Hok) as HB.
  destruct (Nat.eq_dec (b_len b) 0) as [Z0|NZ].
  { assert (p = []) as -> by (apply length_zero_iff_nil; rewrite L, Z0; reflexivity).
    rewrite bits_from_bytes_spec in R1. rewrite Z0 in R1. cbn in R1. inversion R1; subst r. cbn.
    right; left. assert (bits_of b = []) as -> by (apply length_zero_iff_nil; lia).
    repeat split. intros [H|[H _]]; [apply H; reflexivity|congruence]. }
  assert (Er : r = mkBits (b_len b) p).
  { rewrite bits_from_bytes_spec in R1. destruct (_ && _)%Z; [|discriminate]. destruct (Z.of_nat (b_len b) =? 0)%Z eqn:E; [lia|].
    inversion R1. rewrite Nat2Z.id. reflexivity. }
  assert (Hp : exists x, nth_error p (List.length p - 1) = Some x) by (apply nth_error_lt; destruct (b_len b mod 8 =? 0) eqn:E1; lia).
  destruct Hp as [x Hx].
  assert (Lp : List.length p = S (List.length p - 1)) by (destruct (b_len b mod 8 =? 0) eqn:E1; lia).
  rewrite (last_nth p x00 _ x Lp Hx).
  destruct p as [|p0 p'] eqn:Ep; [cbn in Lp; lia|]. rewrite <- Ep in *. clear Ep p0 p'.
  pose proof (firstn_snoc_nth _ _ _ Hx) as Hsp. rewrite skipn_all2 in Hsp by lia.
  assert (HBx : bytes_bits p = bytes_bits (firstn (List.length p - 1) p) ++ byte_bits x)
    by (rewrite Hsp at 1; rewrite bytes_bits_app, bytes_bits_cons; cbn [bytes_bits flat_map]; rewrite app_nil_r; reflexivity).
  assert (HL1 : List.length (bytes_bits (firstn (List.length p - 1) p)) = 8 * (List.length p - 1)).
  { rewrite bytes_bits_length, firstn_length. lia. }
  destruct (b_len b mod 8 =? 0) eqn:E1.
  - (* whole bytes: the tail is 0 but the last byte is compared with it *)
    assert (T : tail_bits r = Ok 0%N) by (unfold tail_bits; rewrite R3, E1; reflexivity). rewrite T. cbn [bind].
    replace (8 * List.length p - b_len b) with 0 in B by lia. cbn [repeat] in B. rewrite app_nil_r in B.
    assert (HS : skipn (List.length (bits_of b) - 8) (bits_of b) = byte_bits x).
    { rewrite <- B, HBx. rewrite app_length, HL1, byte_bits_length.
      replace (8 * (List.length p - 1) + 8 - 8) with (List.length (bytes_bits (firstn (List.length p - 1) p))) by lia.
      rewrite skipn_app, skipn_all, Nat.sub_diag. reflexivity. }
    destruct (0 =? bN x)%N eqn:E0; cbn [assert bind].
    + left. split; [right; split; [intros E; rewrite E in HB; cbn in HB; lia|]|].
      * rewrite HS. assert (x = x00) as -> by (apply bN_inj; apply N.eqb_eq in E0; rewrite <- E0; reflexivity). reflexivity.
      * exists r. auto.
    + right; right. repeat split.
      * intros [H|[_ H]]; [lia|]. rewrite HS in H. apply zero_byte_bits in H. subst x. discriminate E0.
      * intros E; rewrite E in HB; cbn in HB; lia.
  - assert (T : tail_bits r = Ok (bN x)).
    { unfold tail_bits. rewrite R3, E1. subst r. cbn [b_buf b_len].
      unfold byte_at. replace (b_len b / 8) with (List.length p - 1) by lia. rewrite Hx. cbn [bind]. f_equal.
      set (o := b_len b mod 8). assert (Ho : o < 8) by (unfold o; lia).
      rewrite <- (bN_Nb_small _ (mask_lt o x Ho)). f_equal. apply byte_bits_inj. rewrite mask_bits by exact Ho.
      assert (HX : byte_bits x = skipn (8 * (List.length p - 1)) (bits_of b) ++ repeat false (8 - o)).
      { assert (K : skipn (8 * (List.length p - 1)) (bytes_bits p) = byte_bits x).
        { rewrite HBx, <- HL1, skipn_app, skipn_all, Nat.sub_diag. reflexivity. }
        rewrite <- K, B, skipn_app, HB. replace (8 * (List.length p - 1) - b_len b) with 0 by lia. cbn [skipn].
        f_equal. f_equal. unfold o. lia. }
      rewrite HX. f_equal. apply firstn_app_exact. rewrite skipn_length, HB. unfold o. lia. }
    rewrite T. cbn [bind]. rewrite N.eqb_refl. cbn [assert bind]. left. split; [left; rewrite HB; lia|]. exists r. auto.
Qed.

Lemma bits_truncated b enc p q : bits_ok b -> bits_ser b = Ok enc -> enc = p ++ q -> q <> [] ->
  bits_de p = Err TruncationError.
Proof.
  intros Hok S E Hq. destruct (bits_ser_spec b Hok) as (pl & S' & L & _). rewrite S in S'. inversion S'; subst enc. clear S'.
  unfold bits_de. destruct (app_split_cases _ _ _ _ (eq_sym H0)) as [(r & -> & Hb)|(r & Hr & Hw & _)].
  - rewrite read_write_varuint by lia. cbn [bind]. apply (f_equal (@List.length _)) in Hb. rewrite app_length, L in Hb.
    assert (List.length q <> 0) by (destruct q; [congruence|cbn; lia]).
    rewrite fd_read_short; [reflexivity|]. unfold blen.
    destruct (b_len b mod 8 =? 0) eqn:E1, (Z.to_N (Z.of_nat (b_len b)) mod 8 =? 0)%N eqn:E2; lia.
  - erewrite read_varuint_truncated; [reflexivity| |exact Hw|exact Hr]. lia.
Qed.

(** ** Tagged hashing *)

Lemma tag_hash_binding t1 m1 t2 m2 : List.length t1 = List.length t2 -> tag_hash t1 m1 = tag_hash t2 m2 ->
  (t1 = t2 /\ m1 = m2) \/ collision sha256 (t1 ++ m1) (t2 ++ m2).
Proof.
  intros L H. destruct (bytes_eq_dec (t1 ++ m1) (t2 ++ m2)) as [E|E].
  - left. apply app_inj_len in E; auto.
  - right. split; assumption.
Qed.

Lemma tag_derive_binding b s1 s2 : tag_derive b s1 = tag_derive b s2 ->
  s1 = s2 \/ collision (fun m => firstn 16 (sha256 m)) (derive_root ++ b ++ s1) (derive_root ++ b ++ s2).
Proof.
  intros H. destruct (bytes_eq_dec s1 s2) as [E|E]; [left; exact E|right]. split; [|exact H].
  intros E2. apply app_inv_head in E2. apply app_inv_head in E2. contradiction.
Qed.

Lemma tag_derive_binding2 b1 s1 b2 s2 : List.length b1 = List.length b2 -> tag_derive b1 s1 = tag_derive b2 s2 ->
  (b1 = b2 /\ s1 = s2) \/ collision (fun m => firstn 16 (sha256 m)) (derive_root ++ b1 ++ s1) (derive_root ++ b2 ++ s2).
Proof.
  intros L H. destruct (bytes_eq_dec (b1 ++ s1) (b2 ++ s2)) as [E|E].
  - left. apply app_inj_len in E; auto.
  - right. split; [|exact H]. intros E2. apply app_inv_head in E2. contradiction.
Qed.

Lemma tag_derive_length b s : List.length (tag_derive b s) = 16.
Proof. unfold tag_derive, tag_hash. rewrite firstn_length, sha256_length. reflexivity. Qed.

(** ** Property statements *)

Lemma varuint_shortest_observed v enc rest : (0 <= v)%Z -> read_varuint (enc ++ rest) = Ok (Z.to_N v, rest) ->
  List.length (write_varuint v) <= List.length enc /\
  (List.length enc = List.length (write_varuint v) -> enc = write_varuint v).
Proof.
  intros Hv H. apply read_varuint_iff in H. destruct H as (e & E & F & V).
  apply app_inv_tail in E. subst e. apply framed_shortest; auto.
Qed.

Lemma varuint_unique_canonical e1 e2 v : read_varuint e1 = Ok (v, []) -> read_varuint e2 = Ok (v, []) ->
  ~ varuint_padded e1 -> ~ varuint_padded e2 -> e1 = e2.
Proof.
  intros H1 H2 P1 P2. apply read_varuint_iff in H1, H2. destruct H1 as (x & -> & F1 & ->), H2 as (y & -> & F2 & E).
  rewrite !app_nil_r in *. apply framed_canonical_iff in P1; [|exact F1]. apply framed_canonical_iff in P2; [|exact F2].
  rewrite P1, P2. f_equal. f_equal. exact E.
Qed.

Lemma prim_exact s buf v : prim_deserialize s buf = Ok v ->
  exists can, prim_ser s v = Ok can /\ List.length can <= List.length buf /\ (List.length buf = List.length can -> buf = can).
Proof.
  unfold prim_deserialize. destruct (prim_de s buf) as [[v' r]|] eqn:E; cbn [bind]; [|discriminate].
  intros H; inversion H; subst. destruct (prim_de_consumes _ _ _ _ E) as (enc & can & -> & S & L & _ & U).
  exists can. rewrite app_length. repeat split; [exact S|lia|]. intros HL.
  assert (r = []) as -> by (apply length_zero_iff_nil; lia). rewrite app_nil_r in *. apply U. cbn in HL. lia.
Qed.

Lemma bits_ser_observed a b la lb : api_bits a -> api_bits b -> yields a la -> yields b lb ->
  exists ea eb, bits_ser a = Ok ea /\ bits_ser b = Ok eb /\ (la = lb -> ea = eb) /\
    (forall r1 r2, ea ++ r1 = eb ++ r2 -> la = lb).
Proof.
  intros Ha Hb Ya Yb. apply api_bits_ok in Ha, Hb. apply yields_iff in Ya, Yb; try assumption. subst.
  destruct (bits_ser_spec a Ha) as (pa & Sa & _), (bits_ser_spec b Hb) as (pb & Sb & _).
  eexists _, _. split; [exact Sa|]. split; [exact Sb|]. split.
  - intros E. pose proof (bits_ser_canonical a b Ha Hb E) as C. rewrite Sa, Sb in C. inversion C. reflexivity.
  - intros r1 r2 E. eapply bits_ser_prefix_free; eauto.
Qed.

Lemma bits_roundtrip_observed b l rest : api_bits b -> yields b l -> exists enc, bits_ser b = Ok enc /\
  ((List.length l mod 8 <> 0 \/ (l <> [] /\ skipn (List.length l - 8) l = repeat false 8)) ->
     exists r, bits_de (enc ++ rest) = Ok (r, rest) /\ yields r l /\ bits_eq r b = Ok true) /\
  (~ (List.length l mod 8 <> 0 \/ (l <> [] /\ skipn (List.length l - 8) l = repeat false 8)) ->
     bits_de (enc ++ rest) = Err (if (List.length l =? 0)%nat then IndexError else AssertionError)).
Proof.
  intros Ha Ya. apply api_bits_ok in Ha. apply yields_iff in Ya; [|assumption]. subst l.
  destruct (bits_roundtrip b rest Ha) as (enc & S & D). exists enc. split; [exact S|]. fold (bits_survive (bits_of b)).
  destruct D as [(D1 & r & D2 & D3 & D4)|[(D1 & D2 & D3)|(D1 & D2 & D3)]].
  - split; [|intros H; contradiction]. intros _. exists r. split; [exact D2|]. split; [apply yields_iff; assumption|].
    rewrite bits_eq_spec by assumption. f_equal. apply bools_eqb_eq. exact D4.
  - split; [intros H; contradiction|]. intros _. rewrite D2. exact D3.
  - split; [intros H; contradiction|]. intros _. destruct (bits_of b); [congruence|]. exact D3.
Qed.

Lemma bits_truncated_observed b enc p q : api_bits b -> bits_ser b = Ok enc -> enc = p ++ q -> q <> [] ->
  bits_de p = Err TruncationError.
Proof. intros H. apply bits_truncated, api_bits_ok, H. Qed.

(** Parameters: exactly the documented ones are accepted. *)
Lemma fixedbytes_params n : (n < 0 -> fixedbytes_new n = Err ValueError)%Z /\
  (0 <= n -> fixedbytes_new n = Ok (SFixed (Z.to_N n)))%Z.
Proof. unfold fixedbytes_new. destruct (n <? 0)%Z eqn:E; split; intros; reflexivity || lia. Qed.
