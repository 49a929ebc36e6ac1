(** Printed forms are Python expressions, and what these evaluate to. *)
From Verif Require Import Base Tx_Model Tx_Spec Tx_Proofs Script_Model Script_Spec Script_Proofs Block_Model Hex_Model Money_Model Money_Spec Money_Proofs
  Base58_Model Base58_Spec Bits_Model PyText_Spec PyText_Proofs Repr_Model Repr_Spec PyFloat_Proofs ChainPipe_Proofs.
From Coq Require Import Lia ZifyBool ZifyNat ZifyN.
Local Open Scope Z_scope.
Local Open Scope list_scope.

(** ** Evaluation *)

Lemma evaluate_all pr l : (fix all (l : list expr) : result (list value) :=
    match l with [] => Ok [] | e :: l => do v <- evaluate pr e; do r <- all l; Ok (v :: r) end) l = mapM (evaluate pr) l.
Proof. induction l as [|e l IH]; [reflexivity|]. cbn [mapM]. rewrite <- IH. reflexivity. Qed.
Lemma evaluate_call pr f l : evaluate pr (ECall f l) = do vs <- mapM (evaluate pr) l; call pr f vs.
Proof. rewrite <- evaluate_all. reflexivity. Qed.
Lemma evaluate_list pr l : evaluate pr (EList l) = do vs <- mapM (evaluate pr) l; Ok (VList vs).
Proof. rewrite <- evaluate_all. reflexivity. Qed.
Lemma evaluate_tuple pr l : evaluate pr (ETuple l) = do vs <- mapM (evaluate pr) l; Ok (VTuple vs).
Proof. rewrite <- evaluate_all. reflexivity. Qed.

Lemma mapM_all {A B} (f : A -> result B) (g : A -> B) l : (forall a, In a l -> f a = Ok (g a)) -> mapM f l = Ok (map g l).
Proof.
  induction l as [|a l IH]; intros H; [reflexivity|]. cbn [mapM map]. rewrite (H a) by (left; reflexivity). cbn [bind].
  rewrite IH by (intros x X; apply H; right; exact X). reflexivity.
Qed.
Lemma mapM_map {A B C} (f : B -> result C) (g : A -> B) l : mapM f (map g l) = mapM (fun a => f (g a)) l.
Proof. induction l as [|a l IH]; [reflexivity|]. cbn [map mapM]. rewrite IH. reflexivity. Qed.

(** ** Numbers *)

Lemma digit_value_hex c d : digit_value c = Some d -> is_digit c = true /\ hex_digit c = Some (Z.to_N d) /\ 0 <= d.
Proof.
  unfold digit_value, is_digit, hex_digit. cbv zeta. destruct ((48 <=? Z.of_N (N_of_ascii c)) && (Z.of_N (N_of_ascii c) <=? 57))%bool eqn:E; [|discriminate].
  intros H. injection H as <-. split; [lia|]. destruct ((48 <=? N_of_ascii c)%N && (N_of_ascii c <=? 57)%N)%bool eqn:F; [|lia]. split; [f_equal; lia|lia].
Qed.

Lemma value_snoc b l c : value_of b (l ++ [c]) = b * value_of b l + Z.of_N (match hex_digit c with Some d => d | None => 0%N end).
Proof. unfold value_of. rewrite fold_left_app. reflexivity. Qed.

Lemma number_value l v : number l v -> value_of 10 l = v /\ forallb is_digit l = true.
Proof.
  induction 1 as [|l c v d H [IH F] D]; [split; reflexivity|]. destruct (digit_value_hex c d D) as (A & B & C).
  rewrite value_snoc, B, IH. split; [lia|]. rewrite forallb_app, F. cbn [forallb]. rewrite A. reflexivity.
Qed.

Lemma number_append a b v w : number a v -> number b w -> number (a ++ b) (v * 10 ^ Z.of_nat (List.length b) + w).
Proof.
  intros A B. induction B as [|l c w d B IH D]; cbn [List.length].
  - rewrite app_nil_r. replace (v * 10 ^ Z.of_nat 0 + 0) with v by (change (10 ^ Z.of_nat 0) with 1; lia). exact A.
  - rewrite app_assoc, app_length. cbn [List.length]. replace (Z.of_nat (List.length l + 1)) with (Z.of_nat (List.length l) + 1) by lia.
    rewrite Z.pow_add_r by lia. replace (v * (10 ^ Z.of_nat (List.length l) * 10 ^ 1) + (10 * w + d)) with (10 * (v * 10 ^ Z.of_nat (List.length l) + w) + d) by (change (10 ^ 1) with 10; ring).
    constructor; assumption.
Qed.

Definition num_expr (z : Z) : expr := if z <? 0 then ENeg (ENum (- z)) else ENum z.

Lemma fmt_i_nonneg z : 0 <= z -> atom (fmt_i z) (ENum z).
Proof.
  intros H. destruct (fmt_i_spec z H) as (N & NE & LZ & _). apply number_value in N. destruct N as [V D].
  rewrite <- V at 2. apply atom_num; [exact NE|exact D|]. unfold leading_zero. destruct (fmt_i z) as [|c [|c' r]]; try reflexivity.
  destruct (Ascii.eqb_spec c "0"); [|reflexivity]. subst. specialize (LZ _ eq_refl). discriminate.
Qed.
Lemma fmt_i_atom z : atom (fmt_i z) (num_expr z).
Proof.
  unfold num_expr. destruct (z <? 0) eqn:E; [|apply fmt_i_nonneg; lia].
  assert (fmt_i z = "-"%char :: fmt_i (- z)) as ->.
  { unfold fmt_i. rewrite E. destruct (- z <? 0) eqn:F; [lia|]. replace (Z.abs_N (- z)) with (Z.abs_N z) by lia. reflexivity. }
  apply atom_neg, fmt_i_nonneg. lia.
Qed.
Lemma evaluate_num pr z : evaluate pr (num_expr z) = Ok (VInt z).
Proof. unfold num_expr. destruct (z <? 0); cbn [evaluate bind]; [|reflexivity]. f_equal. f_equal. lia. Qed.

Lemma hexdigit_hex d : (d < 16)%N -> hex_digit (hexdigit d) = Some d.
Proof.
  intros H. assert (forallb (fun n => match hex_digit (hexdigit n) with Some m => (m =? n)%N | None => false end) (map N.of_nat (seq 0 16)) = true) as S by (vm_compute; reflexivity).
  rewrite forallb_forall in S. specialize (S d). destruct (hex_digit (hexdigit d)) as [m|].
  - f_equal. apply N.eqb_eq, S. apply in_map_iff. exists (N.to_nat d). split; [lia|]. apply in_seq. lia.
  - discriminate S. apply in_map_iff. exists (N.to_nat d). split; [lia|]. apply in_seq. lia.
Qed.

Lemma hexdigits_spec : forall fuel n, (n < 16 ^ N.of_nat fuel)%N ->
  value_of 16 (hexdigits fuel n) = Z.of_N n /\ forallb is_hex (hexdigits fuel n) = true /\ ((0 < fuel)%nat -> hexdigits fuel n <> []).
Proof.
  induction fuel as [|f IH]; intros n H; cbn [hexdigits].
  - assert (n = 0)%N as -> by (cbn in H; lia). repeat split. lia.
  - destruct (n <? 16)%N eqn:E.
    + unfold value_of, is_hex. cbn [fold_left forallb]. rewrite hexdigit_hex by lia. split; [lia|]. split; [reflexivity|]. discriminate.
    + destruct (IH (n / 16)%N) as (A & B & _).
      { rewrite Nat2N.inj_succ, N.pow_succ_r' in H. apply N.div_lt_upper_bound; lia. }
      rewrite value_snoc, A, hexdigit_hex by (apply N.mod_lt; lia). split; [|split; [|intros _ Q; apply app_eq_nil in Q; destruct Q; discriminate]].
      * pose proof (N.div_mod n 16 ltac:(lia)). lia.
      * rewrite forallb_app, B. unfold is_hex. cbn [forallb]. rewrite hexdigit_hex by (apply N.mod_lt; lia). reflexivity.
Qed.

Lemma fmt_x_spec z : 0 <= z -> value_of 16 (fmt_x z) = z /\ forallb is_hex (fmt_x z) = true /\ fmt_x z <> [].
Proof.
  intros H. unfold fmt_x. destruct (z <? 0) eqn:E; [lia|]. destruct (hexdigits_spec (S (N.to_nat (N.size (Z.abs_N z)))) (Z.abs_N z)) as (A & B & C).
  - eapply N.lt_le_trans; [apply N.size_gt|]. rewrite Nat2N.inj_succ, N2Nat.id.
    transitivity (2 ^ N.succ (N.size (Z.abs_N z)))%N; [apply N.pow_le_mono_r; lia|apply N.pow_le_mono_l; lia].
  - split; [lia|]. split; [exact B|]. apply C. lia.
Qed.
Lemma fmt_x_atom z : 0 <= z -> atom (T "0x" ++ fmt_x z) (ENum z).
Proof. intros H. destruct (fmt_x_spec z H) as (A & B & C). rewrite <- A at 2. apply (atom_hex (fmt_x z)); assumption. Qed.

(** ** Joined items *)

Lemma join_items sep k l es : sep = ","%char :: repeat " "%char k -> Forall2 expression l es -> items (join sep l) es.
Proof.
  intros -> H. induction H as [|s e l es A B IH]; [constructor|]. destruct B as [|s' e' l es A' B].
  - cbn [join]. constructor. exact A.
  - change (join (","%char :: repeat " "%char k) (s :: s' :: l)) with (s ++ (","%char :: repeat " "%char k) ++ join (","%char :: repeat " "%char k) (s' :: l)).
    cbn [app]. constructor; assumption.
Qed.
Lemma join_comma l es : Forall2 expression l es -> items (join (T ", ") l) es.
Proof. apply (join_items _ 1). reflexivity. Qed.

Lemma Forall2_map_expr {A} (p : A -> text) (e : A -> expr) l : (forall a, In a l -> expression (p a) (e a)) -> Forall2 expression (map p l) (map e l).
Proof. induction l as [|a l IH]; intros H; cbn [map]; constructor; [apply H; left; reflexivity|apply IH; intros x X; apply H; right; exact X]. Qed.

Lemma tuple_atom l es : Forall2 expression l es -> atom (tuple_repr l) (ETuple es).
Proof.
  intros H. unfold tuple_repr. destruct H as [|s e l es A B].
  - apply (atom_tuple [] []); [constructor|discriminate].
  - destruct B as [|s' e' l es A' B].
    + apply (atom_one s e A).
    + apply (atom_tuple (join (T ", ") (s :: s' :: l)) (e :: e' :: es)); [|discriminate]. apply join_comma. constructor; [exact A|constructor; assumption].
Qed.
Lemma list_atom l es : Forall2 expression l es -> atom (list_repr l) (EList es).
Proof. intros H. apply (atom_list (join (T ", ") l) es). apply join_comma, H. Qed.

(** A call with its arguments printed one by one. *)
Lemma call_items f s l : letters (T f) -> items s l -> atom (T f ++ T "(" ++ s ++ T ")") (ECall (T f) l).
Proof. intros L I. apply (atom_call (T f) s l L I). Qed.
Lemma items2 a ea b eb : expression a ea -> expression b eb -> items (a ++ T ", " ++ b) [ea; eb].
Proof. intros A B. apply (items_cons a ea 1 b eb []); [exact A|constructor; exact B]. Qed.
Lemma items_more a ea b e l : expression a ea -> items b (e :: l) -> items (a ++ T ", " ++ b) (ea :: e :: l).
Proof. intros A B. apply (items_cons a ea 1 b e l); assumption. Qed.

(** ** Hexadecimal texts *)

Lemma hex_plain b : plain (T (to_hex b)).
Proof.
  unfold plain, T. induction b as [|y b IH]; [reflexivity|]. cbn [to_hex list_ascii_of_string forallb]. rewrite IH.
  assert (H : forall d, (d < 16)%N -> negb (Ascii.eqb (hexdigit d) "'" || Ascii.eqb (hexdigit d) "\") = true).
  { intros d D. pose proof (hexdigit_hex d D) as X. destruct (Ascii.eqb_spec (hexdigit d) "'") as [E|_]; [rewrite E in X; discriminate|].
    destruct (Ascii.eqb_spec (hexdigit d) "\") as [E|_]; [rewrite E in X; discriminate|]. reflexivity. }
  pose proof (bN_lt y). rewrite !H; [reflexivity|apply N.mod_lt; lia|apply N.div_lt_upper_bound; lia].
Qed.

Lemma T_back s : string_of_list_ascii (T s) = s.
Proof. apply string_of_list_ascii_of_string. Qed.

Lemma quoted t : plain t -> expression (T "'" ++ t ++ T "'") (EStr t).
Proof. intros P. constructor. apply (atom_str t P). Qed.

(** ** Opcodes *)

Definition op_expr (n : N) : expr :=
  match op_name n with Some s => EName (T s) | None => ECall (T "CScriptOp") [ENum (Z.of_N n)] end.

Definition op_check (n : N) : bool :=
  match op_name n with
  | Some s =>
    (match T s with c :: _ => is_letter c | [] => false end && forallb is_ident (T s) &&
     match name (T s) with Ok (VOp m) => (m =? n)%N | _ => false end)%bool
  | None => true
  end.
Lemma op_checked n : (n < 256)%N -> op_check n = true.
Proof.
  intros H. assert (forallb op_check (map N.of_nat (seq 0 256)) = true) as S by (vm_compute; reflexivity).
  rewrite forallb_forall in S. apply S. apply in_map_iff. exists (N.to_nat n). split; [lia|]. apply in_seq. lia.
Qed.

Lemma op_expression n : (n < 256)%N -> expression (op_repr n) (op_expr n).
Proof.
  intros H. pose proof (op_checked n H) as C. unfold op_check, op_repr, op_expr in *. constructor. destruct (op_name n) as [s|].
  - apply andb_prop in C. destruct C as [C _]. apply andb_prop in C. destruct C as [C1 C2]. apply atom_name. split; [|exact C2].
    destruct (T s) as [|c r]; [discriminate|]. exists c, r. auto.
  - change (T "CScriptOp(0x" ++ fmt_x (Z.of_N n) ++ T ")") with (T "CScriptOp" ++ T "(" ++ (T "0x" ++ fmt_x (Z.of_N n)) ++ T ")").
    apply call_items; [split; [do 2 eexists; split; reflexivity|reflexivity]|]. constructor. constructor. apply fmt_x_atom. lia.
Qed.

Lemma evaluate_op pr n : (n < 256)%N -> evaluate pr (op_expr n) = Ok (VOp n).
Proof.
  intros H. pose proof (op_checked n H) as C. unfold op_check, op_expr in *. destruct (op_name n) as [s|].
  - apply andb_prop in C. destruct C as [_ C]. cbn [evaluate]. destruct (name (T s)) as [v|e]; [|discriminate]. destruct v; try discriminate.
    apply N.eqb_eq in C. congruence.
  - rewrite evaluate_call. cbn [mapM evaluate bind]. unfold call. cbn [T list_ascii_of_string].
    destruct (list_eq_dec _ _ _) as [_|N]; [|exfalso; apply N; reflexivity]. destruct (0 <=? Z.of_N n) eqn:A; [|lia]. destruct (Z.of_N n <=? 255) eqn:B; [|lia].
    cbn [andb]. rewrite N2Z.id. reflexivity.
Qed.
