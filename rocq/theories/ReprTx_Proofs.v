(** Printed scripts and transactions, pasted back. *)
From Verif Require Import Base Tx_Model Tx_Spec Tx_Proofs Script_Model Script_Spec Script_Proofs Block_Model Hex_Model Money_Model Money_Spec Money_Proofs
  Base58_Model Base58_Spec Bits_Model PyText_Spec PyText_Proofs Repr_Model Repr_Spec PyFloat_Proofs ChainPipe_Proofs Repr_Proofs.
From Coq Require Import Lia ZifyBool ZifyNat ZifyN.
Local Open Scope Z_scope.
Local Open Scope list_scope.

(** ** Scripts *)

Definition wf_cooked (c : cooked) : Prop :=
  match c with CData d => (blen d < 2 ^ 32)%N | CInt z => 1 <= z <= 16 | COp n => (0x4e < n < 256 /\ ~ 0x51 <= n <= 0x60)%N end.

Lemma push_size_bound op s l h s2 : push_size op s = Ok (l, h, s2) -> (l < 2 ^ 32)%N.
Proof.
  unfold push_size. destruct (op <? 76)%N eqn:E; [intros H; injection H as <- <- <-; lia|].
  destruct (op =? 76)%N; [destruct s as [|b s]; intros H; [discriminate|injection H as <- <- <-; pose proof (bN_lt b); lia]|].
  destruct (op =? 77)%N.
  - destruct s as [|b [|b1 s]]; intros H; try discriminate. injection H as <- <- <-. rewrite N.shiftl_mul_pow2. pose proof (bN_lt b). pose proof (bN_lt b1).
    change (2 ^ 8)%N with 256%N. lia.
  - destruct s as [|b [|b1 [|b2 [|b3 s]]]]; intros H; try discriminate. injection H as <- <- <-. rewrite !N.shiftl_mul_pow2.
    pose proof (bN_lt b). pose proof (bN_lt b1). pose proof (bN_lt b2). pose proof (bN_lt b3).
    change (2 ^ 8)%N with 256%N. change (2 ^ 16)%N with 65536%N. change (2 ^ 24)%N with 16777216%N. lia.
Qed.

Lemma cook_op op i : (0x4e < op < 256)%N -> wf_cooked (cook (op, None, i)).
Proof.
  intros H. unfold cook, is_small_int, decode_op_n. destruct (op =? 0)%N eqn:Z; [lia|].
  destruct ((81 <=? op)%N && (op <=? 96)%N)%bool eqn:E; cbn [orb wf_cooked]; lia.
Qed.

Lemma raw_wf fuel : forall i s, Forall wf_cooked (map cook (fst (raw_iter_loop fuel i s))).
Proof.
  induction fuel as [|f IH]; intros i s; [constructor|]. destruct s as [|b s]; [constructor|]. rewrite raw_loop_S.
  pose proof (bN_lt b). destruct (78 <? bN b)%N eqn:E; [cbn [fst map]; constructor; [apply cook_op; lia|apply IH]|].
  destruct (push_size (bN b) s) as [[[l h] s2]|e] eqn:P; [|constructor]. destruct (blen s2 <? l)%N eqn:L; [constructor|].
  cbn [fst map]. constructor; [|apply IH]. cbn [cook wf_cooked]. pose proof (push_size_bound _ _ _ _ _ P).
  unfold blen in *. rewrite firstn_length. lia.
Qed.
Lemma iter_wf s ops e : script_iter s = (ops, e) -> Forall wf_cooked ops.
Proof.
  unfold script_iter, raw_iter. intros H. pose proof (raw_wf (S (List.length s)) 0 s) as W.
  destruct (raw_iter_loop (S (List.length s)) 0 s) as [l x]. injection H as <- _. exact W.
Qed.

Lemma error_iff : forall fuel i s, (List.length s < fuel)%nat -> (script_error fuel s = None <-> snd (raw_iter_loop fuel i s) = None).
Proof.
  induction fuel as [|f IH]; intros i s F; [lia|]. destruct s as [|b s]; [split; reflexivity|]. rewrite raw_loop_S. cbn [script_error]. cbn [List.length] in F.
  destruct (78 <? bN b)%N; [cbn [snd]; apply IH; lia|].
  destruct (push_size (bN b) s) as [[[l h] s2]|e] eqn:P; [|cbn [snd]; split; discriminate]. destruct (blen s2 <? l)%N; [cbn [snd]; split; discriminate|].
  cbn [snd]. apply IH. pose proof (push_size_le _ _ _ _ _ P). rewrite skipn_length. lia.
Qed.

Lemma parses_no_error s ops : has_ops s ops -> script_error (S (List.length s)) s = None.
Proof.
  intros H. apply (error_iff _ 0%nat); [lia|]. unfold has_ops, script_iter, raw_iter in H.
  destruct (raw_iter_loop (S (List.length s)) 0 s) as [l e]. injection H as _ ->. reflexivity.
Qed.

Definition item_expr (c : cooked) : expr :=
  match c with CData d => ECall (T "x") [EStr (T (b2x d))] | CInt z => num_expr z | COp n => op_expr n end.
Definition item_value (c : cooked) : value :=
  match c with CData d => VBytes d | CInt z => VInt z | COp n => VOp n end.

Ltac literal := split; [do 2 eexists; split; reflexivity|reflexivity].

Lemma item_expression c : wf_cooked c -> expression (item_repr c) (item_expr c).
Proof.
  destruct c as [d|z|n]; intros W; cbn [item_repr item_expr].
  - constructor. change (T "x('" ++ T (b2x d) ++ T "')") with (T "x" ++ T "(" ++ T "'" ++ T (b2x d) ++ T "'" ++ T ")").
    change (T "'" ++ T (b2x d) ++ T "'" ++ T ")") with ((T "'" ++ (T (b2x d) ++ T "'" ++ T ")"))).
    rewrite (app_assoc (T (b2x d)) (T "'") (T ")")). rewrite (app_assoc (T "'")). apply call_items; [literal|]. constructor. apply quoted, hex_plain.
  - constructor. apply fmt_i_atom.
  - apply op_expression. cbn in W. lia.
Qed.

Lemma evaluate_item pr c : wf_cooked c -> evaluate pr (item_expr c) = Ok (item_value c).
Proof.
  destruct c as [d|z|n]; intros W; cbn [item_expr item_value].
  - rewrite evaluate_call. cbn [mapM evaluate bind]. unfold call. cbn [T list_ascii_of_string].
    destruct (list_eq_dec _ _ _) as [_|N]; [|exfalso; apply N; reflexivity].
    change (list_ascii_of_string (b2x d)) with (T (b2x d)). rewrite T_back, x_b2x. reflexivity.
  - apply evaluate_num.
  - apply evaluate_op. cbn in W. lia.
Qed.

Lemma coerce_item c : wf_cooked c -> coerce (item_of c) = Ok (spelled c).
Proof.
  destruct c as [d|z|n]; intros W; cbn [item_of coerce spelled wf_cooked] in *.
  - unfold encode_op_pushdata, shortest_push.
    destruct (blen d <? 76)%N eqn:E1; [reflexivity|].
    destruct (blen d <=? 255)%N eqn:E2; [assert ((blen d <? 256)%N = true) as -> by lia; reflexivity|]. assert ((blen d <? 256)%N = false) as -> by lia.
    destruct (blen d <=? 65535)%N eqn:E3.
    + assert ((blen d <? 65536)%N = true) as -> by lia. destruct (pack_u_ok 2 (Z.of_N (blen d))) as [P _]; [change (2 ^ (8 * Z.of_nat 2)) with 65536; lia|].
      rewrite P, N2Z.id. reflexivity.
    + assert ((blen d <? 65536)%N = false) as -> by lia. destruct (blen d <=? 4294967295)%N eqn:E4; [|lia].
      destruct (pack_u_ok 4 (Z.of_N (blen d))) as [P _]; [change (2 ^ (8 * Z.of_nat 4)) with 4294967296; lia|].
      rewrite P, N2Z.id. reflexivity.
  - assert (((0 <=? z) && (z <=? 16))%bool = true) as -> by lia. unfold encode_op_n. assert (((0 <=? z) && (z <=? 16))%bool = true) as -> by lia. cbn [negb].
    destruct (z =? 0) eqn:E; [lia|]. cbn [bind]. replace (81 + z - 1) with (80 + z) by lia.
    rewrite pybyte_ok by lia. reflexivity.
  - rewrite pybyte_ok by lia. reflexivity.
Qed.

Lemma cscript_spelled ops : Forall wf_cooked ops -> cscript (map item_of ops) = Ok (flat_map spelled ops).
Proof.
  unfold cscript. induction 1 as [|c ops W _ IH]; [reflexivity|]. cbn [map objs_ser flat_map]. rewrite coerce_item by exact W. cbn [bind]. rewrite IH. reflexivity.
Qed.

Definition script_expr (s : bytes) : expr := ECall (T "CScript") [EList (map item_expr (fst (script_iter s)))].

Lemma script_expression s : parses s -> expression (script_repr s) (script_expr s).
Proof.
  intros [ops H]. unfold script_repr, script_expr. rewrite (parses_no_error s ops H). unfold has_ops in H. rewrite H. cbn [fst]. rewrite app_nil_r.
  apply iter_wf in H. constructor.
  assert (E : forall l, T "CScript([" ++ l ++ T "])" = T "CScript" ++ T "(" ++ (T "[" ++ l ++ T "]") ++ T ")").
  { intros l. cbn [T list_ascii_of_string app]. rewrite <- app_assoc. reflexivity. }
  rewrite E. apply call_items; [literal|]. constructor. constructor. apply list_atom. apply Forall2_map_expr.
  intros c C. apply item_expression. rewrite Forall_forall in H. apply H, C.
Qed.

Lemma evaluate_script pr s ops : has_ops s ops -> evaluate pr (script_expr s) = Ok (VScript (flat_map spelled ops)).
Proof.
  intros H. unfold script_expr. pose proof (iter_wf _ _ _ H) as W. unfold has_ops in H. rewrite H. cbn [fst]. rewrite evaluate_call.
  cbn [mapM]. rewrite evaluate_list, mapM_map. rewrite (mapM_all _ item_value) by (intros c C; apply evaluate_item; rewrite Forall_forall in W; apply W, C).
  cbn [bind]. unfold call. cbn [T list_ascii_of_string]. destruct (list_eq_dec _ _ _) as [_|N]; [|exfalso; apply N; reflexivity].
  rewrite mapM_map. rewrite (mapM_all _ item_of) by (intros c _; destruct c; reflexivity). cbn [bind]. rewrite cscript_spelled by exact W. reflexivity.
Qed.

(** ** Outpoints and inputs *)

Definition outpoint_expr (o : outpoint) : expr :=
  if outpoint_is_null o then ECall (T "COutPoint") []
  else ECall (T "COutPoint") [ECall (T "lx") [EStr (T (b2lx (o_hash o)))]; num_expr (o_n o)].

Lemma lx_expression b : expression (T "lx('" ++ T (b2lx b) ++ T "')") (ECall (T "lx") [EStr (T (b2lx b))]).
Proof.
  constructor. assert (E : forall l, T "lx('" ++ l ++ T "')" = T "lx" ++ T "(" ++ (T "'" ++ l ++ T "'") ++ T ")").
  { intros l. cbn [T list_ascii_of_string app]. rewrite <- app_assoc. reflexivity. }
  rewrite E. apply call_items; [literal|]. constructor. apply quoted, hex_plain.
Qed.
Lemma evaluate_lx pr b : evaluate pr (ECall (T "lx") [EStr (T (b2lx b))]) = Ok (VBytes b).
Proof.
  rewrite evaluate_call. cbn [mapM evaluate bind]. unfold call. cbn [T list_ascii_of_string].
  destruct (list_eq_dec _ _ _) as [N|_]; [discriminate N|]. destruct (list_eq_dec _ _ _) as [_|N]; [|exfalso; apply N; reflexivity].
  change (list_ascii_of_string (b2lx b)) with (T (b2lx b)). rewrite T_back, lx_b2lx. reflexivity.
Qed.

Lemma outpoint_expression o : expression (outpoint_repr o) (outpoint_expr o).
Proof.
  unfold outpoint_repr, outpoint_expr. constructor. destruct (outpoint_is_null o).
  - apply (call_items "COutPoint" [] []); [literal|constructor].
  - assert (E : forall l m, T "COutPoint(lx('" ++ l ++ T "'), " ++ m ++ T ")" = T "COutPoint" ++ T "(" ++ ((T "lx('" ++ l ++ T "')") ++ T ", " ++ m) ++ T ")").
    { intros l m. cbn [T list_ascii_of_string app]. rewrite <- !app_assoc. cbn [app]. rewrite <- ?app_assoc. reflexivity. }
    rewrite E. apply call_items; [literal|]. apply items2; [apply lx_expression|constructor; apply fmt_i_atom].
Qed.

Lemma evaluate_outpoint pr o : wf_outpoint o -> evaluate pr (outpoint_expr o) = Ok (VOutPoint o).
Proof.
  intros [L N]. unfold outpoint_expr. destruct (outpoint_is_null o) eqn:E.
  - unfold outpoint_is_null in E. apply andb_prop in E. destruct E as [E1 E2]. apply bytes_eqb_eq in E1. apply Z.eqb_eq in E2.
    rewrite evaluate_call. cbn [mapM bind]. unfold call. cbn [T list_ascii_of_string].
    destruct (list_eq_dec _ _ _) as [_|Q]; [|exfalso; apply Q; reflexivity]. destruct o as [h n]. cbn [o_hash o_n] in *. subst. reflexivity.
  - rewrite evaluate_call. cbn [mapM]. rewrite evaluate_lx, evaluate_num. cbn [bind]. unfold call. cbn [T list_ascii_of_string].
    destruct (list_eq_dec _ _ _) as [_|Q]; [|exfalso; apply Q; reflexivity]. unfold outpoint_new, blen. rewrite L. cbn [N.eqb N.of_nat Pos.eqb Pos.of_succ_nat Pos.succ negb].
    assert (((0 <=? o_n o) && (o_n o <=? 4294967295))%bool = true) as -> by lia. cbn [negb bind]. destruct o; reflexivity.
Qed.

Definition txin_expr (i : txin) : expr :=
  ECall (T "CTxIn") [outpoint_expr (i_prevout i); script_expr (i_scriptSig i); ENum (i_nSequence i)].

Lemma txin_expression i : wf_txin i -> parses (i_scriptSig i) -> expression (txin_repr i) (txin_expr i).
Proof.
  intros (_ & _ & Q) P. unfold txin_repr, txin_expr. constructor.
  assert (E : forall a b c, T "CTxIn(" ++ a ++ T ", " ++ b ++ T ", 0x" ++ c ++ T ")" = T "CTxIn" ++ T "(" ++ (a ++ T ", " ++ b ++ T ", " ++ (T "0x" ++ c)) ++ T ")").
  { intros a b c. cbn [T list_ascii_of_string app]. rewrite <- !app_assoc. cbn [app]. rewrite <- ?app_assoc. reflexivity. }
  rewrite E. apply call_items; [literal|]. apply items_more; [apply outpoint_expression|]. apply items2; [apply script_expression, P|].
  constructor. apply fmt_x_atom. lia.
Qed.

Lemma evaluate_txin pr i ops : wf_txin i -> has_ops (i_scriptSig i) ops ->
  evaluate pr (txin_expr i) = Ok (VTxIn (mkTxIn (i_prevout i) (flat_map spelled ops) (i_nSequence i))).
Proof.
  intros (O & _ & Q) P. unfold txin_expr. rewrite evaluate_call. cbn [mapM]. rewrite evaluate_outpoint by exact O. rewrite (evaluate_script pr _ ops P).
  cbn [evaluate bind]. unfold call. cbn [T list_ascii_of_string]. destruct (list_eq_dec _ _ _) as [_|N]; [|exfalso; apply N; reflexivity].
  unfold txin_new. assert (((0 <=? i_nSequence i) && (i_nSequence i <=? 4294967295))%bool = true) as -> by lia. reflexivity.
Qed.

(** ** Amounts and outputs *)

(** An amount in coins: its digits, with the decimal point after all but [k] of them. *)
Definition amount_expr (v : Z) : expr -> Prop := fun e =>
  exists m k, e = EMul (EDec m k) (EName (T "COIN")) /\ (k <= 8)%nat /\ v = m * 10 ^ (8 - Z.of_nat k).

Lemma amount_expression v : 0 <= v -> exists s e, str_money_value v = Ok s /\ expression (s ++ T "*COIN") e /\ amount_expr v e.
Proof.
  intros V. destruct (money_shape v) as (fp & E & _ & C). destruct (fmt_i_spec (v / 10 ^ 8)) as (N & NE & _ & _); [lia|].
  assert (F : exists b, number fp b /\ (List.length fp <= 8)%nat /\ v mod 10 ^ 8 = b * 10 ^ (8 - Z.of_nat (List.length fp))).
  { destruct C as [[-> Z]|(_ & _ & L & b & B & EV)]; [|exists b; auto]. exists 0. split; [|split; [cbn; lia|lia]].
    apply (number_snoc [] "0"%char 0 0); [constructor|reflexivity]. }
  destruct F as (b & B & L & EV). pose proof (number_append _ _ _ _ N B) as NB.
  apply number_value in NB, B, N. destruct NB as [VNB _], B as [_ DB], N as [_ DN].
  exists (fmt_i (v / 10 ^ 8) ++ "."%char :: fp), (EMul (EDec (value_of 10 (fmt_i (v / 10 ^ 8) ++ fp)) (List.length fp)) (EName (T "COIN"))).
  split; [exact E|]. split.
  - apply (expr_mul _ _ (T "COIN")); [apply atom_dec; assumption|apply atom_name; literal].
  - do 2 eexists. split; [reflexivity|]. split; [exact L|]. rewrite VNB.
    rewrite Z.mul_add_distr_r, <- EV, <- Z.mul_assoc, <- Z.pow_add_r by lia. replace (Z.of_nat (List.length fp) + (8 - Z.of_nat (List.length fp))) with 8 by lia.
    pose proof (Z.div_mod v (10 ^ 8) ltac:(lia)). lia.
Qed.

Lemma evaluate_amount pr v e : 0 <= v -> amount_expr v e -> exists x, evaluate pr e = Ok (VFloat x) /\ to_int x = in_floats v.
Proof.
  intros V (m & k & -> & K & E). exists (double_mul (nearest m (10 ^ Z.of_nat k)) (of_int 100000000)). split; [reflexivity|].
  destruct (Z.eq_dec m 0) as [->|N].
  - assert (v = 0) as -> by lia. change (in_floats 0) with 0.
    assert (H : forall k, (k <= 8)%nat -> to_int (double_mul (nearest 0 (10 ^ Z.of_nat k)) (of_int 100000000)) = 0).
    { intros j J. do 9 (destruct j as [|j]; [vm_compute; reflexivity|]). lia. }
    apply H. exact K.
  - unfold in_floats. do 2 f_equal.
    assert (P : 0 < 10 ^ (8 - Z.of_nat k)) by (apply Z.pow_pos_nonneg; lia).
    replace (10 ^ 8) with (10 ^ (8 - Z.of_nat k) * 10 ^ Z.of_nat k) by (rewrite <- Z.pow_add_r by lia; f_equal; lia).
    rewrite E, (Z.mul_comm m). symmetry. apply nearest_common; [exact P|nia|apply Z.pow_pos_nonneg; lia].
Qed.

Lemma txout_expression o : parses (o_scriptPubKey o) -> exists s e, txout_repr o = Ok s /\ expression s e /\
  forall pr ops, has_ops (o_scriptPubKey o) ops -> evaluate pr e = Ok (VTxOut (mkTxOut (pasted_amount (o_nValue o)) (flat_map spelled ops))).
Proof.
  intros P. unfold txout_repr, pasted_amount. destruct (0 <=? o_nValue o) eqn:S.
  - destruct (amount_expression (o_nValue o) ltac:(lia)) as (s & e & -> & X & A). cbn [bind].
    exists (T "CTxOut(" ++ s ++ T "*COIN, " ++ script_repr (o_scriptPubKey o) ++ T ")"), (ECall (T "CTxOut") [e; script_expr (o_scriptPubKey o)]).
    split; [reflexivity|]. split.
    + constructor. assert (E : forall a b, T "CTxOut(" ++ a ++ T "*COIN, " ++ b ++ T ")" = T "CTxOut" ++ T "(" ++ ((a ++ T "*COIN") ++ T ", " ++ b) ++ T ")").
      { intros a b. cbn [T list_ascii_of_string app]. rewrite <- !app_assoc. cbn [app]. reflexivity. }
      rewrite E. apply call_items; [literal|]. apply items2; [exact X|apply script_expression, P].
    + intros pr ops O. rewrite evaluate_call. cbn [mapM]. destruct (evaluate_amount pr (o_nValue o) e ltac:(lia) A) as (x & -> & V). rewrite (evaluate_script pr _ ops O).
      cbn [bind]. unfold call. cbn [T list_ascii_of_string]. destruct (list_eq_dec _ _ _) as [_|N]; [|exfalso; apply N; reflexivity].
      cbn [as_amount bind]. rewrite V. destruct (o_nValue o <? 0) eqn:G; [lia|reflexivity].
  - eexists. exists (ECall (T "CTxOut") [num_expr (o_nValue o); script_expr (o_scriptPubKey o)]). split; [reflexivity|]. split.
    + constructor. assert (E : forall a b, T "CTxOut(" ++ a ++ T ", " ++ b ++ T ")" = T "CTxOut" ++ T "(" ++ (a ++ T ", " ++ b) ++ T ")").
      { intros a b. cbn [T list_ascii_of_string app]. rewrite <- !app_assoc. cbn [app]. reflexivity. }
      rewrite E. apply call_items; [literal|]. apply items2; [constructor; apply fmt_i_atom|apply script_expression, P].
    + intros pr ops O. rewrite evaluate_call. cbn [mapM]. rewrite evaluate_num, (evaluate_script pr _ ops O).
      cbn [bind]. unfold call. cbn [T list_ascii_of_string]. destruct (list_eq_dec _ _ _) as [_|N]; [|exfalso; apply N; reflexivity].
      cbn [as_amount bind]. destruct (o_nValue o <? 0) eqn:G; [reflexivity|lia].
Qed.

(** ** Transactions *)

Lemma inputs_pasted pr l : Forall wf_txin l -> Forall (fun i => parses (i_scriptSig i)) l ->
  Forall2 expression (map txin_repr l) (map txin_expr l) /\
  exists l', mapM (evaluate pr) (map txin_expr l) = Ok (map VTxIn l') /\ Forall2 pasted_txin l l'.
Proof.
  intros W P. induction W as [|i l Wi W IH]; [split; [constructor|exists []; split; [reflexivity|constructor]]|].
  inversion P as [|x y Pi P']; subst. destruct (IH P') as (A & l' & B & C). destruct Pi as [ops O]. cbn [map]. split.
  - constructor; [apply txin_expression; [exact Wi|exists ops; exact O]|exact A].
  - exists (mkTxIn (i_prevout i) (flat_map spelled ops) (i_nSequence i) :: l'). cbn [mapM map]. rewrite (evaluate_txin pr i ops Wi O). cbn [bind]. rewrite B. cbn [bind]. split; [reflexivity|].
    constructor; [|exact C]. split; [reflexivity|]. split; [reflexivity|]. exists ops. split; [exact O|reflexivity].
Qed.

Lemma outputs_pasted pr l : Forall (fun o => parses (o_scriptPubKey o)) l -> exists ss es l',
  mapM txout_repr l = Ok ss /\ Forall2 expression ss es /\ mapM (evaluate pr) es = Ok (map VTxOut l') /\ Forall2 pasted_txout l l'.
Proof.
  induction 1 as [|o l P _ (ss & es & l' & A & B & C & D)]; [exists [], [], []; repeat split; constructor|].
  destruct (txout_expression o P) as (s & e & E & X & V). destruct P as [ops O].
  exists (s :: ss), (e :: es), (mkTxOut (pasted_amount (o_nValue o)) (flat_map spelled ops) :: l'). cbn [mapM map]. rewrite E. cbn [bind]. rewrite A. cbn [bind].
  split; [reflexivity|]. split; [constructor; assumption|]. rewrite (V pr ops O). cbn [bind]. rewrite C. cbn [bind]. split; [reflexivity|].
  constructor; [|exact D]. split; [reflexivity|]. exists ops. split; [exact O|reflexivity].
Qed.

Lemma tx_pasted pr c t : wf_tx t -> Forall parses (scripts t) ->
  exists s t', tx_repr c t = Ok s /\ python pr s = Some (Ok (VTx t')) /\ pasted_tx t t'.
Proof.
  intros (WI & WO & _ & _ & WL & WV) P. unfold scripts in P. apply Forall_app in P. destruct P as [PI PO]. rewrite Forall_map in PI, PO.
  destruct (inputs_pasted pr (t_vin t) WI PI) as (A & vin & B & C). destruct (outputs_pasted pr (t_vout t) PO) as (ss & es & vout & D & E & F & G).
  unfold tx_repr. rewrite D. cbn [bind].
  set (many := match c with Imm => tuple_repr | Mut => list_repr end). set (emany := match c with Imm => ETuple | Mut => EList end).
  set (vmany := match c with Imm => VTuple | Mut => VList end).
  assert (M : forall l xs, Forall2 expression l xs -> atom (many l) (emany xs)) by (intros l xs H; unfold many, emany; destruct c; [apply tuple_atom|apply list_atom]; exact H).
  assert (N : forall xs vs, mapM (evaluate pr) xs = Ok vs -> evaluate pr (emany xs) = Ok (vmany vs)).
  { intros xs vs H. unfold emany, vmany. destruct c; [rewrite evaluate_tuple|rewrite evaluate_list]; rewrite H; reflexivity. }
  eexists. exists (mkTx vin vout (t_nLockTime t) (t_nVersion t)). split; [reflexivity|]. split.
  - unfold python. rewrite (read_expression _ (ECall (T "CTransaction") [emany (map txin_expr (t_vin t)); emany es; num_expr (t_nLockTime t); num_expr (t_nVersion t)])).
    + f_equal. rewrite evaluate_call. cbn [mapM]. rewrite (N _ _ B), (N _ _ F), !evaluate_num. cbn [bind]. unfold vmany, call.
      assert (I : mapM as_txin (map VTxIn vin) = Ok vin) by (rewrite mapM_map, (mapM_all _ (fun x => x)) by reflexivity; rewrite map_id; reflexivity).
      assert (O : mapM as_txout (map VTxOut vout) = Ok vout) by (rewrite mapM_map, (mapM_all _ (fun x => x)) by reflexivity; rewrite map_id; reflexivity).
      cbn [T list_ascii_of_string]. destruct c; (destruct (list_eq_dec _ _ _) as [_|Q]; [|exfalso; apply Q; reflexivity]); rewrite I; cbn [bind]; rewrite O; cbn [bind]; unfold tx_new;
        assert (((0 <=? t_nLockTime t) && (t_nLockTime t <=? 4294967295))%bool = true) as -> by lia; reflexivity.
    + constructor. assert (Q : forall a b x y, T "CTransaction(" ++ a ++ T ", " ++ b ++ T ", " ++ x ++ T ", " ++ y ++ T ")" = T "CTransaction" ++ T "(" ++ (a ++ T ", " ++ b ++ T ", " ++ x ++ T ", " ++ y) ++ T ")").
      { intros a b x y. cbn [T list_ascii_of_string app]. rewrite <- !app_assoc. cbn [app]. rewrite <- !app_assoc. cbn [app]. rewrite <- ?app_assoc. reflexivity. }
      rewrite Q. apply call_items; [literal|]. apply items_more; [constructor; apply M, A|]. apply items_more; [constructor; apply M, E|].
      apply items2; constructor; apply fmt_i_atom.
  - repeat split; assumption.
Qed.
