(** The operations that only change the stack: ScriptEval_Model.stack_op is ScriptEval_Spec.effect. *)
From Verif Require Import Base Sha256 Sha1 Ripemd160 Tx_Model Script_Model Script_Spec Script_Proofs
  SigHash_Model ScriptEval_Model ScriptEval_Spec ScriptEval_Proofs.
From Coq Require Import ZifyBool ZifyNat ZifyN.

Definition smalls (st : list bytes) : Prop := (Z.of_nat (List.length st) < 2 ^ 32)%Z /\ Forall (fun a => (blen a < 2 ^ 32)%N) st.

Lemma bytes_eqb_refl a : bytes_eqb a a = true.
Proof. apply bytes_eqb_eq. reflexivity. Qed.

Lemma verdict_bool (b : bool) (P : Prop) v : (b = true <-> P) -> verdict P v <-> v = of_bool b.
Proof.
  intros H. unfold verdict, of_bool. destruct b.
  - split; [intros [[_ E]|[E _]]; [exact E|exfalso; apply E, H; reflexivity]|intros ->; left; split; [apply H; reflexivity|reflexivity]].
  - split; [intros [[E _]|[_ E]]; [apply H in E; discriminate|exact E]|intros ->; right; split; [intros E; apply H in E; discriminate|reflexivity]].
Qed.

Lemma unary_range op f x : In (op, f) unary -> (Z.abs x < 2 ^ 31)%Z -> (Z.abs (f x) < 2 ^ 40)%Z.
Proof.
  intros H B. cbn [unary In] in H. unfold b2z in H.
  repeat (destruct H as [H|H]; [inversion H; subst; try lia; match goal with |- context[if ?c then _ else _] => destruct c end; cbn; lia|]). contradiction.
Qed.

Lemma binary_range op f x y : In (op, f) binary -> (Z.abs x < 2 ^ 31)%Z -> (Z.abs y < 2 ^ 31)%Z -> (Z.abs (f x y) < 2 ^ 40)%Z.
Proof.
  intros H B1 B2. cbn [binary In] in H. unfold b2z in H.
  repeat (destruct H as [H|H]; [inversion H; subst; try lia; match goal with |- context[if ?c then _ else _] => destruct c end; cbn; lia|]). contradiction.
Qed.

Lemma number_unary op f x b : In (op, f) unary -> (Z.abs x < 2 ^ 31)%Z -> number (f x) b <-> bn2vch (f x) = Ok b.
Proof. intros H B. apply number_iff, small_log. eapply unary_range; eauto. Qed.

Lemma number_binary op f x y b : In (op, f) binary -> (Z.abs x < 2 ^ 31)%Z -> (Z.abs y < 2 ^ 31)%Z -> number (f x y) b <-> bn2vch (f x y) = Ok b.
Proof. intros H B1 B2. apply number_iff, small_log. eapply binary_range; eauto. Qed.

Lemma UnaryOp_table op f x a r : In (op, f) unary -> operand a x ->
  UnaryOp op (a :: r) = do b <- bn2vch (f x); Ok (b :: r).
Proof.
  intros H O. unfold UnaryOp. cbn [check_args List.length Nat.ltb Nat.leb bind sget nth_error Nat.sub].
  apply CastToBigNum_iff in O. rewrite O. cbn [bind spop].
  cbn [unary In] in H. repeat (destruct H as [H|H]; [inversion H; subst; clear H; cbn [N.eqb Pos.eqb bind]; try reflexivity|]); [|contradiction].
  destruct (x <? 0)%Z eqn:E; [replace (Z.abs x) with (- x)%Z by lia; reflexivity|replace (Z.abs x) with x by lia; reflexivity].
Qed.

Lemma BinOp_table op f x y a1 a2 r : In (op, f) binary -> operand a1 x -> operand a2 y ->
  BinOp op (a2 :: a1 :: r) = do b <- bn2vch (f x y); Ok (b :: r).
Proof.
  intros H O1 O2. unfold BinOp. cbn [check_args List.length Nat.ltb Nat.leb bind sget nth_error Nat.sub].
  apply CastToBigNum_iff in O1, O2. rewrite O2. cbn [bind]. rewrite O1. cbn [bind spop].
  cbn [binary In] in H. repeat (destruct H as [H|H]; [inversion H; subst; clear H; cbn [N.eqb Pos.eqb bind]; try reflexivity|]); [| |contradiction].
  - destruct (x <? y)%Z eqn:E; [replace (Z.min x y) with x by lia; reflexivity|replace (Z.min x y) with y by lia; reflexivity].
  - destruct (y <? x)%Z eqn:E; [replace (Z.max x y) with x by lia; reflexivity|replace (Z.max x y) with y by lia; reflexivity].
Qed.

Lemma sdel_mid l x r : sdel_at (List.length l) (l ++ x :: r) = Ok (l ++ r).
Proof. induction l as [|y l IH]; cbn [List.length app sdel_at]; [reflexivity|]. rewrite IH. reflexivity. Qed.

Lemma sdel_inv i st st' : sdel_at i st = Ok st' -> exists l x r, st = l ++ x :: r /\ st' = l ++ r /\ i = List.length l.
Proof.
  revert st st'. induction i as [|i IH]; intros [|y st] st' H; try discriminate.
  - inversion H; subst. exists [], y, st'. auto.
  - cbn [sdel_at] in H. destruct (sdel_at i st) as [r0|] eqn:E; [|discriminate]. destruct (IH _ _ E) as (l & x & r & -> & -> & ->).
    inversion H; subst. exists (y :: l), x, r. auto.
Qed.

Lemma check_args_1 a st : check_args 1 (a :: st) = Ok tt.
Proof. reflexivity. Qed.

Lemma pick_eq a l x r : stack_op 121 (a :: l ++ x :: r) =
  Some (do n <- CastToBigNum a; if ((n <? 0) || (Z.of_nat (List.length (l ++ x :: r)) <=? n))%Z then Err EvalScriptError
        else do vch <- sget (Z.to_nat n + 1) (l ++ x :: r); Ok (vch :: l ++ x :: r)).
Proof.
  change (stack_op 121 (a :: l ++ x :: r)) with (Some (do _ <- check_args 2 (a :: l ++ x :: r);
    do n <- CastToBigNum a; if ((n <? 0) || (Z.of_nat (List.length (l ++ x :: r)) <=? n))%Z then Err EvalScriptError
        else do vch <- sget (Z.to_nat n + 1) (l ++ x :: r); Ok (vch :: l ++ x :: r))).
  unfold check_args. cbn [List.length]. rewrite app_length. cbn [List.length].
  destruct (_ <? 2) eqn:E; [lia|]. reflexivity.
Qed.

Lemma roll_eq a l x r : stack_op 122 (a :: l ++ x :: r) =
  Some (do n <- CastToBigNum a; if ((n <? 0) || (Z.of_nat (List.length (l ++ x :: r)) <=? n))%Z then Err EvalScriptError
        else do vch <- sget (Z.to_nat n + 1) (l ++ x :: r); do st <- sdel (Z.to_nat n + 1) (l ++ x :: r); Ok (vch :: st)).
Proof.
  change (stack_op 122 (a :: l ++ x :: r)) with (Some (do _ <- check_args 2 (a :: l ++ x :: r);
    do n <- CastToBigNum a; if ((n <? 0) || (Z.of_nat (List.length (l ++ x :: r)) <=? n))%Z then Err EvalScriptError
        else do vch <- sget (Z.to_nat n + 1) (l ++ x :: r); do st <- sdel (Z.to_nat n + 1) (l ++ x :: r); Ok (vch :: st))).
  unfold check_args. cbn [List.length]. rewrite app_length. cbn [List.length].
  destruct (_ <? 2) eqn:E; [lia|]. reflexivity.
Qed.

Lemma effect_stack_op op st st' : smalls st -> effect op st st' -> stack_op op st = Some (Ok st').
Proof.
  intros [SL SF] H. destruct H.
  - unfold constant in H. unfold stack_op. assert (((op =? 79)%N || (81 <=? op)%N && (op <=? 96)%N)%bool = true /\ z = (Z.of_N op - 80)%Z /\ (op <= 96)%N) as (C & -> & U).
    { destruct (op =? 79)%N eqn:E; [inversion H; lia|]. destruct (_ && _)%bool eqn:E2; [inversion H; lia|discriminate]. }
    rewrite C. change (81 - 1)%Z with 80%Z. apply number_iff in H0; [rewrite H0; reflexivity|]. apply small_log. lia.
  - assert (stack_op op (a :: st) = Some (UnaryOp op (a :: st))) as ->.
    { cbn [unary In] in H. repeat (destruct H as [H|H]; [inversion H; subst; reflexivity|]). contradiction. }
    rewrite (UnaryOp_table op f x) by assumption. eapply number_unary in H1; [rewrite H1; reflexivity|exact H|]. eapply operand_bound; eauto.
  - assert (stack_op op (a2 :: a1 :: st) = Some (BinOp op (a2 :: a1 :: st))) as ->.
    { cbn [binary In] in H. repeat (destruct H as [H|H]; [inversion H; subst; reflexivity|]). contradiction. }
    rewrite (BinOp_table op f x y) by assumption. eapply number_binary in H2; [rewrite H2; reflexivity|exact H| |]; eapply operand_bound; eauto.
  - change (stack_op 157 (a2 :: a1 :: st)) with (Some (BinOp 157 (a2 :: a1 :: st))). f_equal. unfold BinOp.
    cbn [check_args List.length Nat.ltb Nat.leb bind sget nth_error Nat.sub].
    apply CastToBigNum_iff in H, H0. rewrite H0. cbn [bind]. rewrite H. cbn [bind spop N.eqb Pos.eqb]. rewrite Z.eqb_refl. reflexivity.
  - match goal with |- stack_op ?o ?s = _ => let r := eval cbv [stack_op N.eqb Pos.eqb orb andb is_binop is_unop existsb N.leb N.compare Pos.compare Pos.compare_cont] in (stack_op o s) in change (stack_op o s) with r end.
    cbv iota. f_equal.
    cbn [check_args List.length Nat.ltb Nat.leb bind sget nth_error Nat.sub].
    apply CastToBigNum_iff in H, H0, H1. rewrite H1. cbn [bind]. rewrite H0. cbn [bind]. rewrite H. cbn [bind spop].
    apply (verdict_bool ((y <=? x) && (x <? z))%Z) in H2; [rewrite H2; reflexivity|]. lia.
  - cbn [shuffle In] in H. repeat (destruct H as [H|H]; [inversion H; subst; reflexivity|]). contradiction.
  - cbn [hashing In] in H. repeat (destruct H as [H|H]; [inversion H; subst; reflexivity|]). contradiction.
  - assert (op = 0x61 \/ op = 0xb0 \/ op = 0xb1 \/ op = 0xb2 \/ op = 0xb3 \/ op = 0xb4 \/ op = 0xb5 \/ op = 0xb6 \/ op = 0xb7 \/ op = 0xb8 \/ op = 0xb9)%N as C by lia.
    repeat (destruct C as [->|C]; [reflexivity|]). subst. reflexivity.
  - assert (C : CastToBool a = true) by (apply CastToBool_iff; assumption).
    change (stack_op 115 (a :: st)) with (Some (Ok (if CastToBool a then a :: a :: st else a :: st))). rewrite C. reflexivity.
  - assert (C : CastToBool a = false) by (apply CastToBool_false; assumption).
    change (stack_op 115 (a :: st)) with (Some (Ok (if CastToBool a then a :: a :: st else a :: st))). rewrite C. reflexivity.
  - change (stack_op 116 st) with (Some (do v <- bn2vch (Z.of_nat (List.length st)); Ok (v :: st))).
    apply number_iff in H; [rewrite H; reflexivity|]. apply small_log. lia.
  - change (stack_op 130 (a :: st)) with (Some (do v <- bn2vch (Z.of_N (blen a)); Ok (v :: a :: st))).
    inversion SF; subst. unfold blen in *. rewrite nat_N_Z. apply number_iff in H; [rewrite H; reflexivity|]. apply small_log. lia.
  - rewrite pick_eq. apply CastToBigNum_iff in H. rewrite H. cbn [bind]. destruct (_ || _)%bool eqn:E; [rewrite app_length in E; cbn [List.length] in E; lia|].
    rewrite Nat2Z.id. unfold sget. replace (List.length l + 1 - 1) with (List.length l) by lia.
    rewrite nth_error_app2, Nat.sub_diag by lia. reflexivity.
  - rewrite roll_eq. apply CastToBigNum_iff in H. rewrite H. cbn [bind]. destruct (_ || _)%bool eqn:E; [rewrite app_length in E; cbn [List.length] in E; lia|].
    rewrite Nat2Z.id. unfold sget. replace (List.length l + 1 - 1) with (List.length l) by lia.
    rewrite nth_error_app2, Nat.sub_diag by lia. cbn [nth_error bind]. unfold sdel. replace (List.length l + 1 - 1) with (List.length l) by lia.
    rewrite sdel_mid. reflexivity.
  - change (stack_op 135 (b :: a :: st)) with (Some (Ok (of_bool (bytes_eqb b a) :: st))).
    apply (verdict_bool (bytes_eqb b a)) in H; [rewrite H; reflexivity|]. rewrite bytes_eqb_eq. split; congruence.
  - change (stack_op 136 (a :: a :: st)) with (Some (if bytes_eqb a a then Ok st else Err VerifyOpFailedError)). rewrite bytes_eqb_refl. reflexivity.
  - assert (C : CastToBool a = true) by (apply CastToBool_iff; assumption).
    change (stack_op 105 (a :: st)) with (Some (if CastToBool a then Ok st else Err VerifyOpFailedError)). rewrite C. reflexivity.
Qed.

(** The other direction, opcode by opcode. *)

Definition assign (names : string) (vals : list bytes) (c : ascii) : bytes :=
  (fix go (l : list ascii) (v : list bytes) := match l, v with
   | a :: l', x :: v' => if Ascii.eqb a c then x else go l' v'
   | _, _ => []
   end) (list_ascii_of_string names) vals.

Lemma in_unary op : is_unop op = true -> exists f, In (op, f) unary.
Proof.
  unfold is_unop. cbn [existsb]. intros H. rewrite !orb_true_iff in H.
  repeat (destruct H as [H|H]; [apply N.eqb_eq in H; subst op; eexists; cbn [unary In]; tauto|]). discriminate.
Qed.

Lemma in_binary op : is_binop op = true -> op = 0x9d%N \/ exists f, In (op, f) binary.
Proof.
  unfold is_binop. cbn [existsb]. intros H. rewrite !orb_true_iff in H.
  repeat (destruct H as [H|H]; [apply N.eqb_eq in H; subst op; first [left; reflexivity|right; eexists; cbn [binary In]; tauto]|]). discriminate.
Qed.

Ltac shuf names vals :=
  match goal with H : Some _ = Some (Ok ?st') |- effect ?op ?st ?st' => 
    match type of H with Some ?x = _ => let y := eval cbn in x in change (Some y = Some (Ok st')) in H end; injection H as H; subst st' end;
  match goal with |- effect ?op _ _ => 
    let t := eval cbv in (find (fun p => N.eqb (fst p) op) shuffle) in
    match t with Some (_, (?b, ?a)) =>
      match goal with |- effect _ ?st _ =>
      let r := eval cbn [skipn List.length] in (skipn (List.length vals) st) in
      refine (ef_shuffle op b a (assign names vals) r _); cbn [shuffle In]; tauto end end end.
Ltac opcase k H := match type of H with (if (?op =? k)%N then _ else _) = _ =>
  let C := fresh "C" in destruct (op =? k)%N eqn:C; [apply N.eqb_eq in C; subst op|clear C] end.

Lemma stack_op_effect op st st' : smalls st -> stack_op op st = Some (Ok st') -> effect op st st'.
Proof.
  intros [SL SF] H. unfold stack_op in H.
  destruct ((op =? 79)%N || (81 <=? op)%N && (op <=? 96)%N)%bool eqn:C.
  { destruct (bn2vch _) as [b|] eqn:E; [|discriminate]. cbn [bind] in H. inversion H; subst.
    apply (ef_constant op (Z.of_N op - 80)); [|apply number_iff; [apply small_log; lia|exact E]].
    unfold constant. destruct (op =? 79)%N eqn:E1; [f_equal; lia|]. cbn [orb] in C. rewrite C. reflexivity. }
  clear C.
  destruct (is_binop op) eqn:C.
  { inversion H as [H']. clear H. apply in_binary in C. unfold BinOp in H'. unfold check_args in H'.
    destruct st as [|a2 [|a1 st]]; [discriminate|discriminate|]. cbn [List.length Nat.ltb Nat.leb bind sget nth_error Nat.sub] in H'.
    destruct (CastToBigNum a2) as [y|] eqn:E2; [|discriminate]. cbn [bind] in H'.
    destruct (CastToBigNum a1) as [x|] eqn:E1; [|discriminate]. cbn [bind spop] in H'.
    apply CastToBigNum_iff in E1, E2. destruct C as [->|[f C]].
    - cbn [N.eqb Pos.eqb] in H'. destruct (x =? y)%Z eqn:E; [|discriminate]. apply Z.eqb_eq in E. subst y. cbn [negb] in H'.
      inversion H'; subst. eapply ef_numequalverify; eauto.
    - pose proof (BinOp_table op f x y a1 a2 st C E1 E2) as T. unfold BinOp, check_args in T. cbn [List.length Nat.ltb Nat.leb bind sget nth_error Nat.sub] in T.
      apply CastToBigNum_iff in E1 as F1, E2 as F2. rewrite F2 in T. cbn [bind] in T. rewrite F1 in T. cbn [bind spop] in T.
      rewrite T in H'. destruct (bn2vch (f x y)) as [b|] eqn:EB; [|discriminate]. cbn [bind] in H'. inversion H'; subst.
      eapply ef_binary; eauto. eapply number_binary; eauto; eapply operand_bound; eauto. }
  clear C.
  destruct (is_unop op) eqn:C.
  { inversion H as [H']. clear H. apply in_unary in C. destruct C as [f C].
    destruct st as [|a st]; [discriminate|]. destruct (CastToBigNum a) as [x|] eqn:E1.
    - apply CastToBigNum_iff in E1. rewrite (UnaryOp_table op f x) in H' by assumption.
      destruct (bn2vch (f x)) as [b|] eqn:EB; [|discriminate]. cbn [bind] in H'. inversion H'; subst.
      eapply ef_unary; eauto. eapply number_unary; eauto; eapply operand_bound; eauto.
    - unfold UnaryOp, check_args in H'. cbn [List.length Nat.ltb Nat.leb bind sget nth_error Nat.sub] in H'. rewrite E1 in H'. discriminate. }
  clear C.
  opcase 109%N H; [destruct st as [|b [|a st]]; try discriminate; shuf "ab"%string [a; b]|].
  opcase 110%N H; [destruct st as [|b [|a st]]; try discriminate; shuf "ab"%string [a; b]|].
  opcase 112%N H; [destruct st as [|d [|c [|b [|a st]]]]; try discriminate; shuf "abcd"%string [a; b; c; d]|].
  opcase 113%N H; [destruct st as [|f [|e [|d [|c [|b [|a st]]]]]]; try discriminate; shuf "abcdef"%string [a; b; c; d; e; f]|].
  opcase 114%N H; [destruct st as [|d [|c [|b [|a st]]]]; try discriminate; shuf "abcd"%string [a; b; c; d]|].
  opcase 111%N H; [destruct st as [|c [|b [|a st]]]; try discriminate; shuf "abc"%string [a; b; c]|].
  opcase 116%N H.
  { destruct (bn2vch _) as [b|] eqn:E; [|discriminate]. cbn [bind] in H. inversion H; subst. constructor.
    apply number_iff; [apply small_log; lia|exact E]. }
  opcase 117%N H; [destruct st as [|a st]; try discriminate; shuf "a"%string [a]|].
  opcase 118%N H; [destruct st as [|a st]; try discriminate; shuf "a"%string [a]|].
  opcase 135%N H.
  { destruct st as [|b [|a st]]; try discriminate. cbn [check_args List.length Nat.ltb Nat.leb bind spop] in H. inversion H; subst. constructor.
    apply (verdict_bool (bytes_eqb b a)); [|reflexivity]. rewrite bytes_eqb_eq. split; congruence. }
  opcase 136%N H.
  { destruct st as [|b [|a st]]; try discriminate. cbn [check_args List.length Nat.ltb Nat.leb bind spop sget nth_error Nat.sub] in H.
    destruct (bytes_eqb b a) eqn:E; [|discriminate]. apply bytes_eqb_eq in E. inversion H; subst. constructor. }
  opcase 169%N H; [destruct st as [|a st]; try discriminate; cbn [check_args List.length Nat.ltb Nat.leb bind spop] in H; inversion H; subst;
    apply (ef_hashing _ (fun b => ripemd160 (sha256 b))); cbn [hashing In]; tauto|].
  opcase 170%N H; [destruct st as [|a st]; try discriminate; cbn [check_args List.length Nat.ltb Nat.leb bind spop] in H; inversion H; subst;
    apply (ef_hashing _ (fun b => sha256 (sha256 b))); cbn [hashing In]; tauto|].
  opcase 115%N H.
  { destruct st as [|a st]; try discriminate. cbn [check_args List.length Nat.ltb Nat.leb bind spop sget nth_error Nat.sub] in H. inversion H.
    destruct (CastToBool a) eqn:E; [apply ef_ifdup_true, CastToBool_iff, E|apply ef_ifdup_false, CastToBool_false, E]. }
  opcase 119%N H; [destruct st as [|b [|a st]]; try discriminate; shuf "ab"%string [a; b]|].
  match type of H with (if ?c then _ else _) = _ => destruct c eqn:C end; [inversion H; subst; apply ef_nop; lia|clear C].
  opcase 120%N H; [destruct st as [|b [|a st]]; try discriminate; shuf "ab"%string [a; b]|].
  match type of H with (if ?c then _ else _) = _ => destruct c eqn:C end.
  { destruct st as [|v [|w st]]; try discriminate. cbn [check_args List.length Nat.ltb Nat.leb bind spop] in H.
    destruct (CastToBigNum v) as [n|] eqn:EV; [|discriminate]. cbn [bind] in H. apply CastToBigNum_iff in EV.
    match type of H with Some (if ?c then _ else _) = _ => destruct c eqn:E end; [discriminate|]. remember (w :: st) as rest.
    unfold sget, sdel in H. replace (Z.to_nat n + 1 - 1) with (Z.to_nat n) in H by lia.
    destruct (nth_error rest (Z.to_nat n)) as [x|] eqn:EN; [|discriminate]. cbn [bind] in H.
    apply nth_error_split in EN. destruct EN as (l & r & -> & L).
    assert (n = Z.of_nat (List.length l)) as -> by lia.
    destruct (op =? 122)%N eqn:E2.
    - apply N.eqb_eq in E2. subst op. rewrite Nat2Z.id in H. rewrite sdel_mid in H. cbn [bind] in H. inversion H; subst. apply ef_roll, EV.
    - assert (op = 121%N) as -> by lia. cbn [bind] in H. inversion H; subst. apply ef_pick, EV. }
  clear C.
  opcase 106%N H; [discriminate|].
  opcase 166%N H; [destruct st as [|a st]; try discriminate; cbn [check_args List.length Nat.ltb Nat.leb bind spop] in H; inversion H; subst;
    apply ef_hashing; cbn [hashing In]; tauto|].
  opcase 123%N H; [destruct st as [|c [|b [|a st]]]; try discriminate; shuf "abc"%string [a; b; c]|].
  opcase 130%N H.
  { destruct st as [|a st]; try discriminate. cbn [check_args List.length Nat.ltb Nat.leb bind spop sget nth_error Nat.sub] in H.
    destruct (bn2vch _) as [b|] eqn:E; [|discriminate]. cbn [bind] in H. inversion H; subst. inversion SF; subst.
    constructor. apply number_iff; [apply small_log; unfold blen in *; lia|]. rewrite <- E. f_equal. unfold blen. lia. }
  opcase 167%N H; [destruct st as [|a st]; try discriminate; cbn [check_args List.length Nat.ltb Nat.leb bind spop] in H; inversion H; subst;
    apply ef_hashing; cbn [hashing In]; tauto|].
  opcase 168%N H; [destruct st as [|a st]; try discriminate; cbn [check_args List.length Nat.ltb Nat.leb bind spop] in H; inversion H; subst;
    apply ef_hashing; cbn [hashing In]; tauto|].
  opcase 124%N H; [destruct st as [|b [|a st]]; try discriminate; shuf "ab"%string [a; b]|].
  opcase 125%N H; [destruct st as [|b [|a st]]; try discriminate; shuf "ab"%string [a; b]|].
  opcase 105%N H.
  { destruct st as [|a st]; try discriminate. cbn [check_args List.length Nat.ltb Nat.leb bind spop sget nth_error Nat.sub] in H.
    destruct (CastToBool a) eqn:E; [|discriminate]. inversion H; subst. apply ef_verify, CastToBool_iff, E. }
  opcase 165%N H; [|discriminate].
  destruct st as [|hi [|lo [|a st]]]; try discriminate. cbn [check_args List.length Nat.ltb Nat.leb bind spop sget nth_error Nat.sub] in H.
  destruct (CastToBigNum hi) as [z|] eqn:E3; [|discriminate]. cbn [bind] in H.
  destruct (CastToBigNum lo) as [y|] eqn:E2; [|discriminate]. cbn [bind] in H.
  destruct (CastToBigNum a) as [x|] eqn:E1; [|discriminate]. cbn [bind] in H. inversion H; subst.
  apply CastToBigNum_iff in E1, E2, E3. eapply ef_within; eauto. apply (verdict_bool ((y <=? x) && (x <? z))%Z); [lia|reflexivity].
Qed.

Lemma stack_op_iff op st st' : smalls st -> stack_op op st = Some (Ok st') <-> effect op st st'.
Proof. intros H. split; [apply stack_op_effect, H|apply effect_stack_op, H]. Qed.
