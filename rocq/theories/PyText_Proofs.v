(** Reading Python texts: what each way of writing an expression is read as. *)
From Verif Require Import Base Tx_Model Script_Model Block_Model Hex_Model Base58_Model Bits_Model PyText_Spec.
From Coq Require Import Lia ZifyBool ZifyNat ZifyN.
Local Open Scope Z_scope.
Local Open Scope list_scope.

(** ** Ways of writing *)

Definition letters (t : text) : Prop := (exists c r, t = c :: r /\ is_letter c = true) /\ forallb is_ident t = true.
Definition plain (t : text) : Prop := forallb (fun c => negb (Ascii.eqb c "'" || Ascii.eqb c "\"))%bool t = true.

Inductive atom : text -> expr -> Prop :=
| atom_num d : d <> [] -> forallb is_digit d = true -> leading_zero d = false -> atom d (ENum (value_of 10 d))
| atom_hex h : h <> [] -> forallb is_hex h = true -> atom ("0"%char :: "x"%char :: h) (ENum (value_of 16 h))
| atom_dec d f : d <> [] -> forallb is_digit d = true -> forallb is_digit f = true ->
    atom (d ++ "."%char :: f) (EDec (value_of 10 (d ++ f)) (List.length f))
| atom_str t : plain t -> atom ("'"%char :: t ++ ["'"%char]) (EStr t)
| atom_bytes q t b : q = "'"%char \/ q = """"%char -> (forall r, p_bytes q (t ++ r) = Some (b, r)) ->
    atom ("b"%char :: q :: t) (EBytes b)
| atom_name t : letters t -> atom t (EName t)
| atom_neg s e : atom s e -> atom ("-"%char :: s) (ENeg e)
| atom_call f s l : letters f -> items s l -> atom (f ++ "("%char :: s ++ [")"%char]) (ECall f l)
| atom_tuple s l : items s l -> List.length l <> 1%nat -> atom ("("%char :: s ++ [")"%char]) (ETuple l)
| atom_one s e : expression s e -> atom ("("%char :: s ++ [","%char; ")"%char]) (ETuple [e])
| atom_list s l : items s l -> atom ("["%char :: s ++ ["]"%char]) (EList l)
with expression : text -> expr -> Prop :=
| expr_atom s e : atom s e -> expression s e
| expr_mul s a t b : atom s a -> atom t b -> expression (s ++ "*"%char :: t) (EMul a b)
with items : text -> list expr -> Prop :=
| items_nil : items [] []
| items_one s e : expression s e -> items s [e]
| items_cons s e k s' e' l : expression s e -> items s' (e' :: l) ->
    items (s ++ ","%char :: repeat " "%char k ++ s') (e :: e' :: l).

Scheme atom_ind2 := Induction for atom Sort Prop
with expression_ind2 := Induction for expression Sort Prop
with items_ind2 := Induction for items Sort Prop.
Combined Scheme writing_ind from atom_ind2, expression_ind2, items_ind2.

(** ** Spans *)

Definition stops (p : ascii -> bool) (r : text) : Prop := match r with c :: _ => p c = false | [] => True end.

Lemma span_app p a r : forallb p a = true -> stops p r -> span p (a ++ r) = (a, r).
Proof.
  intros A R. induction a as [|c a IH]; cbn [app forallb span] in *.
  - destruct r as [|c r]; [reflexivity|]. cbn [span stops] in *. rewrite R. reflexivity.
  - apply andb_prop in A. destruct A as [-> A]. rewrite (IH A). reflexivity.
Qed.

(** What may follow an atom, and a whole expression. *)
Definition after_atom (r : text) : Prop :=
  match r with c :: _ => c = "*"%char \/ c = ","%char \/ c = ")"%char \/ c = "]"%char | [] => True end.
Definition after_expr (r : text) : Prop :=
  match r with c :: _ => c = ","%char \/ c = ")"%char \/ c = "]"%char | [] => True end.

Lemma after_weaken r : after_expr r -> after_atom r.
Proof. destruct r; cbn; [trivial|tauto]. Qed.
Lemma after_ident r : after_atom r -> stops is_ident r.
Proof. destruct r as [|c r]; cbn; [trivial|]. intros [-> | [-> | [-> | ->]]]; reflexivity. Qed.
Lemma after_digit r : after_atom r -> stops is_digit r.
Proof. destruct r as [|c r]; cbn; [trivial|]. intros [-> | [-> | [-> | ->]]]; reflexivity. Qed.
Lemma after_hex r : after_atom r -> stops is_hex r.
Proof. destruct r as [|c r]; cbn; [trivial|]. intros [-> | [-> | [-> | ->]]]; reflexivity. Qed.
Lemma after_ends e r : after_atom r -> ends e r = Some (e, r).
Proof. destruct r as [|c r]; cbn; [trivial|]. intros [-> | [-> | [-> | ->]]]; reflexivity. Qed.

(** Every way of writing begins with a character that is not a separator. *)
Definition starts (s : text) : Prop :=
  exists c r, s = c :: r /\ c <> " "%char /\ c <> ")"%char /\ c <> "]"%char /\ c <> ","%char /\ c <> "*"%char.

Lemma class_starts (p : ascii -> bool) : (forall c, p c = true -> is_ident c = true) -> forall c r, p c = true -> starts (c :: r).
Proof. intros H c r P. apply H in P. exists c, r. split; [reflexivity|]. repeat split; intros ->; discriminate. Qed.

Lemma starts_app s r : starts s -> starts (s ++ r).
Proof. intros (c & t & -> & H). exists c, (t ++ r). auto. Qed.

Lemma letters_starts t r : letters t -> starts (t ++ r).
Proof.
  intros [(c & t' & -> & L) _]. apply (class_starts is_letter); [|exact L].
  intros x X. unfold is_ident. rewrite X. apply orb_true_r.
Qed.
Lemma digits_start d r : d <> [] -> forallb is_digit d = true -> starts (d ++ r).
Proof.
  intros N D. destruct d as [|c d]; [congruence|]. cbn [forallb] in D. apply andb_prop in D.
  apply (class_starts is_digit); [|apply D]. intros x X. unfold is_ident. rewrite X. reflexivity.
Qed.

Ltac start_with := do 2 eexists; (split; [reflexivity|]); repeat split; discriminate.

Lemma writing_starts : (forall s e, atom s e -> starts s) /\ (forall s e, expression s e -> starts s) /\
  (forall s l, items s l -> l <> [] -> starts s).
Proof.
  apply writing_ind; intros; try start_with; try (apply starts_app; assumption); auto.
  - rewrite <- (app_nil_r d). apply digits_start; assumption.
  - apply digits_start; assumption.
  - rewrite <- (app_nil_r t). apply letters_starts. assumption.
  - apply letters_starts. assumption.
  - congruence.
Qed.

Lemma skip_start s : starts s -> skip_spaces s = s.
Proof. intros (c & r & -> & N & _). cbn [skip_spaces]. destruct (Ascii.eqb_spec c " "); [congruence|reflexivity]. Qed.
Lemma skip_repeat k s : skip_spaces (repeat " "%char k ++ s) = skip_spaces s.
Proof. induction k as [|k IH]; [reflexivity|]. cbn [repeat app skip_spaces Ascii.eqb Bool.eqb]. exact IH. Qed.

(** ** Numbers *)

Lemma digit_not_x c : is_digit c = true -> Ascii.eqb c "x" = false.
Proof. intros H. destruct (Ascii.eqb_spec c "x"); [subst; discriminate|reflexivity]. Qed.

Lemma p_decimal_int d r : d <> [] -> forallb is_digit d = true -> leading_zero d = false -> after_atom r ->
  p_decimal (d ++ r) = Some (ENum (value_of 10 d), r).
Proof.
  intros N D Z R. unfold p_decimal. rewrite span_app by auto using after_digit. rewrite Z.
  destruct r as [|c r]; [reflexivity|]. rewrite <- (after_ends (ENum (value_of 10 d))) by exact R.
  destruct (Ascii.eqb_spec c "."); [|reflexivity]. subst. cbn in R. exfalso. intuition discriminate.
Qed.

Lemma p_decimal_dec d f r : d <> [] -> forallb is_digit d = true -> forallb is_digit f = true -> after_atom r ->
  p_decimal ((d ++ "."%char :: f) ++ r) = Some (EDec (value_of 10 (d ++ f)) (List.length f), r).
Proof.
  intros N D F R. unfold p_decimal. rewrite <- app_assoc. cbn [app]. rewrite (span_app is_digit d) by (auto; reflexivity).
  cbn [Ascii.eqb Bool.eqb]. rewrite span_app by auto using after_digit. apply after_ends. exact R.
Qed.

(** A decimal number is not taken for a hexadecimal one. *)
Lemma p_number_is_decimal s : (forall a r, s <> a :: "x"%char :: r) -> p_number s = p_decimal s.
Proof.
  intros H. unfold p_number. destruct s as [|a [|b s]]; try reflexivity.
  destruct (Ascii.eqb_spec b "x"); [subst; exfalso; eapply H; reflexivity|]. rewrite andb_false_r. reflexivity.
Qed.

Lemma second_not_x d r : d <> [] -> forallb is_digit d = true -> (forall r', r <> "x"%char :: r') -> forall a r', d ++ r <> a :: "x"%char :: r'.
Proof.
  intros N D R a r' E. destruct d as [|c [|c' d]]; [congruence| |]; cbn [app] in E; inversion E; subst.
  - eapply R. reflexivity.
  - cbn [forallb] in D. rewrite andb_false_r in D. discriminate.
Qed.

(** ** The parser reads every way of writing *)

Lemma eqb_refl_char c : Ascii.eqb c c = true.
Proof. apply Ascii.eqb_refl. Qed.

Lemma digit_first c : is_digit c = true -> Ascii.eqb c "-" = false /\ Ascii.eqb c "(" = false /\ Ascii.eqb c "[" = false /\ Ascii.eqb c "'" = false.
Proof. intros H. repeat split; match goal with |- Ascii.eqb ?a ?b = _ => destruct (Ascii.eqb_spec a b); [subst; discriminate|reflexivity] end. Qed.
Lemma letter_first c : is_letter c = true -> Ascii.eqb c "-" = false /\ Ascii.eqb c "(" = false /\ Ascii.eqb c "[" = false /\ Ascii.eqb c "'" = false /\ is_digit c = false.
Proof.
  intros H. repeat split; try (match goal with |- Ascii.eqb ?a ?b = _ => destruct (Ascii.eqb_spec a b); [subst; discriminate|reflexivity] end).
  unfold is_letter, is_digit in *. cbv zeta in *. lia.
Qed.

Lemma p_atom_number f d r : d <> [] -> forallb is_digit d = true -> p_atom (S f) (d ++ r) = p_number (d ++ r).
Proof.
  intros N D. destruct d as [|c d]; [congruence|]. cbn [forallb] in D. apply andb_prop in D. destruct D as [D _].
  destruct (digit_first c D) as (A & B & C & E). cbn [app p_atom]. rewrite A, B, C, E, D. reflexivity.
Qed.

(** A name: what follows the identifier decides. *)
Lemma p_atom_name f n r : letters n -> stops is_ident r -> p_atom (S f) (n ++ r) =
  match r with
  | d :: r' =>
    if Ascii.eqb d "(" then match p_items f ")" r' with Some (l, _, r) => Some (ECall n l, r) | None => None end
    else if (Ascii.eqb d "'" || Ascii.eqb d """")%bool then
      if list_eq_dec Ascii.ascii_dec n ["b"%char]
      then match p_bytes d r' with Some (b, r) => Some (EBytes b, r) | None => None end else None
    else Some (EName n, r)
  | [] => Some (EName n, r)
  end.
Proof.
  intros [(c & n' & -> & L) I] R. destruct (letter_first c L) as (A & B & C & D & E).
  cbn [app]. cbn [p_atom]. rewrite A, B, C, D, E, L. change (c :: n' ++ r) with ((c :: n') ++ r). rewrite span_app by assumption. reflexivity.
Qed.

Lemma starts_nonempty s : starts s -> (1 <= List.length s)%nat.
Proof. intros (c & r & -> & _). cbn [List.length]. lia. Qed.

Definition closes (c : ascii) : Prop := c = ")"%char \/ c = "]"%char.
Lemma closes_after c r : closes c -> after_expr (c :: r).
Proof. intros [-> | ->]; cbn; tauto. Qed.

Lemma parser_reads :
  (forall s e, atom s e -> forall f r, (3 * List.length s + 1 <= f)%nat -> after_atom r -> p_atom f (s ++ r) = Some (e, r)) /\
  (forall s e, expression s e -> forall f r, (3 * List.length s + 2 <= f)%nat -> after_expr r -> p_expr f (s ++ r) = Some (e, r)) /\
  (forall s l, items s l -> forall f c r, (3 * List.length s + 3 <= f)%nat -> closes c -> p_items f c (s ++ c :: r) = Some (l, false, r)).
Proof.
  apply writing_ind.
  - (* number *)
    intros d N D Z f r F R. destruct f as [|f]; [lia|]. rewrite p_atom_number by assumption.
    rewrite p_number_is_decimal; [apply p_decimal_int; assumption|]. apply second_not_x; [assumption..|].
    intros r' ->. cbn in R. intuition discriminate.
  - (* hex *)
    intros h N H f r F R. destruct f as [|f]; [lia|].
    change (("0"%char :: "x"%char :: h) ++ r) with (["0"%char] ++ "x"%char :: h ++ r). rewrite p_atom_number by (reflexivity || discriminate).
    cbn [app p_number Ascii.eqb Bool.eqb andb]. rewrite span_app by auto using after_hex. destruct h; [congruence|]. apply after_ends, R.
  - (* decimal point *)
    intros d g N D G f r F R. destruct f as [|f]; [lia|]. rewrite <- app_assoc. rewrite p_atom_number by assumption.
    rewrite p_number_is_decimal by (apply second_not_x; [assumption..|]; intros r'; discriminate).
    rewrite app_assoc. apply p_decimal_dec; assumption.
  - (* text *)
    intros t P f r F R. destruct f as [|f]; [lia|]. cbn [app p_atom Ascii.eqb Bool.eqb]. rewrite <- app_assoc. unfold p_str.
    rewrite (span_app _ t) by (assumption || reflexivity). reflexivity.
  - (* bytes *)
    intros q t b Q P f r F R. destruct f as [|f]; [lia|].
    change (("b"%char :: q :: t) ++ r) with (["b"%char] ++ q :: t ++ r).
    rewrite p_atom_name; [|split; [do 2 eexists; split; reflexivity|reflexivity]|destruct Q as [-> | ->]; reflexivity].
    rewrite P. destruct Q as [-> | ->]; reflexivity.
  - (* name *)
    intros t L f r F R. destruct f as [|f]; [lia|]. rewrite p_atom_name by (assumption || apply after_ident, R).
    destruct r as [|c r]; [reflexivity|]. cbn in R. destruct R as [-> | [-> | [-> | ->]]]; reflexivity.
  - (* minus *)
    intros s e _ IH f r F R. destruct f as [|f]; [lia|]. cbn [List.length] in F. cbn [app p_atom Ascii.eqb Bool.eqb]. rewrite IH by (assumption || lia). reflexivity.
  - (* call *)
    intros n s l L _ IH f r F R. destruct f as [|f]; [lia|]. rewrite app_length in F. cbn [List.length] in F. rewrite app_length in F. cbn [List.length] in F.
    rewrite <- app_assoc. cbn [app]. rewrite p_atom_name by (assumption || reflexivity). cbn [Ascii.eqb Bool.eqb]. rewrite <- app_assoc. cbn [app].
    rewrite IH; [reflexivity| |left; reflexivity].
    destruct L as [(c & n' & -> & _) _]. cbn [List.length] in F. lia.
  - (* tuple *)
    intros s l _ IH N f r F R. destruct f as [|f]; [lia|]. cbn [List.length] in F. rewrite app_length in F. cbn [List.length] in F.
    cbn [app p_atom Ascii.eqb Bool.eqb]. rewrite <- app_assoc. cbn [app]. rewrite IH by (lia || (left; reflexivity)).
    destruct l as [|e [|e' l]]; [reflexivity|cbn in N; lia|reflexivity].
  - (* tuple of one *)
    intros s e X IH f r F R. destruct f as [|f]; [lia|]. cbn [List.length] in F. rewrite app_length in F. cbn [List.length] in F.
    cbn [app p_atom Ascii.eqb Bool.eqb]. rewrite <- app_assoc. cbn [app].
    destruct f as [|f]; [lia|]. cbn [p_items].
    destruct (proj1 (proj2 writing_starts) _ _ X) as (c & s' & -> & Nc). cbn [app].
    destruct (Ascii.eqb_spec c ")"); [subst; intuition congruence|].
    change (c :: s' ++ ","%char :: ")"%char :: r) with ((c :: s') ++ ","%char :: ")"%char :: r).
    rewrite IH; [reflexivity|lia|cbn; tauto].
  - (* list *)
    intros s l _ IH f r F R. destruct f as [|f]; [lia|]. cbn [List.length] in F. rewrite app_length in F. cbn [List.length] in F.
    cbn [app p_atom Ascii.eqb Bool.eqb]. rewrite <- app_assoc. cbn [app]. rewrite IH by (lia || (right; reflexivity)). reflexivity.
  - (* an atom alone *)
    intros s e _ IH f r F R. destruct f as [|f]; [lia|]. cbn [p_expr]. rewrite IH by (lia || apply after_weaken, R).
    destruct r as [|c r]; [reflexivity|]. cbn in R. destruct R as [-> | [-> | ->]]; reflexivity.
  - (* product *)
    intros s a t b _ IHa _ IHb f r F R. destruct f as [|f]; [lia|]. rewrite app_length in F. cbn [List.length] in F. cbn [p_expr]. rewrite <- app_assoc. cbn [app].
    rewrite IHa by (lia || (cbn; tauto)). cbn [Ascii.eqb Bool.eqb]. rewrite IHb by (lia || apply after_weaken, R). reflexivity.
  - (* no items *)
    intros f c r F C. destruct f as [|f]; [lia|]. cbn [app p_items]. rewrite eqb_refl_char. reflexivity.
  - (* one item *)
    intros s e X IH f c r F C. destruct f as [|f]; [lia|]. cbn [p_items].
    destruct (proj1 (proj2 writing_starts) _ _ X) as (h & s' & -> & Nc). cbn [app].
    destruct (Ascii.eqb_spec h c); [subst; destruct C; subst; intuition congruence|].
    change (h :: s' ++ c :: r) with ((h :: s') ++ c :: r). rewrite IH by (lia || apply closes_after, C). rewrite eqb_refl_char. reflexivity.
  - (* more items *)
    intros s e k s' e' l X IH Y IHY f c r F C. destruct f as [|f]; [lia|]. rewrite app_length in F. cbn [List.length] in F. rewrite app_length in F.
    cbn [p_items]. destruct (proj1 (proj2 writing_starts) _ _ X) as (h & s0 & -> & Nc).
    assert (S2 : starts (s' ++ c :: r)) by (apply starts_app, (proj2 (proj2 writing_starts) _ _ Y); discriminate).
    rewrite <- app_assoc. cbn [app]. destruct (Ascii.eqb_spec h c); [subst; destruct C; subst; intuition congruence|].
    rewrite <- app_assoc.
    change (h :: s0 ++ ","%char :: repeat " "%char k ++ s' ++ c :: r) with ((h :: s0) ++ ","%char :: repeat " "%char k ++ s' ++ c :: r).
    rewrite IH by (lia || (cbn; tauto)).
    assert (Ascii.eqb "," c = false) as -> by (destruct C; subst; reflexivity). cbn [Ascii.eqb Bool.eqb].
    rewrite skip_repeat, skip_start by exact S2. rewrite IHY; [|cbn [List.length] in F; lia|exact C].
    destruct S2 as (h2 & s2 & E2 & N2). rewrite E2. destruct (Ascii.eqb_spec h2 c); [subst; destruct C; subst; intuition congruence|]. reflexivity.
Qed.

Lemma read_expression s e : expression s e -> read s = Some e.
Proof.
  intros H. unfold read. pose proof (proj1 (proj2 parser_reads) _ _ H (3 * List.length s + 3)%nat [] ltac:(lia) Logic.I) as P.
  rewrite app_nil_r in P. rewrite P. reflexivity.
Qed.
