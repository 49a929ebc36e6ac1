(** A text with a less-than sign outside of quotes is no expression; so printed objects with a
    script that cannot be parsed are not read back. *)
From Verif Require Import Base Tx_Model Script_Model Script_Spec Script_Proofs Block_Model Hex_Model Money_Model Money_Spec Money_Proofs
  Base58_Model Base58_Spec PyText_Spec PyText_Proofs Repr_Model Repr_Spec Repr_Proofs ReprTx_Proofs.
From Coq Require Import Lia ZifyBool ZifyNat ZifyN.
Local Open Scope list_scope.

(** ** Quotes and less-than signs *)

Definition mild (c : ascii) : bool := negb (Ascii.eqb c """" || Ascii.eqb c "\")%bool.
Definition clean (s : text) : Prop := forallb mild s = true.

(** Whether a text leaves one inside quotes, having begun inside ([q]) or outside. *)
Fixpoint inside (q : bool) (s : text) : bool :=
  match s with c :: s' => inside (if Ascii.eqb c "'" then negb q else q) s' | [] => q end.
(** Whether there is a less-than sign outside of quotes. *)
Fixpoint bare (q : bool) (s : text) : bool :=
  match s with c :: s' => ((Ascii.eqb c "<" && negb q) || bare (if Ascii.eqb c "'" then negb q else q) s')%bool | [] => false end.

Lemma inside_app a : forall q b, inside q (a ++ b) = inside (inside q a) b.
Proof. induction a as [|c a IH]; intros q b; [reflexivity|]. cbn [app inside]. apply IH. Qed.
Lemma bare_app a : forall q b, bare q (a ++ b) = (bare q a || bare (inside q a) b)%bool.
Proof. induction a as [|c a IH]; intros q b; [reflexivity|]. cbn [app inside bare]. rewrite IH. apply orb_assoc. Qed.

Definition calm (c : text) : Prop := inside false c = false /\ bare false c = false.
Lemma calm_app a b : calm a -> calm b -> calm (a ++ b).
Proof. intros [A B] [C D]. split; [rewrite inside_app, A; exact C|rewrite bare_app, A, B; exact D]. Qed.
Lemma calm_nil : calm [].
Proof. split; reflexivity. Qed.
Lemma calm_all s : forallb (fun c => negb (Ascii.eqb c "'" || Ascii.eqb c "<"))%bool s = true -> calm s.
Proof.
  induction s as [|c s IH]; [intros; apply calm_nil|]. cbn [forallb]. intros H. apply andb_prop in H. destruct H as [C H].
  apply negb_true_iff, orb_false_iff in C. destruct C as [C1 C2]. unfold calm. cbn [inside bare]. rewrite C1, C2. apply (IH H).
Qed.
Lemma calm_char c s : Ascii.eqb c "'" = false -> Ascii.eqb c "<" = false -> calm s -> calm (c :: s).
Proof. intros A B [C D]. unfold calm. cbn [inside bare]. rewrite A, B. split; assumption. Qed.

Lemma quoted_calm t s : forallb (fun c => negb (Ascii.eqb c "'")) t = true -> calm s -> calm ("'"%char :: t ++ "'"%char :: s).
Proof.
  intros Q [A B]. unfold calm. cbn [inside bare Ascii.eqb Bool.eqb andb orb negb].
  assert (H : inside true t = true /\ bare true t = false).
  { induction t as [|c t IH]; [split; reflexivity|]. cbn [forallb] in Q. apply andb_prop in Q. destruct Q as [C Q]. apply negb_true_iff in C.
    cbn [inside bare]. rewrite C, andb_false_r. apply (IH Q). }
  destruct H as [H1 H2]. rewrite inside_app, bare_app, H1, H2. cbn [inside bare Ascii.eqb Bool.eqb andb orb negb]. split; assumption.
Qed.

(** ** What the parser takes has none *)

Lemma span_spec p s : let '(a, b) := span p s in s = a ++ b /\ forallb p a = true.
Proof.
  induction s as [|c s IH]; [split; reflexivity|]. cbn [span]. destruct (p c) eqn:E; [|split; reflexivity].
  destruct (span p s) as [a b]. destruct IH as [-> H]. split; [reflexivity|]. cbn [forallb]. rewrite E, H. reflexivity.
Qed.
Lemma forallb_weaken {A} (p q : A -> bool) l : (forall c, p c = true -> q c = true) -> forallb p l = true -> forallb q l = true.
Proof. intros H. rewrite !forallb_forall. auto. Qed.

Ltac by_chars := intros c C; destruct (Ascii.eqb_spec c "'") as [E|_]; [subst; discriminate C|];
  destruct (Ascii.eqb_spec c "<") as [E|_]; [subst; discriminate C|reflexivity].
Lemma ident_calm s : forallb is_ident s = true -> calm s.
Proof. intros H. apply calm_all. revert H. apply forallb_weaken. by_chars. Qed.
Lemma digits_calm s : forallb is_digit s = true -> calm s.
Proof. intros H. apply calm_all. revert H. apply forallb_weaken. by_chars. Qed.
Lemma hex_calm s : forallb is_hex s = true -> calm s.
Proof. intros H. apply calm_all. revert H. apply forallb_weaken. by_chars. Qed.

Definition takes {A} (s : text) (x : option (A * text)) : Prop :=
  forall a r, x = Some (a, r) -> exists c, s = c ++ r /\ calm c.

Lemma ends_takes e c r : calm c -> takes (c ++ r) (ends e r).
Proof.
  intros C a r'. unfold ends. destruct r as [|x r]; [intros H; injection H as <- <-; eauto|].
  destruct (_ || _)%bool; [discriminate|]. intros H. injection H as <- <-. eauto.
Qed.

Lemma p_decimal_takes s : takes s (p_decimal s).
Proof.
  unfold p_decimal. pose proof (span_spec is_digit s) as S. destruct (span is_digit s) as [d r]. destruct S as [-> D]. apply digits_calm in D.
  destruct r as [|c r]; [destruct (leading_zero d); [discriminate|apply ends_takes, D]|].
  destruct (Ascii.eqb_spec c ".") as [->|_]; [|destruct (leading_zero d); [discriminate|apply ends_takes, D]].
  pose proof (span_spec is_digit r) as S. destruct (span is_digit r) as [f r']. destruct S as [-> F]. apply digits_calm in F.
  replace (d ++ "."%char :: f ++ r') with ((d ++ "."%char :: f) ++ r') by (rewrite <- app_assoc; reflexivity).
  apply ends_takes. apply calm_app; [exact D|]. apply calm_char; [reflexivity..|exact F].
Qed.
Lemma p_number_takes s : takes s (p_number s).
Proof.
  unfold p_number. destruct s as [|a [|b s]]; [apply p_decimal_takes..|]. destruct (_ && _)%bool eqn:E; [|apply p_decimal_takes].
  apply andb_prop in E. destruct E as [A B]. apply Ascii.eqb_eq in A, B. subst. pose proof (span_spec is_hex s) as S. destruct (span is_hex s) as [h r]. destruct S as [-> D].
  apply hex_calm in D. destruct h as [|x h]; [discriminate|].
  change ("0"%char :: "x"%char :: (x :: h) ++ r) with (("0"%char :: "x"%char :: x :: h) ++ r). apply ends_takes.
  apply calm_char; [reflexivity..|]. apply calm_char; [reflexivity..|exact D].
Qed.

Lemma p_str_takes s : takes ("'"%char :: s) (p_str s).
Proof.
  unfold p_str. match goal with |- context [span ?p s] => pose proof (span_spec p s) as S; destruct (span p s) as [t r] end. destruct S as [-> D].
  destruct r as [|c r]; [discriminate|]. destruct (Ascii.eqb_spec c "'") as [->|_]; [|discriminate]. intros a r' H. injection H as <- <-.
  exists ("'"%char :: t ++ ["'"%char]). split; [cbn [app]; rewrite <- app_assoc; reflexivity|]. apply quoted_calm; [|apply calm_nil].
  revert D. apply forallb_weaken. intros c C. apply negb_true_iff, orb_false_iff in C. destruct C as [-> _]. reflexivity.
Qed.

Lemma clean_app a b : clean (a ++ b) -> clean a /\ clean b.
Proof. unfold clean. rewrite forallb_app. apply andb_prop. Qed.
Lemma clean_cons c b : clean (c :: b) -> mild c = true /\ clean b.
Proof. unfold clean. cbn [forallb]. apply andb_prop. Qed.

Lemma p_bytes_quoted s : forall b r, clean s -> p_bytes "'" s = Some (b, r) -> exists t, s = t ++ "'"%char :: r /\ forallb (fun c => negb (Ascii.eqb c "'")) t = true.
Proof.
  induction s as [|c s IH]; intros b r CL H; [discriminate|]. cbn [p_bytes] in H. apply clean_cons in CL. destruct CL as [M CL].
  destruct (Ascii.eqb c "'") eqn:Q; [apply Ascii.eqb_eq in Q; subst; injection H as <- <-; exists []; split; reflexivity|].
  destruct (Ascii.eqb c "\") eqn:B; [apply Ascii.eqb_eq in B; subst; discriminate M|].
  destruct (_ || _)%bool; [discriminate|]. destruct (p_bytes "'" s) as [[l r0]|] eqn:P; [|discriminate]. injection H as <- <-.
  destruct (IH l r0 CL eq_refl) as (t & -> & T). exists (c :: t). split; [reflexivity|]. cbn [forallb]. rewrite Q, T. reflexivity.
Qed.

Lemma skip_spec s : exists k, s = repeat " "%char k ++ skip_spaces s.
Proof.
  induction s as [|c s (k & IH)]; [exists 0%nat; reflexivity|]. cbn [skip_spaces]. destruct (Ascii.eqb_spec c " ") as [->|_]; [|exists 0%nat; reflexivity].
  exists (S k). cbn [repeat app]. rewrite <- IH. reflexivity.
Qed.
Lemma spaces_calm k : calm (repeat " "%char k).
Proof. apply calm_all. induction k as [|k IH]; [reflexivity|]. exact IH. Qed.

Lemma parser_calm f :
  (forall s, clean s -> takes s (p_expr f s)) /\ (forall s, clean s -> takes s (p_atom f s)) /\
  (forall close s, closes close -> clean s -> takes s (p_items f close s)).
Proof.
  induction f as [|f (IHe & IHa & IHi)]; [repeat split; discriminate|]. split; [|split].
  - intros s CL. cbn [p_expr]. pose proof (IHa s CL) as A. destruct (p_atom f s) as [[a [|c r]]|]; [|destruct (Ascii.eqb_spec c "*") as [->|_]|]; try exact A.
    destruct (A _ _ eq_refl) as (w & -> & W). apply clean_app in CL. destruct CL as [_ CL]. apply clean_cons in CL. destruct CL as [_ CL].
    pose proof (IHa r CL) as B. destruct (p_atom f r) as [[b r']|]; [|discriminate]. destruct (B _ _ eq_refl) as (v & -> & V). intros x y E. injection E as <- <-.
    exists (w ++ "*"%char :: v). split; [rewrite <- app_assoc; reflexivity|]. apply calm_app; [exact W|]. apply calm_char; [reflexivity..|exact V].
  - intros s CL. cbn [p_atom]. destruct s as [|c r]; [discriminate|]. pose proof (clean_cons _ _ CL) as [M CR].
    destruct (Ascii.eqb_spec c "-") as [->|_].
    { pose proof (IHa r CR) as A. destruct (p_atom f r) as [[e r']|]; [|discriminate]. destruct (A _ _ eq_refl) as (w & -> & W). intros x y E. injection E as <- <-.
      exists ("-"%char :: w). split; [reflexivity|]. apply calm_char; [reflexivity..|exact W]. }
    destruct (Ascii.eqb_spec c "(") as [->|_].
    { pose proof (IHi ")"%char r (or_introl eq_refl) CR) as A. destruct (p_items f ")" r) as [[[l t] r']|]; [|discriminate]. destruct (A _ _ eq_refl) as (w & -> & W).
      intros x y E. assert (y = r') as -> by (destruct l as [|? [|? ?]]; destruct t; congruence).
      exists ("("%char :: w). split; [reflexivity|]. apply calm_char; [reflexivity..|exact W]. }
    destruct (Ascii.eqb_spec c "[") as [->|_].
    { pose proof (IHi "]"%char r (or_intror eq_refl) CR) as A. destruct (p_items f "]" r) as [[[l t] r']|]; [|discriminate]. destruct (A _ _ eq_refl) as (w & -> & W).
      intros x y E. injection E as <- <-. exists ("["%char :: w). split; [reflexivity|]. apply calm_char; [reflexivity..|exact W]. }
    destruct (Ascii.eqb_spec c "'") as [->|_]; [apply p_str_takes|]. destruct (is_digit c); [apply p_number_takes|]. destruct (is_letter c); [|discriminate].
    pose proof (span_spec is_ident (c :: r)) as S. destruct (span is_ident (c :: r)) as [n r0]. destruct S as [S N]. apply ident_calm in N. rewrite S in *. clear S.
    apply clean_app in CL. destruct CL as [_ CL].
    destruct r0 as [|d r0]; [intros x y E; injection E as <- <-; eauto|]. pose proof (clean_cons _ _ CL) as [MD CD].
    destruct (Ascii.eqb_spec d "(") as [->|_].
    { pose proof (IHi ")"%char r0 (or_introl eq_refl) CD) as A. destruct (p_items f ")" r0) as [[[l t] r']|]; [|discriminate]. destruct (A _ _ eq_refl) as (w & -> & W).
      intros x y E. injection E as <- <-. exists (n ++ "("%char :: w). split; [rewrite <- app_assoc; reflexivity|]. apply calm_app; [exact N|]. apply calm_char; [reflexivity..|exact W]. }
    destruct (Ascii.eqb_spec d "'") as [->|_].
    + cbn [orb]. destruct (list_eq_dec _ _ _); [|discriminate]. destruct (p_bytes "'" r0) as [[b r']|] eqn:P; [|discriminate]. intros x y E. injection E as <- <-.
      destruct (p_bytes_quoted _ _ _ CD P) as (t & -> & T). exists (n ++ "'"%char :: t ++ ["'"%char]). split; [rewrite <- app_assoc; cbn [app]; rewrite <- app_assoc; reflexivity|].
      apply calm_app; [exact N|]. apply quoted_calm; [exact T|apply calm_nil].
    + destruct (Ascii.eqb_spec d """") as [->|_]; [discriminate MD|]. cbn [orb]. intros x y E. injection E as <- <-. eauto.
  - intros close s K CL. assert (KC : Ascii.eqb close "'" = false /\ Ascii.eqb close "<" = false) by (destruct K; subst; split; reflexivity). destruct KC as [K1 K2].
    cbn [p_items]. destruct s as [|c r]; [discriminate|].
    destruct (Ascii.eqb_spec c close) as [->|_]; [intros x y E; injection E as <- <-; exists [close]; split; [reflexivity|]; apply calm_char; [assumption..|apply calm_nil]|].
    pose proof (IHe _ CL) as A. destruct (p_expr f (c :: r)) as [[e [|d r']]|]; try discriminate. destruct (A _ _ eq_refl) as (w & S & W). rewrite S in *. clear S A.
    apply clean_app in CL. destruct CL as [_ CL]. pose proof (clean_cons _ _ CL) as [MD CD].
    destruct (Ascii.eqb_spec d close) as [->|_].
    { intros x y E. injection E as <- <-. exists (w ++ [close]). split; [rewrite <- app_assoc; reflexivity|]. apply calm_app; [exact W|]. apply calm_char; [assumption..|apply calm_nil]. }
    destruct (Ascii.eqb_spec d ",") as [->|_]; [|discriminate]. destruct (skip_spec r') as (k & SK). set (u := skip_spaces r') in *. clearbody u. subst r'.
    apply clean_app in CD. destruct CD as [_ CU].
    destruct u as [|h u]; [discriminate|]. destruct (Ascii.eqb_spec h close) as [->|_].
    { intros x y E. injection E as <- <-. exists (w ++ ","%char :: repeat " "%char k ++ [close]). split; [rewrite <- app_assoc; cbn [app]; rewrite <- app_assoc; reflexivity|].
      apply calm_app; [exact W|]. apply calm_char; [reflexivity..|]. apply calm_app; [apply spaces_calm|]. apply calm_char; [assumption..|apply calm_nil]. }
    pose proof (IHi close (h :: u) K CU) as B. destruct (p_items f close (h :: u)) as [[[l t] r2]|]; [|discriminate]. destruct (B _ _ eq_refl) as (v & S & V). rewrite S.
    intros x y E. injection E as <- <-. exists (w ++ ","%char :: repeat " "%char k ++ v). split; [rewrite <- app_assoc; cbn [app]; rewrite <- app_assoc; reflexivity|].
    apply calm_app; [exact W|]. apply calm_char; [reflexivity..|]. apply calm_app; [apply spaces_calm|exact V].
Qed.

Lemma bare_not_read s : clean s -> bare false s = true -> read s = None.
Proof.
  intros C B. unfold read. destruct (p_expr _ s) as [[e [|c r]]|] eqn:E; try reflexivity.
  destruct (proj1 (parser_calm _) s C _ _ E) as (w & S & _ & W). rewrite app_nil_r in S. subst. congruence.
Qed.

(** ** Printed pieces *)

(** Quotes come in pairs, with no double quote or backslash. *)
Definition tidy (s : text) : Prop := clean s /\ inside false s = false.
Lemma tidy_app a b : tidy a -> tidy b -> tidy (a ++ b).
Proof. intros [A1 A2] [B1 B2]. split; [unfold clean; rewrite forallb_app, A1; exact B1|rewrite inside_app, A2; exact B2]. Qed.
Definition loud (s : text) : Prop := tidy s /\ bare false s = true.
Lemma loud_l a b : loud a -> tidy b -> loud (a ++ b).
Proof. intros [A1 A2] B. split; [apply tidy_app; assumption|]. rewrite bare_app, A2. reflexivity. Qed.
Lemma loud_r a b : tidy a -> loud b -> loud (a ++ b).
Proof. intros A [B1 B2]. split; [apply tidy_app; assumption|]. rewrite bare_app, (proj2 A), B2. apply orb_true_r. Qed.

Lemma tidy_all s : forallb (fun c => (mild c && negb (Ascii.eqb c "'"))%bool) s = true -> tidy s.
Proof.
  induction s as [|c s IH]; [split; reflexivity|]. cbn [forallb]. intros H. apply andb_prop in H. destruct H as [C H]. apply andb_prop in C. destruct C as [C1 C2].
  apply negb_true_iff in C2. destruct (IH H) as [A B]. split; [unfold clean; cbn [forallb]; rewrite C1; exact A|]. cbn [inside]. rewrite C2. exact B.
Qed.
Ltac tidy_chars := let C := fresh "C" in intros c C; unfold mild; destruct (Ascii.eqb_spec c """") as [E|_]; [subst; discriminate C|];
  destruct (Ascii.eqb_spec c "\") as [E|_]; [subst; discriminate C|]; destruct (Ascii.eqb_spec c "'") as [E|_]; [subst; discriminate C|reflexivity].
Lemma tidy_ident s : forallb is_ident s = true -> tidy s.
Proof. intros H. apply tidy_all. revert H. apply forallb_weaken. tidy_chars. Qed.
Lemma tidy_hex s : forallb is_hex s = true -> tidy s.
Proof. intros H. apply tidy_all. revert H. apply forallb_weaken. tidy_chars. Qed.
Lemma tidy_digits s : forallb is_digit s = true -> tidy s.
Proof. intros H. apply tidy_all. revert H. apply forallb_weaken. tidy_chars. Qed.

Lemma tidy_nonneg z : (0 <= z)%Z -> tidy (fmt_i z).
Proof. intros H. destruct (fmt_i_spec z H) as (N & _). apply number_value in N. apply tidy_digits, N. Qed.
Lemma tidy_fmt_i z : tidy (fmt_i z).
Proof.
  destruct (Z.ltb_spec z 0) as [L|L]; [|apply tidy_nonneg, L].
  assert (fmt_i z = ["-"%char] ++ fmt_i (- z)) as ->.
  { unfold fmt_i. destruct (z <? 0)%Z eqn:E; [|lia]. destruct (- z <? 0)%Z eqn:F; [lia|]. replace (Z.abs_N (- z)) with (Z.abs_N z) by lia. reflexivity. }
  apply tidy_app; [split; reflexivity|apply tidy_nonneg; lia].
Qed.
Lemma tidy_fmt_x z : tidy (fmt_x z).
Proof.
  destruct (Z.ltb_spec z 0) as [L|L]; [|apply tidy_hex, fmt_x_spec, L].
  assert (fmt_x z = ["-"%char] ++ fmt_x (- z)) as ->.
  { unfold fmt_x. destruct (z <? 0)%Z eqn:E; [|lia]. destruct (- z <? 0)%Z eqn:F; [lia|]. replace (Z.abs_N (- z)) with (Z.abs_N z) by lia. reflexivity. }
  apply tidy_app; [split; reflexivity|apply tidy_hex, fmt_x_spec; lia].
Qed.
Lemma to_hex_hex b : forallb is_hex (T (to_hex b)) = true.
Proof.
  unfold T. induction b as [|y b IH]; [reflexivity|]. cbn [to_hex list_ascii_of_string forallb]. rewrite IH. unfold is_hex. pose proof (bN_lt y).
  rewrite !hexdigit_hex; [reflexivity|apply N.mod_lt; lia|apply N.div_lt_upper_bound; lia].
Qed.
Lemma tidy_quoted a b t : clean a -> inside false a = true -> clean b -> inside true b = false -> forallb is_hex t = true -> tidy (a ++ t ++ b).
Proof.
  intros A1 A2 B1 B2 H. pose proof (tidy_hex t H) as [C _]. split; [unfold clean; rewrite !forallb_app, A1, C; exact B1|].
  rewrite !inside_app, A2. enough (inside true t = true) as -> by exact B2.
  clear C. induction t as [|c t IH]; [reflexivity|]. cbn [forallb] in H. apply andb_prop in H. destruct H as [X H]. cbn [inside].
  destruct (Ascii.eqb_spec c "'") as [E|_]; [subst; discriminate X|exact (IH H)].
Qed.

Lemma tidy_join sep l : tidy sep -> Forall tidy l -> tidy (join sep l).
Proof.
  intros S. induction 1 as [|a l A H IH]; [split; reflexivity|]. destruct l as [|b l]; [exact A|]. cbn [join]. apply tidy_app; [exact A|]. apply tidy_app; [exact S|exact IH].
Qed.
Lemma loud_join sep l : tidy sep -> Forall tidy l -> Exists loud l -> loud (join sep l).
Proof.
  intros S F. induction 1 as [a l A|a l H IH]; inversion F as [|x y Ta Fl]; subst.
  - destruct l as [|b l]; [exact A|]. cbn [join]. apply loud_l; [exact A|]. apply tidy_app; [exact S|]. apply (tidy_join sep (b :: l)); assumption.
  - destruct l as [|b l]; [inversion H|]. cbn [join]. apply loud_r; [exact Ta|]. apply loud_r; [exact S|]. apply IH, Fl.
Qed.

Ltac lit := split; reflexivity.

Lemma tidy_op n : (n < 256)%N -> tidy (op_repr n).
Proof.
  intros N. unfold op_repr. destruct (op_name n) as [s|] eqn:E; [|apply tidy_app; [lit|]; apply tidy_app; [apply tidy_fmt_x|lit]].
  unfold op_name in E. destruct (find _ OPCODE_NAMES) as [e|] eqn:F; [|discriminate]. injection E as <-. apply find_some in F. destruct F as [F _].
  apply tidy_ident. assert (A : forallb (fun e => forallb is_ident (T (snd e))) OPCODE_NAMES = true) by (vm_compute; reflexivity).
  rewrite forallb_forall in A. apply A, F.
Qed.
Lemma tidy_item c : wf_cooked c -> tidy (item_repr c).
Proof.
  destruct c as [d|z|n]; cbn [item_repr wf_cooked]; intros W; [|apply tidy_fmt_i|apply tidy_op; lia].
  apply tidy_quoted; try reflexivity. apply to_hex_hex.
Qed.
Lemma tidy_push n : tidy (push_name n).
Proof.
  unfold push_name. destruct (n <? 76)%N; [apply tidy_app; [lit|]; apply tidy_app; [apply tidy_fmt_i|lit]|].
  destruct (n =? 76)%N; [lit|]. destruct (n =? 77)%N; lit.
Qed.
Lemma loud_error f : forall s e, script_error f s = Some e -> loud e.
Proof.
  induction f as [|f IH]; intros s e; [discriminate|]. destruct s as [|b s]; [discriminate|]. cbn [script_error]. destruct (78 <? bN b)%N; [apply IH|].
  destruct (push_size (bN b) s) as [[[l h] s2]|x]; [destruct (blen s2 <? l)%N; [|apply IH]|].
  - intros H; match type of H with Some ?x = _ => enough (loud x) by congruence end; clear H. apply loud_r; [apply tidy_quoted; try reflexivity; apply to_hex_hex|]. apply loud_l; [split; [lit|reflexivity]|]. apply tidy_app; [apply tidy_push|lit].
  - intros H; match type of H with Some ?x = _ => enough (loud x) by congruence end; clear H. apply loud_l; [split; [lit|reflexivity]|]. apply tidy_app; [apply tidy_push|lit].
Qed.

Lemma script_items s : Forall wf_cooked (fst (script_iter s)).
Proof. destruct (script_iter s) as [ops e] eqn:E. apply (iter_wf _ _ _ E). Qed.
Lemma tidy_items s : Forall tidy (map item_repr (fst (script_iter s)) ++ match script_error (S (List.length s)) s with Some e => [e] | None => [] end).
Proof.
  apply Forall_app. split.
  - apply Forall_map. eapply Forall_impl; [|apply script_items]. apply tidy_item.
  - destruct (script_error _ _) as [e|] eqn:E; [|constructor]. constructor; [|constructor]. apply (loud_error _ _ _ E).
Qed.
Lemma tidy_script s : tidy (script_repr s).
Proof. unfold script_repr. apply tidy_app; [lit|]. apply tidy_app; [|lit]. apply tidy_join; [lit|apply tidy_items]. Qed.

Lemma parses_iff s : parses s <-> script_error (S (List.length s)) s = None.
Proof.
  split; [intros [ops H]; apply (parses_no_error s ops H)|]. intros H. apply (error_iff _ 0%nat) in H; [|lia]. unfold parses, has_ops, script_iter, raw_iter.
  destruct (raw_iter_loop (S (List.length s)) 0 s) as [l e]. cbn [snd] in H. subst. eauto.
Qed.
Lemma loud_script s : ~ parses s -> loud (script_repr s).
Proof.
  intros N. unfold script_repr. apply loud_r; [lit|]. apply loud_l; [|lit]. apply loud_join; [lit|apply tidy_items|]. apply Exists_app. right.
  destruct (script_error _ _) as [e|] eqn:E; [|exfalso; apply N, parses_iff, E]. constructor. apply (loud_error _ _ _ E).
Qed.

Lemma tidy_outpoint o : tidy (outpoint_repr o).
Proof.
  unfold outpoint_repr. destruct (outpoint_is_null o); [lit|].
  change (T "'), " ++ fmt_i (o_n o) ++ T ")") with (T "')" ++ T ", " ++ fmt_i (o_n o) ++ T ")").
  rewrite (app_assoc (T (b2lx (o_hash o)))), (app_assoc (T "COutPoint(lx('")). apply tidy_app; [apply tidy_quoted; try reflexivity; apply to_hex_hex|].
  apply tidy_app; [lit|]. apply tidy_app; [apply tidy_fmt_i|lit].
Qed.
Lemma tidy_txin i : tidy (txin_repr i).
Proof.
  unfold txin_repr. apply tidy_app; [lit|]. apply tidy_app; [apply tidy_outpoint|]. apply tidy_app; [lit|]. apply tidy_app; [apply tidy_script|]. apply tidy_app; [lit|].
  apply tidy_app; [apply tidy_fmt_x|lit].
Qed.
Lemma loud_txin i : ~ parses (i_scriptSig i) -> loud (txin_repr i).
Proof.
  intros N. unfold txin_repr. apply loud_r; [lit|]. apply loud_r; [apply tidy_outpoint|]. apply loud_r; [lit|]. apply loud_l; [apply loud_script, N|]. apply tidy_app; [lit|].
  apply tidy_app; [apply tidy_fmt_x|lit].
Qed.

Lemma txout_text o : exists a, txout_repr o = Ok (T "CTxOut(" ++ a ++ T ", " ++ script_repr (o_scriptPubKey o) ++ T ")") /\ tidy a.
Proof.
  unfold txout_repr. destruct (0 <=? o_nValue o)%Z eqn:E; [|exists (fmt_i (o_nValue o)); split; [reflexivity|apply tidy_fmt_i]].
  destruct (money_shape (o_nValue o)) as (fp & -> & _ & C). cbn [bind]. exists ((fmt_i (o_nValue o / 10 ^ 8) ++ "."%char :: fp) ++ T "*COIN"). split.
  - f_equal. f_equal. rewrite <- !app_assoc. reflexivity.
  - apply tidy_app; [|lit]. apply tidy_app; [apply tidy_fmt_i|]. change ("."%char :: fp) with (["."%char] ++ fp). apply tidy_app; [lit|].
    destruct C as [[-> _]|(_ & _ & _ & b & B & _)]; [lit|]. apply number_value in B. apply tidy_digits, B.
Qed.
Lemma tidy_txout o s : txout_repr o = Ok s -> tidy s /\ (~ parses (o_scriptPubKey o) -> loud s).
Proof.
  destruct (txout_text o) as (a & -> & A). intros H. match type of H with Ok ?x = _ => assert (s = x) as -> by congruence end; clear H. split.
  - apply tidy_app; [lit|]. apply tidy_app; [exact A|]. apply tidy_app; [lit|]. apply tidy_app; [apply tidy_script|lit].
  - intros N. apply loud_r; [lit|]. apply loud_r; [exact A|]. apply loud_r; [lit|]. apply loud_l; [apply loud_script, N|lit].
Qed.

Lemma tidy_many c l : Forall tidy l -> tidy (match c with Imm => tuple_repr | Mut => list_repr end l).
Proof.
  intros F. assert (J : tidy (join (T ", ") l)) by (apply tidy_join; [lit|exact F]). destruct c.
  - unfold tuple_repr. destruct l as [|a [|b l]]; [lit| |]; (apply tidy_app; [lit|]; apply tidy_app; [exact J|lit]).
  - unfold list_repr. apply tidy_app; [lit|]. apply tidy_app; [exact J|lit].
Qed.
Lemma loud_many c l : Forall tidy l -> Exists loud l -> loud (match c with Imm => tuple_repr | Mut => list_repr end l).
Proof.
  intros F X. assert (J : loud (join (T ", ") l)) by (apply loud_join; [lit|exact F|exact X]). destruct c.
  - unfold tuple_repr. destruct l as [|a [|b l]]; [inversion X| |]; (apply loud_r; [lit|]; apply loud_l; [exact J|lit]).
  - unfold list_repr. apply loud_r; [lit|]. apply loud_l; [exact J|lit].
Qed.

Lemma outputs_text l : exists ss, mapM txout_repr l = Ok ss /\ Forall tidy ss /\ (Exists (fun o => ~ parses (o_scriptPubKey o)) l -> Exists loud ss).
Proof.
  induction l as [|o l (ss & A & B & C)]; [exists []; repeat split; [constructor|intros H; inversion H]|].
  destruct (txout_text o) as (a & E & _). destruct (tidy_txout o _ E) as [D F]. cbn [mapM]. rewrite E. cbn [bind]. rewrite A. cbn [bind]. eexists. split; [reflexivity|].
  split; [constructor; assumption|]. intros H. inversion H as [x y N|x y N]; subst; [apply Exists_cons_hd, F, N|apply Exists_cons_tl, C, N].
Qed.

Lemma parses_dec s : {parses s} + {~ parses s}.
Proof. destruct (script_error (S (List.length s)) s) eqn:E; [right|left]; [intros P; apply parses_iff in P; congruence|apply parses_iff, E]. Qed.

Lemma tx_not_read pr c t : ~ Forall parses (scripts t) -> exists s, tx_repr c t = Ok s /\ python pr s = None.
Proof.
  intros N. apply (neg_Forall_Exists_neg parses_dec) in N. unfold scripts in N. apply Exists_app in N. rewrite !Exists_map in N.
  destruct (outputs_text (t_vout t)) as (ss & A & B & C). unfold tx_repr. rewrite A. cbn [bind]. eexists. split; [reflexivity|].
  assert (I : Forall tidy (map txin_repr (t_vin t))) by (apply Forall_map, Forall_forall; intros i _; apply tidy_txin).
  assert (R : tidy (T ", " ++ fmt_i (t_nLockTime t) ++ T ", " ++ fmt_i (t_nVersion t) ++ T ")")).
  { apply tidy_app; [lit|]. apply tidy_app; [apply tidy_fmt_i|]. apply tidy_app; [lit|]. apply tidy_app; [apply tidy_fmt_i|lit]. }
  unfold python. rewrite bare_not_read; [reflexivity| |];
  (match goal with |- clean ?s => enough (loud s) as [[X _] _] by exact X | |- bare false ?s = true => enough (loud s) as [_ X] by exact X end);
  (apply loud_r; [lit|]; destruct N as [N|N]; [apply loud_l; [apply loud_many; [exact I|]|apply tidy_app; [lit|]; apply tidy_app; [apply tidy_many, B|exact R]]|
    apply loud_r; [apply tidy_many, I|]; apply loud_r; [lit|]; apply loud_l; [apply loud_many; [exact B|apply C, N]|exact R]]);
  apply Exists_map; (eapply Exists_impl; [|exact N]); intros i; apply loud_txin.
Qed.
