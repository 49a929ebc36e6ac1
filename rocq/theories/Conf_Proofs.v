(** Proofs about Conf_Model.v. *)
From Verif Require Import Base Base58_Model Money_Model Money_Spec Money_Proofs Rpc_Model Rpc_Spec Rpc_Proofs Conf_Model Conf_Spec.
From Coq Require Import ZifyBool ZifyNat ZifyN.
#[local] Open Scope list_scope.

(** ** Texts *)

Lemma white_space c : white c <-> is_space c = true.
Proof.
  unfold white, is_space, code. pose proof (N_ascii_bounded c) as B. generalize (N_of_ascii c). intros n. cbn [In]. split.
  - intros H. lia.
  - intros H. lia.
Qed.
Lemma drop_while_spec p s : exists a, s = a ++ drop_while p s /\ Forall (fun c => p c = true) a /\ forall c r, drop_while p s = c :: r -> p c = false.
Proof.
  induction s as [|c s (a & E & F & H)]; cbn [drop_while]; [exists []; repeat split; auto; discriminate|].
  destruct (p c) eqn:P; [|exists []; repeat split; auto; congruence].
  exists (c :: a). cbn [app]. rewrite <- E. repeat split; auto.
Qed.
Lemma drop_while_all p a s : Forall (fun c => p c = true) a -> (forall c r, s = c :: r -> p c = false) -> drop_while p (a ++ s) = s.
Proof.
  intros F H. induction F as [|c a C F IH]; cbn [app drop_while]; [|rewrite C; exact IH].
  destruct s as [|c s]; [reflexivity|]. cbn [drop_while]. rewrite (H c s eq_refl). reflexivity.
Qed.
Lemma strip_ok s t : stripped s t -> strip s = t.
Proof.
  intros (a & b & -> & A & B & H1 & H2). unfold strip.
  assert (Forall (fun c => is_space c = true) a) as A' by (eapply Forall_impl; [|exact A]; intros c W; apply white_space, W).
  assert (Forall (fun c => is_space c = true) b) as B' by (eapply Forall_impl; [|exact B]; intros c W; apply white_space, W).
  destruct t as [|x t].
  - cbn [app]. replace (drop_while is_space (a ++ b)) with (@nil ascii); [reflexivity|]. symmetry. rewrite <- (app_nil_r (a ++ b)). apply drop_while_all; [|discriminate].
    apply Forall_app. split; assumption.
  - rewrite drop_while_all; [|exact A'|].
    2: { intros c r E. cbn in E. inversion E; subst. destruct (is_space c) eqn:Q; [|reflexivity]. exfalso. apply (H1 c t eq_refl). apply white_space, Q. }
    rewrite rev_app_distr. rewrite drop_while_all; [apply rev_involutive| |].
    + apply Forall_rev. exact B'.
    + intros c r E. destruct (is_space c) eqn:Q; [|reflexivity]. exfalso. apply (H2 c (rev r)); [|apply white_space, Q].
      rewrite <- (rev_involutive (x :: t)), E. reflexivity.
Qed.
Lemma strip_is s : stripped s (strip s).
Proof.
  unfold strip. destruct (drop_while_spec is_space s) as (a & E1 & F1 & H1). set (u := drop_while is_space s) in *.
  destruct (drop_while_spec is_space (rev u)) as (b & E2 & F2 & H2). set (w := drop_while is_space (rev u)) in *.
  assert (u = rev w ++ rev b) as E3. { rewrite <- rev_app_distr, <- E2, rev_involutive. reflexivity. }
  exists a, (rev b). split; [rewrite <- E3; exact E1|]. split; [|split; [|split]].
  - eapply Forall_impl; [|exact F1]. intros c W. apply white_space, W.
  - apply Forall_rev. eapply Forall_impl; [|exact F2]. intros c W. apply white_space, W.
  - intros c r E W. apply white_space in W. rewrite E in E3. cbn [app] in E3. rewrite (H1 c _ E3) in W. discriminate.
  - intros c r E W. apply white_space in W. assert (w = c :: rev r) as Ew. { rewrite <- (rev_involutive w), E, rev_app_distr. reflexivity. }
    rewrite (H2 c _ Ew) in W. discriminate.
Qed.
Lemma strip_iff s t : strip s = t <-> stripped s t.
Proof. split; [intros <-; apply strip_is|apply strip_ok]. Qed.

Lemma partition_some c s a b : partition c s = Some (a, b) <-> s = a ++ c :: b /\ ~ In c a.
Proof.
  split.
  - revert a b. induction s as [|x s IH]; intros a b; cbn [partition]; [discriminate|]. destruct (Ascii.eqb_spec x c) as [->|N].
    + intros H; inversion H; subst. split; [reflexivity|intros []].
    + destruct (partition c s) as [[a' b']|]; [|discriminate]. intros H; inversion H; subst. destruct (IH a' b eq_refl) as [-> I]. split; [reflexivity|]. intros [E|E]; [congruence|exact (I E)].
  - intros [-> I]. induction a as [|x a IH]; cbn [app partition].
    + rewrite Ascii.eqb_refl. reflexivity.
    + cbn in I. destruct (Ascii.eqb_spec x c) as [->|N]; [tauto|]. rewrite IH by tauto. reflexivity.
Qed.
Lemma partition_none c s : partition c s = None <-> ~ In c s.
Proof.
  split.
  - intros H I. apply in_split in I. destruct I as (a & b & ->). induction a as [|x a IH]; cbn [app partition] in H.
    + rewrite Ascii.eqb_refl in H. discriminate.
    + destruct (Ascii.eqb x c); [discriminate|]. apply IH. destruct (partition c (a ++ c :: b)) as [[u v]|]; [discriminate|reflexivity].
  - intros I. destruct (partition c s) as [[a b]|] eqn:E; [|reflexivity]. exfalso. apply I. apply partition_some in E as [-> _]. apply in_elt.
Qed.
Lemma rpartition_some c s a b : s = a ++ c :: b -> ~ In c b -> rpartition c s = Some (a, b).
Proof.
  intros -> I. unfold rpartition. rewrite rev_app_distr. cbn [rev]. rewrite <- app_assoc. cbn [app].
  rewrite (proj2 (partition_some c (rev b ++ c :: rev a) (rev b) (rev a))); [rewrite !rev_involutive; reflexivity|]. split; [reflexivity|]. rewrite <- in_rev. exact I.
Qed.
Lemma rpartition_none c s : ~ In c s -> rpartition c s = None.
Proof. intros I. unfold rpartition. rewrite (proj2 (partition_none c (rev s))); [reflexivity|]. rewrite <- in_rev. exact I. Qed.
Lemma has_in c s : has c s = true <-> In c s.
Proof. unfold has. rewrite existsb_exists. split; [intros (x & I & E); apply Ascii.eqb_eq in E; subst; exact I|]. intros I. exists c. split; [exact I|apply Ascii.eqb_refl]. Qed.
Lemma has_not c s : ~ In c s -> has c s = false.
Proof. intros I. destruct (has c s) eqn:H; [|reflexivity]. apply has_in in H. tauto. Qed.
Lemma txt_string k : txt k = list_ascii_of_string k. Proof. reflexivity. Qed.
Lemma text_of s : list_ascii_of_string (string_of_list_ascii s) = s. Proof. apply list_ascii_of_string_of_list_ascii. Qed.
Lemma is_text_iff s l : is_text s l = true <-> s = txt l.
Proof.
  unfold is_text, txt. rewrite String.eqb_eq. split; [intros <-; symmetry; apply text_of|intros ->; apply string_of_list_ascii_of_string].
Qed.

(** ** Lines and settings *)

Lemma code_lf c : (code c =? 10)%N = true <-> c = LF.
Proof. unfold code, LF. rewrite N.eqb_eq. split; [intros E; rewrite <- (ascii_N_embedding c), E; reflexivity|intros ->; reflexivity]. Qed.
Lemma code_cr c : (code c =? 13)%N = true <-> c = CR.
Proof. unfold code, CR. rewrite N.eqb_eq. split; [intros E; rewrite <- (ascii_N_embedding c), E; reflexivity|intros ->; reflexivity]. Qed.
Lemma not_lf c : c <> LF -> (code c =? 10)%N = false.
Proof. intros N. destruct (code c =? 10)%N eqn:E; [apply code_lf in E; contradiction|reflexivity]. Qed.
Lemma not_cr c : c <> CR -> (code c =? 13)%N = false.
Proof. intros N. destruct (code c =? 13)%N eqn:E; [apply code_cr in E; contradiction|reflexivity]. Qed.
Lemma read_lines_plain l : forall b cur s, ~ In LF l -> ~ In CR l ->
  read_lines b cur (l ++ s) = read_lines (b && match l with [] => true | _ => false end) (rev l ++ cur) s.
Proof.
  induction l as [|c l IH]; intros b cur s A B; cbn [app rev]; [rewrite Bool.andb_true_r; reflexivity|]. cbn [In] in A, B. cbn [read_lines].
  rewrite not_lf by (intros ->; tauto). rewrite not_cr by (intros ->; tauto). rewrite IH by tauto. rewrite Bool.andb_false_r. cbn [andb].
  rewrite <- app_assoc. reflexivity.
Qed.
Lemma read_lines_cr s : (forall r, s <> LF :: r) -> read_lines true [] s = read_lines false [] s.
Proof.
  intros H. destruct s as [|c s]; [reflexivity|]. cbn [read_lines]. rewrite not_lf; [reflexivity|]. intros ->. apply (H s). reflexivity.
Qed.
Lemma read_lines_lf b cur s : read_lines b cur (LF :: s) = if b then read_lines false [] s else rev cur :: read_lines false [] s. Proof. reflexivity. Qed.
Lemma read_lines_CR b cur s : read_lines b cur (CR :: s) = rev cur :: read_lines true [] s. Proof. reflexivity. Qed.
Lemma lines_read s ls : lines_of s ls -> read_lines false [] s = ls.
Proof.
  induction 1 as [l A B|l r ls A B L IH|l r ls A B L IH|l r ls A B N L IH].
  - rewrite <- (app_nil_r l) at 1. rewrite read_lines_plain by assumption. cbn [read_lines]. rewrite app_nil_r, rev_involutive. reflexivity.
  - rewrite read_lines_plain by assumption. rewrite app_nil_r, read_lines_lf. cbn [andb]. rewrite rev_involutive, IH. reflexivity.
  - rewrite read_lines_plain by assumption. rewrite app_nil_r, read_lines_CR, read_lines_lf, rev_involutive, IH. reflexivity.
  - rewrite read_lines_plain by assumption. rewrite app_nil_r, read_lines_CR, read_lines_cr, rev_involutive, IH by assumption. reflexivity.
Qed.
Lemma first_end s : (~ In LF s /\ ~ In CR s) \/ exists l c r, s = l ++ c :: r /\ (c = LF \/ c = CR) /\ ~ In LF l /\ ~ In CR l.
Proof.
  induction s as [|x s IH]; [left; split; intros []|]. destruct (ascii_dec x LF) as [->|N1]; [right; exists [], LF, s; repeat split; auto|].
  destruct (ascii_dec x CR) as [->|N2]; [right; exists [], CR, s; repeat split; auto|].
  destruct IH as [[A B]|(l & c & r & -> & C & A & B)]; [left; split; intros [E|E]; congruence || tauto|].
  right. exists (x :: l), c, r. repeat split; auto; intros [E|E]; congruence || tauto.
Qed.
Lemma lines_exist s : exists ls, lines_of s ls.
Proof.
  remember (length s) as n eqn:L. assert (length s <= n)%nat as Le by lia. clear L. revert s Le. induction n as [|n IH]; intros s Le.
  { destruct s; [|cbn in Le; lia]. exists [[]]. constructor; intros []. }
  destruct (first_end s) as [[A B]|(l & c & r & -> & C & A & B)]; [exists [s]; constructor; assumption|].
  rewrite app_length in Le. cbn [length] in Le. destruct C as [->| ->].
  - destruct (IH r) as [ls H]; [lia|]. exists (l :: ls). apply lines_lf; assumption.
  - destruct r as [|x r]; [destruct (IH []) as [ls H]; [cbn; lia|]; exists (l :: ls); apply lines_cr; auto; discriminate|].
    destruct (ascii_dec x LF) as [->|N].
    + destruct (IH r) as [ls H]; [cbn [length] in Le; lia|]. exists (l :: ls). apply lines_crlf; assumption.
    + destruct (IH (x :: r)) as [ls H]; [lia|]. exists (l :: ls). apply lines_cr; auto. intros r' E. inversion E. contradiction.
Qed.

Definition cut (line : text) : text := match partition "#" line with Some (a, _) => a | None => line end.
Lemma cut_iff line s : uncommented line s <-> cut line = s.
Proof.
  unfold uncommented, cut. split.
  - intros [I [->|(r & ->)]].
    + rewrite (proj2 (partition_none _ _) I). reflexivity.
    + rewrite (proj2 (partition_some "#" (s ++ "#"%char :: r) s r)); auto.
  - intros <-. destruct (partition "#" line) as [[a b]|] eqn:E.
    + apply partition_some in E as [-> I]. split; [exact I|]. right. eauto.
    + apply partition_none in E. split; [exact E|left; reflexivity].
Qed.
Lemma sets_iff k line v : sets k line v <-> exists a b, partition "=" (cut line) = Some (a, b) /\ string_of_list_ascii (strip a) = k /\ strip b = v.
Proof.
  split.
  - intros (s & a & b & U & -> & I & A & B). apply cut_iff in U. exists a, b. rewrite U. split; [apply partition_some; auto|]. apply strip_ok in A, B. rewrite A, B.
    split; [apply string_of_list_ascii_of_string|reflexivity].
  - intros (a & b & P & K & V). apply partition_some in P as [E I]. exists (cut line), a, b. split; [apply cut_iff; reflexivity|]. split; [exact E|]. split; [exact I|]. split.
    + rewrite <- K, text_of. apply strip_is.
    + subst v. apply strip_is.
Qed.
Lemma conf_line_sets conf k line v : sets k line v -> dget k (conf_line conf line) = Some v.
Proof.
  intros S. apply sets_iff in S as (a & b & P & K & V). unfold conf_line. fold (cut line). rewrite P, dget_dset, K, V, String.eqb_refl. reflexivity.
Qed.
Lemma conf_line_other conf k line : (forall v, ~ sets k line v) -> dget k (conf_line conf line) = dget k conf.
Proof.
  intros S. unfold conf_line. fold (cut line). destruct (partition "=" (cut line)) as [[a b]|] eqn:P; [|reflexivity]. rewrite dget_dset.
  destruct (String.eqb_spec k (string_of_list_ascii (strip a))) as [E|N]; [|reflexivity]. exfalso. apply (S (strip b)). apply sets_iff. exists a, b. auto.
Qed.
Lemma fold_unset k ls : unset k ls -> forall conf, dget k (fold_left conf_line ls conf) = dget k conf.
Proof. induction 1 as [|l ls H F IH]; intros conf; cbn [fold_left]; [reflexivity|]. rewrite IH. apply conf_line_other, H. Qed.
Lemma fold_setting k ls v : setting k ls v -> forall conf, dget k (fold_left conf_line ls conf) = Some v.
Proof.
  intros (l1 & line & l2 & -> & S & F) conf. rewrite fold_left_app. cbn [fold_left]. rewrite (fold_unset k l2 F). apply conf_line_sets, S.
Qed.
Lemma sets_dec k line : (exists v, sets k line v) \/ (forall v, ~ sets k line v).
Proof.
  destruct (partition "=" (cut line)) as [[a b]|] eqn:P.
  - destruct (string_dec (string_of_list_ascii (strip a)) k) as [E|N].
    + left. exists (strip b). apply sets_iff. eauto.
    + right. intros v S. apply sets_iff in S as (a' & b' & P' & K & V). rewrite P in P'. inversion P'; subst. contradiction.
  - right. intros v S. apply sets_iff in S as (a' & b' & P' & K & V). congruence.
Qed.
Lemma set_or_unset k ls : (exists v, setting k ls v) \/ unset k ls.
Proof.
  induction ls as [|l ls IH]; [right; constructor|]. destruct IH as [(v & l1 & line & l2 & -> & S & F)|U].
  - left. exists v, (l :: l1), line, l2. auto.
  - destruct (sets_dec k l) as [[v S]|N]; [left; exists v, [], l, ls; auto|right; constructor; auto].
Qed.
Lemma read_conf_ok file ls : lines_of file ls -> ascii_text file -> read_conf file = Ok (fold_left conf_line ls []).
Proof.
  intros L A. unfold read_conf. rewrite (lines_read _ _ L). replace (existsb _ file) with false; [reflexivity|]. symmetry. clear L.
  induction A as [|c s C A IH]; [reflexivity|]. cbn [existsb]. rewrite IH. unfold code. lia.
Qed.

(** ** Numbers *)

Lemma digit_code c d : digit_value c = Some d -> is_digit c = true /\ (Z.of_N (code c) - 48)%Z = d.
Proof. unfold digit_value, is_digit, code. intros H. destruct (_ && _)%bool eqn:E in H; inversion H. lia. Qed.
Lemma int10_number u l v : number l v -> forall f acc r, int10 u f acc (l ++ r) = int10 u (f && match l with [] => true | _ => false end) (acc * 10 ^ Z.of_nat (List.length l) + v) r.
Proof.
  induction 1 as [|l c v d N IH D]; intros f acc r; cbn [app List.length].
  - rewrite Bool.andb_true_r. f_equal. change (Z.of_nat 0) with 0%Z. lia.
  - rewrite <- app_assoc. cbn [app]. rewrite IH. cbn [int10]. destruct (digit_code c d D) as [-> ->].
    replace (match l ++ [c] with [] => true | _ :: _ => false end) with false by (destruct l; reflexivity). rewrite Bool.andb_false_r. f_equal.
    rewrite app_length. cbn [List.length]. rewrite Nat2Z.inj_add. rewrite Z.pow_add_r by lia. change (10 ^ Z.of_nat 1)%Z with 10%Z. lia.
Qed.
Lemma int10_ok u l v : number l v -> l <> [] -> int10 u true 0 l = Some v.
Proof.
  intros N E. rewrite <- (app_nil_r l), (int10_number u l v N). destruct l as [|c l]; [contradiction|]. cbn [andb int10]. reflexivity.
Qed.
Lemma number_digits l v : number l v -> Forall (fun c => is_digit c = true) l.
Proof. intros N. eapply Forall_impl; [|exact (number_chars l v N)]. intros c D. destruct (digit_value c) as [d|] eqn:E; [apply (digit_code c d E)|contradiction]. Qed.
Lemma digit_not_white c : is_digit c = true -> ~ white c.
Proof. unfold is_digit, white, code. cbn [In]. lia. Qed.
Lemma strip_digits l : Forall (fun c => is_digit c = true) l -> strip l = l.
Proof.
  intros F. apply strip_ok. exists [], []. rewrite app_nil_r. split; [reflexivity|]. split; [constructor|]. split; [constructor|]. rewrite Forall_forall in F. split; intros c r ->; apply digit_not_white, F.
  - left; reflexivity.
  - apply in_elt.
Qed.
Lemma int_of_ok l v : number l v -> l <> [] -> int_of l = Ok v.
Proof.
  intros N E. pose proof (number_digits l v N) as F. unfold int_of. rewrite strip_digits by exact F. destruct l as [|c l]; [contradiction|]. inversion F as [|? ? D F']; subst.
  destruct (Ascii.eqb_spec c "-") as [->|N1]; [discriminate D|]. destruct (Ascii.eqb_spec c "+") as [->|N2]; [discriminate D|]. rewrite (int10_ok true _ v N E). reflexivity.
Qed.
Lemma fmt_neg z : (z < 0)%Z -> exists r, fmt_i z = "-"%char :: r.
Proof. intros H. unfold fmt_i. destruct (z <? 0)%Z eqn:E; [eauto|lia]. Qed.

(** ** Base64 *)

Lemma b64_char_ok n : (n < 64)%N -> digit64 (b64_char n) n.
Proof. intros H. unfold digit64, b64_char. fold alphabet64. apply nth_error_nth'. change (List.length alphabet64) with 64%nat. lia. Qed.
Lemma b64encode_ok s : base64 (b64encode s) s.
Proof.
  remember (List.length s) as n eqn:L. assert (List.length s <= n)%nat as Le by lia. clear L. revert s Le. induction n as [|n IH]; intros s Le.
  { destruct s; [constructor|cbn in Le; lia]. }
  destruct s as [|a [|b [|c s]]]; cbn [b64encode]; [constructor| | |].
  - pose proof (N_ascii_bounded a). unfold code in *. econstructor; try (apply b64_char_ok; unfold code; lia). lia.
  - pose proof (N_ascii_bounded a). pose proof (N_ascii_bounded b). econstructor; try (apply b64_char_ok; unfold code; lia). unfold code. lia.
  - pose proof (N_ascii_bounded a). pose proof (N_ascii_bounded b). pose proof (N_ascii_bounded c). econstructor; try (apply b64_char_ok; unfold code; lia).
    + unfold code. lia.
    + apply IH. cbn [List.length] in Le. lia.
Qed.
Lemma digit64_nodup : NoDup alphabet64.
Proof.
  assert (forall l : text, (fix nd l := match l with [] => true | x :: r => negb (has x r) && nd r end) l = true -> NoDup l) as H.
  { induction l as [|x l IH]; intros E; [constructor|]. apply andb_prop in E as [E1 E2]. constructor; [|apply IH, E2]. intros I. apply has_in in I. rewrite I in E1. discriminate. }
  apply H. vm_compute. reflexivity.
Qed.
Lemma digit64_fun c n m : digit64 c n -> digit64 c m -> n = m.
Proof.
  unfold digit64. intros A B. pose proof (proj1 (NoDup_nth_error alphabet64) digit64_nodup (N.to_nat n) (N.to_nat m)) as H.
  assert (N.to_nat n < List.length alphabet64)%nat by (apply nth_error_Some; rewrite A; discriminate). rewrite A, B in H. specialize (H ltac:(assumption) eq_refl). lia.
Qed.
Lemma digit64_pad n : ~ digit64 "=" n.
Proof. intros D. unfold digit64 in D. apply nth_error_In in D. apply has_in in D. vm_compute in D. discriminate. Qed.
Lemma code_inj a b : N_of_ascii a = N_of_ascii b -> a = b.
Proof. intros E. rewrite <- (ascii_N_embedding a), E. apply ascii_N_embedding. Qed.
Ltac digs := repeat match goal with
  | A : digit64 ?c ?n, B : digit64 ?c ?m |- _ => first [constr_eq n m; clear B | pose proof (digit64_fun c n m A B); subst m; clear B]
  | A : digit64 "=" _ |- _ => destruct (digit64_pad _ A)
  end.
Lemma base64_fun t s : base64 t s -> forall s', base64 t s' -> s = s'.
Proof.
  induction 1 as [|a c1 c2 n1 n2 D1 D2 E|a b c1 c2 c3 n1 n2 n3 D1 D2 D3 E|a b c t s c1 c2 c3 c4 n1 n2 n3 n4 D1 D2 D3 D4 E B IH]; intros s' B'; inversion B'; subst; digs.
  - reflexivity.
  - f_equal. apply code_inj. lia.
  - pose proof (N_ascii_bounded b). pose proof (N_ascii_bounded b0). assert (N_of_ascii a = N_of_ascii a0) by lia. assert (N_of_ascii b = N_of_ascii b0) by lia.
    f_equal; [apply code_inj; lia|]. f_equal. apply code_inj. lia.
  - pose proof (N_ascii_bounded b). pose proof (N_ascii_bounded b0). pose proof (N_ascii_bounded c). pose proof (N_ascii_bounded c0).
    assert (N_of_ascii a = N_of_ascii a0 /\ N_of_ascii b = N_of_ascii b0 /\ N_of_ascii c = N_of_ascii c0) as (Ea & Eb & Ec) by lia.
    apply code_inj in Ea, Eb, Ec. subst. f_equal. f_equal. f_equal. apply IH. assumption.
Qed.

(** ** URLs *)

Lemma same_word_lower s w : forallb (fun c => (97 <=? code c)%N && (code c <=? 122)%N || is_digit c)%bool w = true -> same_word s w -> lower s = w.
Proof.
  intros F H. induction H as [|c d s w C H IH]; [reflexivity|]. cbn [forallb] in F. apply andb_prop in F as [F1 F2]. unfold lower in *. cbn [map]. rewrite IH by exact F2. f_equal.
  unfold lower1, code, is_digit, code in *. destruct C as [->|[E B]].
  - destruct ((65 <=? N_of_ascii d) && (N_of_ascii d <=? 90))%N eqn:Q; [lia|reflexivity].
  - destruct ((65 <=? N_of_ascii c) && (N_of_ascii c <=? 90))%N eqn:Q; [|lia]. rewrite E. apply ascii_N_embedding.
Qed.
Lemma same_word_refl w : same_word w w.
Proof. induction w; constructor; auto. Qed.
Lemma lower_same_word s w : lower s = w -> same_word s w.
Proof.
  intros <-. induction s as [|c s IH]; [constructor|]. constructor; [|exact IH]. unfold lower1, code. destruct ((65 <=? N_of_ascii c) && (N_of_ascii c <=? 90))%N eqn:Q; [|left; reflexivity].
  right. rewrite N_ascii_embedding by lia. lia.
Qed.

Definition plain_char (c : ascii) : bool :=
  negb (has c (txt "/?#[]")) && negb ((code c =? 9) || (code c =? 13) || (code c =? 10))%N.
Lemma clean_plain s : clean s <-> Forall (fun c => plain_char c = true) s.
Proof.
  unfold clean. split; apply Forall_impl; intros c; unfold plain_char.
  - intros [A B]. rewrite has_not by exact A. cbn [In] in B. unfold code. lia.
  - intros H. apply andb_prop in H as [H1 H2]. split; [intros I; apply has_in in I; rewrite I in H1; discriminate|]. cbn [In]. unfold code in H2. lia.
Qed.
Definition host_char (c : ascii) : bool := has c (txt "abcdefghijklmnopqrstuvwxyzABCDEFGHIJKLMNOPQRSTUVWXYZ0123456789.-").
Lemma host_chars h : host_name h -> h <> [] /\ Forall (fun c => host_char c = true) h.
Proof. intros [N F]. split; [exact N|]. eapply Forall_impl; [|exact F]. intros c (d & I & ->). apply has_in. exact I. Qed.
Lemma host_char_facts c : host_char c = true -> plain_char c = true /\ c <> "@"%char /\ c <> ":"%char /\ c <> "%"%char.
Proof.
  intros H. apply has_in in H. revert c H. apply Forall_forall.
  assert (forallb (fun c => plain_char c && negb (Ascii.eqb c "@") && negb (Ascii.eqb c ":") && negb (Ascii.eqb c "%"))%bool (txt "abcdefghijklmnopqrstuvwxyzABCDEFGHIJKLMNOPQRSTUVWXYZ0123456789.-") = true) as F by (vm_compute; reflexivity).
  rewrite forallb_forall in F. apply Forall_forall. intros c I. specialize (F c I). apply andb_prop in F as [F F4]. apply andb_prop in F as [F F3]. apply andb_prop in F as [F1 F2].
  repeat split; [exact F1| | |]; intros ->; discriminate.
Qed.
Lemma digit_facts c : is_digit c = true -> plain_char c = true /\ c <> "@"%char /\ c <> ":"%char.
Proof.
  intros D. assert (host_char c = true) as H; [|destruct (host_char_facts c H) as (? & ? & ? & ?); auto].
  unfold is_digit, code in D. rewrite <- (ascii_N_embedding c). generalize dependent (N_of_ascii c). intros n D.
  assert (In n [48;49;50;51;52;53;54;55;56;57]%N) as I by (cbn [In]; lia). cbn [In] in I. repeat (destruct I as [<-|I]; [reflexivity|]). contradiction.
Qed.

Lemma until_ok p a r : Forall (fun c => p c = false) a -> (r = [] \/ exists c r', r = c :: r' /\ p c = true) -> until p (a ++ r) = a.
Proof.
  intros F R. induction F as [|c a C F IH]; cbn [app until]; [|rewrite C, IH; reflexivity]. destruct R as [->|(c & r' & -> & P)]; [reflexivity|]. cbn [until]. rewrite P. reflexivity.
Qed.
Definition kept (c : ascii) : bool := negb ((code c =? 9) || (code c =? 13) || (code c =? 10))%N.
Lemma filter_all {A} (p : A -> bool) s : Forall (fun c => p c = true) s -> filter p s = s.
Proof. induction 1 as [|c s C F IH]; cbn [filter]; [reflexivity|]. rewrite C, IH. reflexivity. Qed.
Lemma plain_kept c : plain_char c = true -> kept c = true.
Proof. unfold plain_char, kept. intros H. apply andb_prop in H as [_ H]. exact H. Qed.
Lemma plain_not c x : plain_char c = true -> In x (txt "/?#[]") -> c <> x.
Proof. unfold plain_char. intros H I ->. apply has_in in I. rewrite I in H. discriminate. Qed.
Lemma rest_kept r : rest_of_url r -> rest_of_url (filter kept r).
Proof.
  intros [->|(c & r' & -> & I)]; [left; reflexivity|]. right. exists c, (filter kept r'). split; [|exact I]. cbn [filter].
  replace (kept c) with true; [reflexivity|]. cbn in I. repeat (destruct I as [<-|I]; [reflexivity|]). contradiction.
Qed.

Section Url.
Context (ip_ok : text -> bool).

Lemma urlsplit_ok scheme w netloc rest : same_word scheme w -> w = txt "http" \/ w = txt "https" -> clean netloc -> rest_of_url rest ->
  urlsplit ip_ok (scheme ++ txt "://" ++ netloc ++ rest) = Ok (w, netloc).
Proof.
  intros S W C R. apply clean_plain in C.
  assert (lower scheme = w) as LS by (apply same_word_lower; [destruct W as [->| ->]; reflexivity|exact S]).
  assert (exists c a, scheme = c :: a) as (c & a & Es). { destruct scheme; [|eauto]. destruct W as [->| ->]; discriminate LS. }
  assert (Forall (fun c => is_alpha c = true) scheme) as AL.
  { clear - S W. assert (Forall (fun c => (97 <=? code c)%N && (code c <=? 122)%N = true)%bool w) as F. { destruct W as [->| ->]; repeat constructor. }
    clear W. induction S as [|x y s w H S IH]; [constructor|]. inversion F; subst. constructor; [|apply IH; assumption]. unfold is_alpha, code in *. destruct H as [->|[E B]]; lia. }
  assert (Forall (fun c => kept c = true /\ code c <=? 32 = false /\ c <> ":"%char)%N scheme) as KS.
  { eapply Forall_impl; [|exact AL]. intros x X. unfold is_alpha, kept, code in *. repeat split; [lia|lia|]. intros ->. discriminate X. }
  unfold urlsplit.
  replace (drop_while _ _) with (scheme ++ txt "://" ++ netloc ++ rest).
  2: { rewrite Es. cbn [app drop_while]. rewrite Es in KS. inversion KS as [|? ? (_ & K & _) _]; subst. rewrite K. reflexivity. }
  change (fun c0 : ascii => negb ((code c0 =? 9) || (code c0 =? 13) || (code c0 =? 10))%N) with kept.
  rewrite !filter_app. rewrite (filter_all kept scheme) by (eapply Forall_impl; [|exact KS]; intros x (K & _); exact K).
  change (filter kept (txt "://")) with (":"%char :: txt "//").
  rewrite (filter_all kept netloc) by (eapply Forall_impl; [|exact C]; intros x K; apply plain_kept, K).
  cbn [app]. rewrite (proj2 (partition_some ":" _ scheme (txt "//" ++ netloc ++ filter kept rest))).
  2: { split; [reflexivity|]. intros I. rewrite Forall_forall in KS. destruct (KS _ I) as (_ & _ & K). apply K. reflexivity. }
  rewrite Es. assert (is_alpha c = true) as Ac by (rewrite Es in AL; inversion AL; assumption).
  replace (forallb scheme_char (c :: a)) with true.
  2: { symmetry. apply forallb_forall. intros x I. rewrite <- Es in I. rewrite Forall_forall in AL. unfold scheme_char. rewrite (AL x I). reflexivity. }
  rewrite Ac. cbn [andb]. rewrite <- Es, LS. cbn [txt list_ascii_of_string app]. cbn [andb Ascii.eqb Bool.eqb].
  rewrite until_ok.
  - rewrite Forall_forall in C. rewrite (has_not "[" netloc), (has_not "]" netloc); [reflexivity| |].
    + intros I. apply (plain_not _ "]" (C _ I)); [cbn; tauto|reflexivity].
    + intros I. apply (plain_not _ "[" (C _ I)); [cbn; tauto|reflexivity].
  - eapply Forall_impl; [|exact C]. intros x X. rewrite !(proj2 (Ascii.eqb_neq _ _)); [reflexivity| | |]; apply plain_not; auto; cbn; tauto.
  - destruct (rest_kept rest R) as [->|(x & r' & -> & I)]; [left; reflexivity|right]. exists x, r'. split; [reflexivity|]. cbn in I. repeat (destruct I as [<-|I]; [reflexivity|]). contradiction.
Qed.

(** What stands after the host: a port, or nothing. *)
Definition port_part (pt : text) (n : Z) : Prop :=
  (pt = [] /\ n = 80%Z) \/ exists t, pt = ":"%char :: t /\ t <> [] /\ number t n /\ (n <= 65535)%Z.
Lemma port_part_facts pt n : port_part pt n -> Forall (fun c => plain_char c = true) pt /\ ~ In "@"%char pt.
Proof.
  intros [[-> _]|(t & -> & _ & N & _)]; [split; [constructor|intros []]|]. apply number_digits in N. split.
  - constructor; [reflexivity|]. eapply Forall_impl; [|exact N]. intros c D. apply (digit_facts c D).
  - intros [E|I]; [discriminate|]. rewrite Forall_forall in N. destruct (digit_facts _ (N _ I)) as (_ & X & _). apply X. reflexivity.
Qed.
Lemma host_facts h : host_name h -> h <> [] /\ Forall (fun c => plain_char c = true) h /\ ~ In "@"%char h /\ ~ In ":"%char h /\ ~ In "%"%char h /\ ~ In "["%char h.
Proof.
  intros H. apply host_chars in H as [N F]. split; [exact N|]. rewrite Forall_forall in F.
  split; [apply Forall_forall; intros c I; apply (host_char_facts c (F c I))|].
  repeat split; intros I; destruct (host_char_facts _ (F _ I)) as (P & A & B & C); congruence || (apply (plain_not _ "[" P); [cbn; tauto|reflexivity]).
Qed.
Lemma hostinfo_ok h pt n : host_name h -> port_part pt n ->
  (match partition "[" (h ++ pt) with
   | Some (_, b) => let '(host, rest) := match partition "]" b with Some (a, r) => (a, r) | None => (b, []) end in (host, match partition ":" rest with Some (_, p) => p | None => [] end)
   | None => match partition ":" (h ++ pt) with Some (a, p) => (a, p) | None => (h ++ pt, []) end end) = (h, match pt with [] => [] | _ :: t => t end).
Proof.
  intros H P. destruct (host_facts h H) as (N & F & A & B & C & D). rewrite (proj2 (partition_none "[" (h ++ pt))).
  2: { rewrite in_app_iff. intros [I|I]; [exact (D I)|]. destruct (port_part_facts pt n P) as [Q _]. rewrite Forall_forall in Q. apply (plain_not _ "[" (Q _ I)); [cbn; tauto|reflexivity]. }
  destruct P as [[-> _]|(t & -> & T & Nt & _)].
  - rewrite app_nil_r, (proj2 (partition_none ":" h) B). reflexivity.
  - rewrite (proj2 (partition_some ":" (h ++ ":"%char :: t) h t)); auto.
Qed.
Lemma connect_ok scheme w cred h pt n rest : same_word scheme w -> w = txt "http" \/ w = txt "https" -> host_name h -> port_part pt n -> rest_of_url rest ->
  forall u p, (cred = [] /\ u = None /\ p = None \/
               exists c, cred = c ++ ["@"%char] /\ clean c /\ (partition ":" c = None /\ u = Some c /\ p = None \/ exists a b, partition ":" c = Some (a, b) /\ u = Some a /\ p = Some b)) ->
  connect ip_ok (scheme ++ txt "://" ++ cred ++ h ++ pt ++ rest) =
  Ok (Conn (Some (lower h)) n (is_text w "https") (txt "Basic " ++ b64encode (shown u ++ txt ":" ++ shown p))).
Proof.
  intros S W H P R u p Cr. destruct (host_facts h H) as (Hn & HF & HA & HC & HP & HB). destruct (port_part_facts pt n P) as [PF PA].
  assert (~ In "@"%char (h ++ pt)) as NA by (rewrite in_app_iff; tauto).
  assert (Forall (fun c => plain_char c = true) (h ++ pt)) as FH by (apply Forall_app; split; assumption).
  unfold connect. replace (cred ++ h ++ pt ++ rest) with ((cred ++ h ++ pt) ++ rest) by (rewrite <- !app_assoc; reflexivity).
  rewrite (urlsplit_ok scheme w (cred ++ h ++ pt) rest S W); [|apply clean_plain, Forall_app; split; [|exact FH]|exact R].
  2: { destruct Cr as [(-> & _)|(c & -> & C & _)]; [constructor|]. apply Forall_app. split; [apply clean_plain, C|repeat constructor]. }
  cbn [bind].
  assert (hostinfo (cred ++ h ++ pt) = (h, match (match pt with [] => [] | _ :: t => t end) with [] => None | x :: y => Some (x :: y) end)) as HI.
  { unfold hostinfo. cbv zeta. replace (match rpartition "@" (cred ++ h ++ pt) with Some (_, h0) => h0 | None => cred ++ h ++ pt end) with (h ++ pt).
    - refine (eq_trans (f_equal (fun x : text * text => let '(host, port) := x in (host, match port with [] => None | _ => Some port end)) (hostinfo_ok h pt n H P)) _).
      destruct pt as [|x [|y pt]]; reflexivity.
    - destruct Cr as [(-> & _)|(c & -> & _)]; [cbn [app]; rewrite rpartition_none by exact NA; reflexivity|].
      rewrite (rpartition_some "@" _ c (h ++ pt)); [reflexivity|rewrite <- app_assoc; reflexivity|exact NA]. }
  assert (userinfo (cred ++ h ++ pt) = (u, p)) as UI.
  { unfold userinfo. destruct Cr as [(-> & -> & ->)|(c & -> & _ & D)]; [cbn [app]; rewrite rpartition_none by exact NA; reflexivity|].
    rewrite (rpartition_some "@" _ c (h ++ pt)); [|rewrite <- app_assoc; reflexivity|exact NA]. destruct D as [(-> & -> & ->)|(a & b & -> & -> & ->)]; reflexivity. }
  unfold url_port, hostname. rewrite HI, UI. cbn [fst snd]. destruct h as [|x h]; [contradiction|].
  rewrite (proj2 (partition_none "%" (x :: h)) HP).
  destruct P as [[-> ->]|(t & -> & T & Nt & B)]; [cbn [bind]; reflexivity|]. destruct t as [|y t]; [contradiction|].
  rewrite (int10_ok false (y :: t) n Nt T). replace (n <=? 65535)%Z with true by lia. cbn [bind]. reflexivity.
Qed.
End Url.
