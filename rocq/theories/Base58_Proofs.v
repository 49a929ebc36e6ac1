(** Proofs about Base58_Model. *)
From Verif Require Import Base PySlice PySlice_Proofs Sha256 Ripemd160 Tx_Model Script_Model Script_Spec Script_Proofs Base58_Model Base58_Spec.
From Coq Require Import ZifyBool ZifyNat ZifyN.
Local Open Scope string_scope.
Local Open Scope list_scope.
Local Open Scope N_scope.

(** ** Positional notation *)

Definition num (B : N) (l : list N) : N := fold_left (fun n d => n * B + d) l 0.
Definition lead_ok (l : list N) : Prop := match l with [] => True | d :: _ => d <> 0 end.

Lemma num_snoc B l d : num B (l ++ [d]) = num B l * B + d.
Proof. unfold num. rewrite fold_left_app. reflexivity. Qed.

Lemma num_zeros B k l : num B (repeat 0 k ++ l) = num B l.
Proof. induction k as [|k IH]; [reflexivity|]. cbn [repeat app]. unfold num in *. cbn [fold_left]. exact IH. Qed.

Lemma num_pos B l : 0 < B -> lead_ok l -> l <> [] -> 0 < num B l.
Proof.
  intros HB. induction l as [|d l IH] using rev_ind; intros H N; [congruence|].
  rewrite num_snoc. destruct l as [|x l]; cbn in H.
  - unfold num. cbn [fold_left]. lia.
  - specialize (IH H ltac:(discriminate)). nia.
Qed.

Lemma lead_ok_init l d : lead_ok (l ++ [d]) -> lead_ok l.
Proof. destruct l; cbn; auto. Qed.

Lemma num_unique B l : 2 <= B -> forall l', Forall (fun d => d < B) l -> Forall (fun d => d < B) l' ->
  lead_ok l -> lead_ok l' -> num B l = num B l' -> l = l'.
Proof.
  intros HB. induction l as [|d l IH] using rev_ind; intros l' F F' L L' E.
  - destruct l' as [|d' l']; [reflexivity|].
    pose proof (num_pos B (d' :: l') ltac:(lia) L' ltac:(discriminate)).
    unfold num in E at 1. cbn [fold_left] in E. lia.
  - destruct l' as [|d' l' _] using rev_ind.
    + pose proof (num_pos B (l ++ [d]) ltac:(lia) L ltac:(destruct l; discriminate)).
      unfold num in E at 2. cbn [fold_left] in E. lia.
    + rewrite !num_snoc in E. apply Forall_app in F as [F Fd]. apply Forall_app in F' as [F' Fd'].
      apply Forall_inv in Fd. apply Forall_inv in Fd'.
      assert (d = d' /\ num B l = num B l') as [-> En].
      { assert (num B l = num B l').
        { assert ((num B l * B + d) / B = num B l) by (symmetry; apply (N.div_unique _ _ _ d); lia).
          assert ((num B l' * B + d') / B = num B l') by (symmetry; apply (N.div_unique _ _ _ d'); lia).
          congruence. }
        split; [nia|assumption]. }
      f_equal. apply IH; eauto using lead_ok_init.
Qed.

Lemma size_nat_div n B : 2 <= B -> n <> 0 -> (S (N.size_nat (n / B)) <= N.size_nat n)%nat.
Proof.
  intros HB Hn.
  assert (HS : forall m, N.size_nat m = N.to_nat (N.size m)).
  { intros [|p]; [reflexivity|]. cbn [N.size_nat N.size]. induction p; cbn [Pos.size_nat Pos.size N.to_nat]; try reflexivity;
      cbn [N.to_nat] in IHp; rewrite IHp, Pos2Nat.inj_succ; reflexivity. }
  rewrite !HS.
  assert (N.size (n / B) < N.size n); [|lia].
  destruct (N.eq_dec (n / B) 0) as [E|E]; [rewrite E|].
  - destruct n; [congruence|]. cbn. lia.
  - rewrite !N.size_log2 by assumption.
    assert (n / B <= n / 2) by (apply N.div_le_compat_l; lia).
    assert (N.log2 (n / B) <= N.log2 (n / 2)) by (apply N.log2_le_mono; assumption).
    assert (N.log2 (n / 2) < N.log2 n); [|lia].
    rewrite <- N.div2_div. destruct n as [|[p|p|]]; try congruence; cbn [N.div2].
    + change (N.pos p~1) with (2 * N.pos p + 1). rewrite N.log2_succ_double by lia. lia.
    + change (N.pos p~0) with (2 * N.pos p). rewrite N.log2_double by lia. lia.
    + cbn in E. destruct B as [|[b|b|]]; try lia; exfalso; apply E; apply N.div_small; lia.
Qed.

Lemma divmod_spec B : 2 <= B -> forall fuel n, (N.size_nat n <= fuel)%nat ->
  num B (rev (divmod_digits B fuel n)) = n /\ Forall (fun d => d < B) (rev (divmod_digits B fuel n)) /\
  lead_ok (rev (divmod_digits B fuel n)).
Proof.
  intros HB. induction fuel as [|f IH]; intros n Hf.
  - destruct n as [|p]; [|destruct p; cbn in Hf; lia]. cbn. repeat split; constructor.
  - cbn [divmod_digits]. destruct (N.eqb_spec n 0) as [->|Hn]; [cbn; repeat split; constructor|].
    pose proof (size_nat_div n B HB Hn).
    destruct (IH (n / B) ltac:(lia)) as (E & F & L). cbn [rev].
    pose proof (N.div_mod n B ltac:(lia)). pose proof (N.mod_lt n B ltac:(lia)).
    split; [|split].
    + rewrite num_snoc, E. lia.
    + apply Forall_app. split; [assumption|]. repeat constructor. lia.
    + destruct (rev (divmod_digits B f (n / B))) as [|x r] eqn:Er; [|exact L].
      cbn. unfold num in E. cbn [fold_left] in E. lia.
Qed.

(** ** Bytes and digits *)

Lemma be_int_num b : be_int b = num 256 (map bN b).
Proof.
  unfold be_int, num. generalize 0. induction b as [|c b IH]; intros a; [reflexivity|]. cbn [map fold_left]. apply IH.
Qed.

Lemma be_int_le b : be_int b = le_dec (rev b).
Proof.
  induction b as [|c b IH] using rev_ind; [reflexivity|].
  rewrite rev_unit. cbn [le_dec]. rewrite <- IH.
  unfold be_int. rewrite fold_left_app. cbn [fold_left]. lia.
Qed.

(** The texts whose digits have the values [l]. *)
Lemma b58_index_nth c d : b58_index c = Some d <-> nth_error alphabet (N.to_nat d) = Some c.
Proof.
  assert (G : forall l i, (NoDup l) -> index_from i c l = Some d <-> i <= d /\ nth_error l (N.to_nat (d - i)) = Some c).
  { induction l as [|x l IH]; intros i ND; cbn [index_from].
    - split; [discriminate|]. intros [_ E]. destruct (N.to_nat (d - i)); discriminate.
    - inversion ND as [|? ? NI ND']. destruct (Ascii.eqb_spec x c) as [->|Hx].
      + split.
        * intros E. injection E as <-. split; [lia|]. replace (i - i) with 0 by lia. reflexivity.
        * intros [Hd E]. destruct (N.eq_dec d i) as [->|Hn]; [reflexivity|]. exfalso.
          replace (N.to_nat (d - i)) with (S (N.to_nat (d - i - 1))) in E by lia. cbn in E.
          apply nth_error_In in E. contradiction.
      + rewrite IH by assumption. split.
        * intros [Hd E]. split; [lia|]. replace (N.to_nat (d - i)) with (S (N.to_nat (d - (i + 1)))) by lia. exact E.
        * intros [Hd E]. destruct (N.eq_dec d i) as [->|Hn].
          { replace (i - i) with 0 in E by lia. cbn in E. congruence. }
          split; [lia|]. replace (N.to_nat (d - i)) with (S (N.to_nat (d - (i + 1)))) in E by lia. exact E. }
  unfold b58_index. change B58_DIGITS with alphabet. rewrite G.
  - replace (d - 0) with d by lia. split; [intros [_ E]; exact E|intros E; split; [lia|exact E]].
  - assert (B : (fix nd (l : text) := match l with [] => true | x :: r => negb (existsb (Ascii.eqb x) r) && nd r end) alphabet = true) by reflexivity.
    revert B. generalize alphabet as l. induction l as [|x l IH]; [constructor|].
    cbn. intros B. apply andb_prop in B as [B1 B2]. constructor; [|apply IH; exact B2].
    intros Hin. assert (existsb (Ascii.eqb x) l = true) as E by (apply existsb_exists; exists x; split; [assumption|apply Ascii.eqb_refl]).
    rewrite E in B1. discriminate.
Qed.

Lemma b58_index_lt c d : b58_index c = Some d -> d < 58.
Proof.
  rewrite b58_index_nth. intros E. assert (N.to_nat d < List.length alphabet)%nat by (apply nth_error_Some; congruence).
  change (List.length alphabet) with 58%nat in *. lia.
Qed.

Lemma b58_digit_index d : d < 58 -> b58_index (b58_digit d) = Some d.
Proof.
  intros H. apply b58_index_nth. unfold b58_digit. change B58_DIGITS with alphabet.
  rewrite (nth_error_nth' alphabet "0"%char); [reflexivity|]. change (List.length alphabet) with 58%nat. lia.
Qed.

Lemma b58_index_digit c d : b58_index c = Some d -> c = b58_digit d.
Proof.
  rewrite b58_index_nth. intros E. unfold b58_digit. change B58_DIGITS with alphabet. symmetry. apply nth_error_nth. exact E.
Qed.

Lemma b58_index_none c : b58_index c = None <-> ~ In c alphabet.
Proof.
  split.
  - intros E Hin. apply In_nth_error in Hin as [k Hk].
    assert (b58_index c = Some (N.of_nat k)) by (apply b58_index_nth; rewrite Nat2N.id; exact Hk). congruence.
  - intros NI. destruct (b58_index c) as [d|] eqn:E; [|reflexivity]. apply b58_index_nth in E. apply nth_error_In in E. contradiction.
Qed.

(** A text of base58 characters is the image of its digit values. *)
Lemma text_digits s : Forall (fun c => In c alphabet) s ->
  exists l, s = map b58_digit l /\ Forall (fun d => d < 58) l.
Proof.
  induction 1 as [|c s Hc _ (l & -> & F)]; [exists []; split; constructor|].
  destruct (b58_index c) as [d|] eqn:E; [|apply b58_index_none in E; contradiction].
  exists (d :: l). cbn. rewrite (b58_index_digit _ _ E). split; [reflexivity|]. constructor; [eauto using b58_index_lt|assumption].
Qed.

Lemma b58_int_digits l : forall n, Forall (fun d => d < 58) l ->
  b58_int n (map b58_digit l) = Ok (fold_left (fun n d => n * 58 + d) l n).
Proof.
  induction l as [|d l IH]; intros n F; [reflexivity|]. inversion F. cbn [map b58_int fold_left].
  rewrite b58_digit_index by assumption. apply IH. assumption.
Qed.

Lemma b58_int_bad s : ~ Forall (fun c => In c alphabet) s -> forall n, b58_int n s = Err InvalidBase58Error.
Proof.
  induction s as [|c s IH]; intros H n; [exfalso; apply H; constructor|]. cbn [b58_int].
  destruct (b58_index c) as [d|] eqn:E; [|reflexivity]. apply IH. intros F. apply H. constructor; [|exact F].
  apply b58_index_nth in E. eapply nth_error_In; eassumption.
Qed.

Lemma denotes_digits l : Forall (fun d => d < 58) l -> denotes (map b58_digit l) (num 58 l).
Proof.
  induction l as [|d l IH] using rev_ind; intros F; [constructor|].
  apply Forall_app in F as [F Fd]. apply Forall_inv in Fd. rewrite map_app, num_snoc. cbn [map].
  replace (num 58 l * 58 + d) with (58 * num 58 l + N.of_nat (N.to_nat d)) by lia.
  constructor; [apply IH; exact F|]. apply b58_index_nth, b58_digit_index, Fd.
Qed.

Lemma text_dec s : {Forall (fun c => In c alphabet) s} + {~ Forall (fun c => In c alphabet) s}.
Proof. apply Forall_dec. intros c. apply in_dec, ascii_dec. Qed.

(** ** Hex *)

Lemma Nb_map_bN b : map Nb (map bN b) = b.
Proof. rewrite map_map. rewrite <- (map_id b) at 2. apply map_ext. intros a. apply Nb_bN. Qed.

Lemma unhex_num h : (exists k, List.length h = 2 * k)%nat -> Forall (fun d => d < 16) h ->
  exists b, unhexlify_digits h = Ok b /\ num 256 (map bN b) = num 16 h /\
    (match h with a :: c :: _ => a <> 0 \/ c <> 0 | _ => True end -> lead_ok (map bN b)).
Proof.
  intros [k Hk]. revert h Hk.
  assert (G : forall k h acc, List.length h = (2 * k)%nat -> Forall (fun d => d < 16) h ->
    exists b, unhexlify_digits h = Ok b /\ fold_left (fun n d => n * 256 + d) (map bN b) acc = fold_left (fun n d => n * 16 + d) h acc /\
    (match h with a :: c :: _ => a <> 0 \/ c <> 0 | _ => True end -> lead_ok (map bN b))).
  { clear k. induction k as [|k IH]; intros h acc Hk F.
    - destruct h; [|discriminate]. exists []. repeat split.
    - destruct h as [|a [|c h]]; [discriminate|cbn in Hk; lia|].
      inversion F as [|? ? Fa F']. inversion F' as [|? ? Fc F'']. subst.
      destruct (IH h (acc * 256 + (16 * a + c)) ltac:(cbn in Hk; lia) F'') as (b & E & V & _).
      exists (Nb (16 * a + c) :: b). cbn [unhexlify_digits]. rewrite E. cbn [bind]. split; [reflexivity|].
      assert (Hb : bN (Nb (16 * a + c)) = 16 * a + c) by (apply bN_Nb_small; lia).
      split.
      + cbn [map fold_left]. rewrite Hb, V. f_equal. lia.
      + intros H. cbn [map lead_ok]. rewrite Hb. lia. }
  intros h Hk F. apply (G k h 0 Hk F).
Qed.

Lemma int_to_bytes n : exists b, unhexlify_digits (even_digits (hex_of_int n)) = Ok b /\
  (n = 0 -> b = [x00]) /\ (n <> 0 -> num 256 (map bN b) = n /\ lead_ok (map bN b) /\ b <> []).
Proof.
  unfold hex_of_int. destruct (N.eqb_spec n 0) as [->|Hn]; [exists [x00]; repeat split; congruence|].
  destruct (divmod_spec 16 ltac:(lia) (N.size_nat n) n ltac:(lia)) as (E & F & L).
  set (h := rev (divmod_digits 16 (N.size_nat n) n)) in *.
  assert (Nh : h <> []) by (intros ->; unfold num in E; cbn in E; congruence).
  assert (E' : num 16 (even_digits h) = n).
  { unfold even_digits. destruct (Nat.odd (List.length h)); [|exact E]. rewrite <- E. apply (num_zeros 16 1). }
  destruct (unhex_num (even_digits h)) as (b & U & V & W).
  - unfold even_digits. destruct (Nat.odd (List.length h)) eqn:O.
    + apply Nat.odd_spec in O as [k Hk]. exists (S k). cbn [List.length]. lia.
    + rewrite <- Nat.negb_even in O. apply negb_false_iff, Nat.even_spec in O as [k Hk]. exists k. exact Hk.
  - unfold even_digits. destruct (Nat.odd (List.length h)); [constructor; [lia|exact F]|exact F].
  - exists b. split; [exact U|]. split; [congruence|]. intros _. split; [congruence|]. split.
    + apply W. unfold even_digits. destruct h as [|a h']; [congruence|]. cbn [lead_ok] in L.
      destruct (Nat.odd (List.length (a :: h'))) eqn:O; [right; exact L|].
      destruct h'; [discriminate|left; exact L].
    + intros ->. rewrite E' in V. unfold num in V. cbn [map fold_left] in V. congruence.
Qed.

(** ** Leading zeros and ones *)

Lemma repeat_map {A B} (f : A -> B) x k : map f (repeat x k) = repeat (f x) k.
Proof. induction k; cbn; congruence. Qed.

Lemma count_zeros_split b : exists r, b = repeat x00 (count_zeros b) ++ r /\ lead_ok (map bN r).
Proof.
  induction b as [|c b (r & E & L)]; [exists []; repeat split|]. cbn [count_zeros].
  destruct (N.eqb_spec (bN c) 0) as [Hc|Hc].
  - exists r. cbn [repeat app]. rewrite <- E. split; [|exact L]. f_equal. apply bN_inj. rewrite Hc. reflexivity.
  - exists (c :: b). split; [reflexivity|exact Hc].
Qed.

Lemma count_zeros_app k r : lead_ok (map bN r) -> count_zeros (repeat x00 k ++ r) = k.
Proof.
  intros L. induction k as [|k IH]; cbn [repeat app].
  - destruct r as [|c r]; [reflexivity|]. cbn in *. destruct (N.eqb_spec (bN c) 0); [contradiction|reflexivity].
  - cbn [count_zeros]. change (bN x00 =? 0) with true. cbn iota. f_equal. exact IH.
Qed.

Lemma b58_digit_one d : d < 58 -> b58_digit d = "1"%char -> d = 0.
Proof.
  intros H E. pose proof (b58_digit_index d H) as I. rewrite E in I. change (b58_index "1"%char) with (Some 0) in I. congruence.
Qed.

Lemma count_ones_app k l : Forall (fun d => d < 58) l -> lead_ok l ->
  count_ones (repeat "1"%char k ++ map b58_digit l) = k.
Proof.
  intros F L. induction k as [|k IH]; cbn [repeat app].
  - destruct l as [|d l]; [reflexivity|]. cbn [map count_ones lead_ok] in *. inversion F.
    destruct (Ascii.eqb_spec (b58_digit d) "1"%char) as [E|]; [|reflexivity]. apply b58_digit_one in E; [contradiction|assumption].
  - cbn [count_ones]. rewrite Ascii.eqb_refl. f_equal. exact IH.
Qed.

Lemma digits_split l : exists k r, l = repeat 0 k ++ r /\ lead_ok r.
Proof.
  induction l as [|d l (k & r & -> & L)]; [exists O, []; repeat split|].
  destruct (N.eq_dec d 0) as [->|H]; [exists (S k), r; repeat split; exact L|].
  exists O, (d :: repeat 0 k ++ r). split; [reflexivity|exact H].
Qed.

Lemma removelast_map {A B} (f : A -> B) l : removelast (map f l) = map f (removelast l).
Proof. induction l as [|x [|y l] IH]; [reflexivity|reflexivity|]. cbn [map removelast] in *. f_equal. exact IH. Qed.

Lemma removelast_Forall {A} (P : A -> Prop) l : Forall P l -> Forall P (removelast l).
Proof. induction 1 as [|x [|y l] Hx F IH]; [constructor|constructor|]. cbn [removelast] in *. constructor; assumption. Qed.

Lemma removelast_repeat {A} (x : A) k : removelast (repeat x (S k)) = repeat x k.
Proof. induction k as [|k IH]; [reflexivity|]. cbn [repeat removelast] in *. f_equal. exact IH. Qed.

(** ** The bijection *)

(** The common shape: [k] zeros and the shortest digits of [n] on both sides. *)
Lemma encode_shape k r l : lead_ok (map bN r) -> Forall (fun d => d < 58) l -> lead_ok l ->
  num 256 (map bN r) = num 58 l ->
  b58encode (repeat x00 k ++ r) = repeat "1"%char k ++ map b58_digit l.
Proof.
  intros Lr Fl Ll E. unfold b58encode. rewrite count_zeros_app by exact Lr.
  assert (En : be_int (repeat x00 k ++ r) = num 58 l).
  { rewrite be_int_num, map_app, repeat_map. change (bN x00) with 0. rewrite num_zeros. exact E. }
  rewrite En. destruct (divmod_spec 58 ltac:(lia) (N.size_nat (num 58 l)) (num 58 l) ltac:(lia)) as (V & F & L).
  rewrite (num_unique 58 _ ltac:(lia) l F Fl L Ll V). reflexivity.
Qed.

Lemma decode_shape k r l : lead_ok (map bN r) -> Forall (fun d => d < 58) l -> lead_ok l ->
  num 256 (map bN r) = num 58 l ->
  b58decode (repeat "1"%char k ++ map b58_digit l) = Ok (repeat x00 k ++ r).
Proof.
  intros Lr Fl Ll E. set (s := repeat "1"%char k ++ map b58_digit l).
  assert (Ei : b58_int 0 s = Ok (num 58 l)).
  { unfold s. change "1"%char with (b58_digit 0). rewrite <- repeat_map, <- map_app, b58_int_digits.
    - f_equal. apply (num_zeros 58).
    - apply Forall_app. split; [|exact Fl]. apply Forall_forall. intros d Hd. apply repeat_spec in Hd. lia. }
  destruct (int_to_bytes (num 58 l)) as (b & U & Z0 & Zn).
  destruct (list_eq_dec N.eq_dec l []) as [->|Nl].
  - assert (r = []) as ->.
    { destruct r as [|c r]; [reflexivity|]. pose proof (num_pos 256 _ ltac:(lia) Lr ltac:(discriminate)).
      rewrite E in H. unfold num in H. cbn in H. lia. }
    cbn [map] in s. unfold s in *. rewrite !app_nil_r in Ei. rewrite (app_nil_r (repeat x00 k)), (app_nil_r (repeat _ k)). destruct k as [|k]; [reflexivity|].
    unfold b58decode. cbn [repeat]. change ("1"%char :: repeat "1"%char k) with (repeat "1"%char (S k)).
    rewrite Ei. cbn [bind]. rewrite U. cbn [bind]. rewrite (Z0 eq_refl), removelast_repeat.
    assert (count_ones (repeat "1"%char k) = k) as ->.
    { rewrite <- (app_nil_r (repeat _ k)). apply (count_ones_app k []); constructor. }
    f_equal. rewrite <- repeat_cons. reflexivity.
  - pose proof (num_pos 58 l ltac:(lia) Ll Nl) as P.
    destruct (Zn ltac:(lia)) as (Vb & Lb & Nb').
    assert (map bN b = map bN r) as Ebr.
    { apply (num_unique 256); try lia; try assumption; try congruence.
      - apply Forall_map, Forall_forall. intros c _. apply bN_lt.
      - apply Forall_map, Forall_forall. intros c _. apply bN_lt. }
    assert (b = r) as -> by (apply (f_equal (map Nb)) in Ebr; rewrite !Nb_map_bN in Ebr; exact Ebr).
    unfold b58decode. destruct s as [|c s'] eqn:Es.
    { destruct k; [|discriminate]. destruct l; [congruence|discriminate]. }
    rewrite Ei. cbn [bind]. rewrite U. cbn [bind]. rewrite <- Es. unfold s.
    rewrite removelast_app by (destruct l; [congruence|discriminate]).
    rewrite removelast_map, count_ones_app; [reflexivity|apply removelast_Forall, Fl|].
    destruct l as [|d [|d' l']]; [exact Logic.I|exact Logic.I|exact Ll].
Qed.

Lemma bytes_shape b : exists k r l, b = repeat x00 k ++ r /\ lead_ok (map bN r) /\ Forall (fun d => d < 58) l /\ lead_ok l /\
  num 256 (map bN r) = num 58 l.
Proof.
  destruct (count_zeros_split b) as (r & E & L).
  destruct (divmod_spec 58 ltac:(lia) (N.size_nat (num 256 (map bN r))) (num 256 (map bN r)) ltac:(lia)) as (V & F & L').
  exists (count_zeros b), r, (rev (divmod_digits 58 (N.size_nat (num 256 (map bN r))) (num 256 (map bN r)))).
  split; [exact E|]. split; [exact L|]. split; [exact F|]. split; [exact L'|]. symmetry. exact V.
Qed.

Lemma text_shape s : Forall (fun c => In c alphabet) s -> exists k r l, s = repeat "1"%char k ++ map b58_digit l /\
  lead_ok (map bN r) /\ Forall (fun d => d < 58) l /\ lead_ok l /\ num 256 (map bN r) = num 58 l.
Proof.
  intros H. destruct (text_digits s H) as (l0 & -> & F0). destruct (digits_split l0) as (k & l & -> & L).
  apply Forall_app in F0 as [_ F].
  destruct (divmod_spec 256 ltac:(lia) (N.size_nat (num 58 l)) (num 58 l) ltac:(lia)) as (V & Fb & Lb).
  set (ds := rev (divmod_digits 256 (N.size_nat (num 58 l)) (num 58 l))) in *.
  assert (Eb : map bN (map Nb ds) = ds).
  { rewrite map_map. rewrite <- (map_id ds) at 2. apply map_ext_in. intros d Hd.
    rewrite Forall_forall in Fb. apply bN_Nb_small, Fb, Hd. }
  exists k, (map Nb ds), l. rewrite Eb. split; [rewrite map_app, repeat_map; reflexivity|]. split; [exact Lb|].
  split; [exact F|]. split; [exact L|exact V].
Qed.

Lemma leads_bytes k r : lead_ok (map bN r) -> leads_with x00 k (repeat x00 k ++ r).
Proof.
  intros L. exists r. split; [reflexivity|]. intros y r' -> ->. apply L. reflexivity.
Qed.

Lemma leads_text k l : Forall (fun d => d < 58) l -> lead_ok l -> leads_with "1"%char k (repeat "1"%char k ++ map b58_digit l).
Proof.
  intros F L. exists (map b58_digit l). split; [reflexivity|]. intros y r' E ->. destruct l as [|d l]; [discriminate|].
  injection E as Ed _. inversion F. apply L. apply b58_digit_one; assumption.
Qed.

Lemma encode_decode b : b58decode (b58encode b) = Ok b.
Proof.
  destruct (bytes_shape b) as (k & r & l & -> & Lr & F & L & E).
  rewrite (encode_shape k r l Lr F L E). apply decode_shape; assumption.
Qed.

Lemma encode_meaning b : denotes (b58encode b) (le_dec (rev b)) /\
  exists k, leads_with x00 k b /\ leads_with "1"%char k (b58encode b).
Proof.
  destruct (bytes_shape b) as (k & r & l & -> & Lr & F & L & E).
  rewrite (encode_shape k r l Lr F L E). split.
  - rewrite <- be_int_le, be_int_num, map_app, repeat_map. change (bN x00) with 0. rewrite num_zeros, E.
    change "1"%char with (b58_digit 0). rewrite <- repeat_map, <- map_app, <- (num_zeros 58 k l).
    apply denotes_digits, Forall_app. split; [|exact F]. apply Forall_forall. intros d Hd. apply repeat_spec in Hd. lia.
  - exists k. split; [apply leads_bytes, Lr|apply leads_text; assumption].
Qed.

Lemma encode_alphabet b : Forall (fun c => In c alphabet) (b58encode b).
Proof.
  destruct (bytes_shape b) as (k & r & l & -> & Lr & F & L & E).
  rewrite (encode_shape k r l Lr F L E). apply Forall_app. split.
  - apply Forall_forall. intros c Hc. apply repeat_spec in Hc as ->. left. reflexivity.
  - apply Forall_map. eapply Forall_impl; [|exact F]. intros d Hd. pose proof (b58_digit_index d Hd) as I.
    apply b58_index_nth in I. eapply nth_error_In, I.
Qed.

Lemma decode_encode s : Forall (fun c => In c alphabet) s -> exists b, b58decode s = Ok b /\ b58encode b = s.
Proof.
  intros H. destruct (text_shape s H) as (k & r & l & -> & Lr & F & L & E).
  exists (repeat x00 k ++ r). split; [apply decode_shape; assumption|apply encode_shape; assumption].
Qed.

Lemma decode_bad s : ~ Forall (fun c => In c alphabet) s -> b58decode s = Err InvalidBase58Error.
Proof.
  intros H. destruct s as [|c s]; [exfalso; apply H; constructor|]. unfold b58decode. rewrite b58_int_bad by exact H. reflexivity.
Qed.

Lemma decode_inv s b : b58decode s = Ok b -> s = b58encode b.
Proof.
  intros H. destruct (text_dec s) as [F|NF]; [|rewrite decode_bad in H by exact NF; discriminate].
  destruct (decode_encode s F) as (b' & E & <-). congruence.
Qed.

(** ** Checked data *)

Lemma new_slices (k : bytes) :
  py_slice k (Slice (Some 0%Z) (Some 1%Z) None) = Ok (firstn 1 k) /\
  py_slice k (Slice (Some 1%Z) (Some (-4)%Z) None) = Ok (firstn (List.length k - 5) (skipn 1 k)) /\
  py_slice k (Slice (Some (-4)%Z) None None) = Ok (skipn (List.length k - 4) k).
Proof.
  split; [|split].
  - erewrite py_slice_unit by (unfold slice_indices; cbn [sl_step sl_start sl_stop Z.eqb]; reflexivity).
    cbn [adjust]. change (0 <? 0)%Z with false. change (1 <? 0)%Z with false. cbn iota. f_equal.
    destruct k as [|x k]; [reflexivity|]. cbn [List.length].
    replace (Z.to_nat (Z.min 0 (Z.of_nat (S (List.length k))))) with 0%nat by lia. cbn [skipn]. f_equal. lia.
  - erewrite py_slice_unit by (unfold slice_indices; cbn [sl_step sl_start sl_stop Z.eqb]; reflexivity).
    cbn [adjust]. change (-4 <? 0)%Z with true. change (1 <? 0)%Z with false. cbn iota. f_equal.
    destruct k as [|x k]; [reflexivity|]. cbn [List.length].
    replace (Z.to_nat (Z.min 1 (Z.of_nat (S (List.length k))))) with 1%nat by lia. f_equal. lia.
  - erewrite py_slice_unit by (unfold slice_indices; cbn [sl_step sl_start sl_stop Z.eqb]; reflexivity).
    cbn [adjust]. change (-4 <? 0)%Z with true. change (1 <? 0)%Z with false. cbn iota. f_equal.
    replace (Z.to_nat (Z.max (-4 + Z.of_nat (List.length k)) 0)) with (List.length k - 4)%nat by lia.
    apply firstn_all2. rewrite skipn_length. lia.
Qed.

Lemma hash4 m : List.length (firstn 4 (Hash m)) = 4%nat.
Proof. rewrite firstn_length, Hash_length. reflexivity. Qed.

Lemma new_unfold {A} (from : bytes -> N -> result A) s k : b58decode s = Ok k ->
  base58_new from s =
    if negb (bytes_eqb (skipn (List.length k - 4) k) (firstn 4 (Hash (firstn 1 k ++ firstn (List.length k - 5) (skipn 1 k)))))
    then Err Base58ChecksumError
    else match firstn 1 k with v :: _ => from (firstn (List.length k - 5) (skipn 1 k)) (bN v) | [] => Err IndexError end.
Proof.
  intros E. unfold base58_new. rewrite E. cbn [bind]. destruct (new_slices k) as (-> & -> & ->). reflexivity.
Qed.

(** Accepted texts. *)
Definition checked (s : text) (v : byte) (d : bytes) : Prop :=
  s = b58encode (with_checksum v d) \/
  d = [] /\ exists c, firstn 4 (Hash [v]) = v :: c /\ s = b58encode (v :: c).

Lemma new_checked {A} (from : bytes -> N -> result A) s v d : checked s v d -> base58_new from s = from d (bN v).
Proof.
  intros [-> | (-> & c & Hc & ->)].
  - rewrite (new_unfold _ _ _ (encode_decode _)). unfold with_checksum.
    set (c := firstn 4 (Hash (v :: d))). assert (Lc : List.length c = 4%nat) by apply hash4.
    replace (List.length (v :: d ++ c) - 5)%nat with (List.length d) by (cbn [List.length]; rewrite app_length; lia).
    replace (List.length (v :: d ++ c) - 4)%nat with (S (List.length d)) by (cbn [List.length]; rewrite app_length; lia).
    cbn [skipn firstn]. rewrite skipn_app, skipn_all, Nat.sub_diag. cbn [skipn app].
    rewrite firstn_app, firstn_all, Nat.sub_diag. cbn [firstn]. rewrite app_nil_r.
    fold c. rewrite bytes_eqb_refl. reflexivity.
  - rewrite (new_unfold _ _ _ (encode_decode _)).
    assert (L4 : List.length (v :: c) = 4%nat) by (rewrite <- Hc; apply hash4).
    rewrite L4. change (4 - 4)%nat with 0%nat. change (4 - 5)%nat with 0%nat. change (skipn 0 (v :: c)) with (v :: c).
    change (firstn 1 (v :: c)) with [v]. change (firstn 0 _) with (@nil byte). rewrite app_nil_r, Hc, bytes_eqb_refl. reflexivity.
Qed.

Lemma new_cases {A} (from : bytes -> N -> result A) s :
  (~ Forall (fun c => In c alphabet) s /\ base58_new from s = Err InvalidBase58Error) \/
  (exists v d, checked s v d /\ base58_new from s = from d (bN v)) \/
  (Forall (fun c => In c alphabet) s /\ (forall v d, ~ checked s v d) /\ base58_new from s = Err Base58ChecksumError).
Proof.
  destruct (text_dec s) as [F|NF]; [right|left; split; [exact NF|unfold base58_new; rewrite decode_bad by exact NF; reflexivity]].
  destruct (decode_encode s F) as (k & Ek & Es).
  rewrite (new_unfold from s k Ek).
  destruct (bytes_eqb _ _) eqn:B; cbn [negb].
  - left. apply bytes_eqb_eq in B.
    assert (L4 : (4 <= List.length k)%nat).
    { apply (f_equal (@List.length _)) in B. rewrite skipn_length, hash4 in B. lia. }
    destruct k as [|v k']; [cbn in L4; lia|]. change (firstn 1 (v :: k')) with [v] in *. change (skipn 1 (v :: k')) with k' in B |- *.
    cbn [List.length] in *. destruct (Nat.eq_dec (List.length k') 3) as [L3|L3].
    + rewrite L3 in *. change (4 - 4)%nat with 0%nat in B. change (4 - 5)%nat with 0%nat in *. change (skipn 0 (v :: k')) with (v :: k') in B.
      change (firstn 0 k') with (@nil byte) in *. rewrite app_nil_r in B. exists v, []. split; [|reflexivity].
      right. split; [reflexivity|]. exists k'. split; [symmetry; exact B|symmetry; exact Es].
    + exists v, (firstn (S (List.length k') - 5) k'). split; [|reflexivity]. left.
      unfold with_checksum. cbn [app] in B. rewrite <- B.
      replace (S (List.length k') - 4)%nat with (S (List.length k' - 4)) by lia. cbn [skipn].
      replace (S (List.length k') - 5)%nat with (List.length k' - 4)%nat by lia. rewrite firstn_skipn. symmetry. exact Es.
  - right. split; [exact F|]. split; [|reflexivity]. intros v d C.
    pose proof (new_checked (fun _ _ => Ok tt) s v d C) as H. rewrite (new_unfold _ s k Ek), B in H. discriminate.
Qed.

Lemma checked_unique s v d v' d' : checked s v d -> checked s v' d' -> v = v' /\ d = d'.
Proof.
  intros C C'. pose proof (new_checked (fun d n => Ok (n, d)) s v d C) as E. rewrite (new_checked _ s v' d' C') in E.
  injection E as En ->. split; [apply bN_inj; congruence|reflexivity].
Qed.

Lemma pybyte_small n : n <= 255 -> pybyte n = Ok (Nb n) /\ bN (Nb n) = n.
Proof.
  intros H. assert (E : bN (Nb n) = n) by (apply bN_Nb_small; lia). split; [|exact E].
  unfold pybyte. rewrite <- E at 1. unfold bN. rewrite Byte.of_to_N. reflexivity.
Qed.

Lemma base58_str_eq v d : base58_str (B58 (bN v) d) = Ok (b58encode (with_checksum v d)).
Proof.
  unfold base58_str. cbn [d_nVersion d_data]. destruct (pybyte_small (bN v)) as [-> _]; [pose proof (bN_lt v); lia|].
  rewrite Nb_bN. cbn [bind]. reflexivity.
Qed.

Lemma base58_from_small d n : n <= 255 -> base58_from_bytes d n = Ok (B58 n d).
Proof. intros H. unfold base58_from_bytes. replace (n <=? 255) with true by lia. reflexivity. Qed.

Lemma base58_text_roundtrip n d : n < 256 -> exists s, base58_str (B58 n d) = Ok s /\ CBase58Data s = Ok (B58 n d).
Proof.
  intros H. rewrite <- (bN_Nb_small n H). set (v := Nb n). exists (b58encode (with_checksum v d)).
  split; [apply base58_str_eq|]. unfold CBase58Data. rewrite (new_checked _ _ v d) by (left; reflexivity).
  apply base58_from_small. pose proof (bN_lt v). lia.
Qed.

Lemma base58_accepts s n d : CBase58Data s = Ok (B58 n d) <-> exists v, n = bN v /\ checked s v d.
Proof.
  split.
  - intros H. destruct (new_cases base58_from_bytes s) as [[_ E]|[(v & d' & C & E)|(_ & _ & E)]];
      unfold CBase58Data in H; rewrite E in H; try discriminate.
    rewrite base58_from_small in H by (pose proof (bN_lt v); lia). injection H as <- <-. exists v. split; [reflexivity|exact C].
  - intros (v & -> & C). unfold CBase58Data. rewrite (new_checked _ _ v d C). apply base58_from_small. pose proof (bN_lt v). lia.
Qed.

Lemma base58_rejects s e : CBase58Data s = Err e <->
  (e = InvalidBase58Error /\ ~ Forall (fun c => In c alphabet) s) \/
  (e = Base58ChecksumError /\ Forall (fun c => In c alphabet) s /\ forall v d, ~ checked s v d).
Proof.
  unfold CBase58Data. destruct (new_cases base58_from_bytes s) as [[NF E]|[(v & d' & C & E)|(F & NC & E)]]; rewrite E.
  - split; [intros H; injection H as <-; left; split; [reflexivity|exact NF]|].
    intros [[-> _]|[_ [F _]]]; [reflexivity|contradiction].
  - rewrite base58_from_small by (pose proof (bN_lt v); lia). split; [discriminate|].
    intros [[_ NF]|(_ & _ & NC)]; exfalso; [|eapply NC, C].
    apply NF. destruct C as [->|(_ & c & _ & ->)]; apply encode_alphabet.
  - split; [intros H; injection H as <-; right; split; [reflexivity|split; assumption]|].
    intros [[_ NF]|[-> _]]; [contradiction|reflexivity].
Qed.

(** ** Addresses *)

Lemma network_versions pr c : network pr -> exists v, version_of pr c = bN v /\ forall x, firstn 4 (Hash [v]) <> v :: x.
Proof.
  intros [-> | [-> | ->]]; destruct c;
    [exists x05|exists x00|exists xc4|exists x6f|exists xc4|exists x6f]; (split; [reflexivity|]);
    intros x E; apply (f_equal (fun l => hd x00 l)) in E; cbn [hd] in E; vm_compute in E; discriminate.
Qed.

Lemma address_from_ok pr d n a : network pr -> n <= 255 ->
  address_from_bytes pr d n = Ok a <-> n = version_of pr (a_class a) /\ a_nVersion a = n /\ a_data a = d.
Proof.
  intros Hn H. unfold address_from_bytes. rewrite base58_from_small by exact H. cbn [bind d_nVersion d_data].
  split.
  - destruct (N.eqb_spec n (SCRIPT_ADDR pr)); [intros E; injection E as <-; split; [|split]; try reflexivity; assumption|].
    destruct (N.eqb_spec n (PUBKEY_ADDR pr)); [intros E; injection E as <-; split; [|split]; try reflexivity; assumption|discriminate].
  - destruct a as [c n' d']. cbn [a_class a_nVersion a_data]. intros (E & -> & ->). destruct c; cbn [version_of] in E; subst n.
    + rewrite N.eqb_refl. reflexivity.
    + replace (PUBKEY_ADDR pr =? SCRIPT_ADDR pr) with false by (destruct Hn as [-> | [-> | ->]]; reflexivity).
      rewrite N.eqb_refl. reflexivity.
Qed.

Lemma address_from_err pr d n e : n <= 255 -> address_from_bytes pr d n = Err e -> e = CBitcoinAddressError.
Proof.
  intros H. unfold address_from_bytes. rewrite base58_from_small by exact H. cbn [bind].
  destruct (n =? SCRIPT_ADDR pr); [discriminate|]. destruct (n =? PUBKEY_ADDR pr); [discriminate|]. congruence.
Qed.

Lemma address_text_roundtrip pr c d : network pr -> exists s, address_str (Address c (version_of pr c) d) = Ok s /\
  CBitcoinAddress pr s = Ok (Address c (version_of pr c) d).
Proof.
  intros Hn. destruct (network_versions pr c Hn) as (v & Ev & _). exists (b58encode (with_checksum v d)).
  unfold address_str. cbn [a_nVersion a_data]. rewrite Ev. split; [apply base58_str_eq|].
  unfold CBitcoinAddress. rewrite (new_checked _ _ v d) by (left; reflexivity).
  apply address_from_ok; [exact Hn|pose proof (bN_lt v); lia|]. cbn. auto.
Qed.

Lemma address_accepted pr s a : network pr -> CBitcoinAddress pr s = Ok a ->
  a_nVersion a = version_of pr (a_class a) /\ address_str a = Ok s.
Proof.
  intros Hn H. unfold CBitcoinAddress in H.
  destruct (new_cases (address_from_bytes pr) s) as [[_ E]|[(v & d & C & E)|(_ & _ & E)]]; rewrite E in H; try discriminate.
  apply address_from_ok in H as (Ev & En & Ed); [|exact Hn|pose proof (bN_lt v); lia].
  split; [congruence|]. destruct (network_versions pr (a_class a) Hn) as (v' & Ev' & Nv).
  assert (v = v') as <- by (apply bN_inj; congruence).
  unfold address_str. rewrite En, Ed, base58_str_eq. destruct C as [->|(_ & c & Hc & _)]; [reflexivity|]. exfalso. eapply Nv, Hc.
Qed.

Lemma address_errors pr s e : CBitcoinAddress pr s = Err e ->
  e = InvalidBase58Error \/ e = Base58ChecksumError \/ e = CBitcoinAddressError.
Proof.
  unfold CBitcoinAddress. destruct (new_cases (address_from_bytes pr) s) as [[_ E]|[(v & d & C & E)|(_ & _ & E)]]; rewrite E; intros H.
  - left. congruence.
  - right. right. eapply address_from_err; [|exact H]. pose proof (bN_lt v). lia.
  - right. left. congruence.
Qed.

(** A text is an address of at most one of the two kinds of network. *)
Lemma address_networks s a : CBitcoinAddress mainnet s = Ok a -> CBitcoinAddress testnet s = Err CBitcoinAddressError /\
  CBitcoinAddress regtest s = Err CBitcoinAddressError.
Proof.
  intros H. unfold CBitcoinAddress in *.
  destruct (new_cases (address_from_bytes mainnet) s) as [[_ E]|[(v & d & C & E)|(_ & _ & E)]]; rewrite E in H; try discriminate.
  rewrite !(new_checked _ s v d C).
  apply address_from_ok in H as (Ev & _ & _); [|left; reflexivity|pose proof (bN_lt v); lia].
  unfold address_from_bytes. rewrite base58_from_small by (pose proof (bN_lt v); lia). cbn [bind].
  rewrite Ev. destruct (a_class a); split; reflexivity.
Qed.

(** ** Addresses and scripts *)

Lemma push_size_bound op s n h s2 : push_size op s = Ok (n, h, s2) -> n < 2 ^ 32.
Proof.
  unfold push_size. destruct (N.ltb_spec op 0x4c); [intros E; injection E as <- _ _; lia|].
  destruct (op =? 0x4c).
  { destruct s as [|a s]; [discriminate|]. intros E. injection E as <- _ _. pose proof (bN_lt a). lia. }
  destruct (op =? 0x4d).
  { destruct s as [|a [|b s]]; try discriminate. intros E. injection E as <- _ _. rewrite N.shiftl_mul_pow2.
    pose proof (bN_lt a). pose proof (bN_lt b). lia. }
  destruct s as [|a [|b [|c [|d s]]]]; try discriminate. intros E. injection E as <- _ _. rewrite !N.shiftl_mul_pow2.
  pose proof (bN_lt a). pose proof (bN_lt b). pose proof (bN_lt c). pose proof (bN_lt d). lia.
Qed.

Lemma stable_of_cooked s items : script_iter s = (items, None) -> Forall stable_item (map item_of items).
Proof.
  unfold script_iter, raw_iter. generalize (S (List.length s)) as fuel. generalize 0%nat as i.
  intros i fuel. revert i s items. induction fuel as [|f IH]; intros i s items; [discriminate|].
  destruct s as [|b s1]; [intros H; injection H as <-; constructor|]. rewrite raw_loop_S.
  destruct (0x4e <? bN b) eqn:Hb.
  - destruct (raw_iter_loop f (S i) s1) as [l e] eqn:El. intros H. injection H as <- ->.
    cbn [map]. constructor.
    + unfold cook, is_small_int, decode_op_n. pose proof (bN_lt b).
      destruct (N.eqb_spec (bN b) 0) as [E0|E0]; [lia|].
      destruct ((0x51 <=? bN b) && (bN b <=? 0x60)) eqn:R; cbn [orb]; cbn [item_of stable_item]; lia.
    + specialize (IH (S i) s1 (map cook l)). rewrite El in IH. apply IH. reflexivity.
  - destruct (push_size (bN b) s1) as [[[n h] s2]|e] eqn:P; [|discriminate].
    destruct (blen s2 <? n) eqn:Ln; [discriminate|].
    match goal with |- context [raw_iter_loop f ?i' ?s'] => destruct (raw_iter_loop f i' s') as [l e] eqn:El; specialize (IH i' s' (map cook l)) end.
    intros H. injection H as <- ->. cbn [map]. constructor.
    + cbn [cook item_of stable_item]. unfold blen. rewrite firstn_length.
      pose proof (push_size_bound _ _ _ _ _ P).
      lia.
    + apply IH. rewrite El. reflexivity.
Qed.

Lemma canonicalize_iter s items : script_iter s = (items, None) ->
  exists t, canonicalize s = Ok t /\ script_iter t = (items, None).
Proof.
  intros H. destruct (script_parses_stable _ (stable_of_cooked s items H)) as (t & cs & Et & Ec & F).
  exists t. unfold canonicalize. rewrite H. split; [exact Et|]. rewrite Ec. f_equal.
  clear - F. remember (map item_of items) as l eqn:El. revert items El.
  induction F as [|x c l cs S F IH]; intros [|i items] El; try discriminate; [reflexivity|].
  injection El as -> ->. f_equal; [|apply IH; reflexivity].
  destruct i, c; cbn in S; try contradiction; congruence.
Qed.

Lemma canonicalize_err s e : canonicalize s = Err e -> e = CBitcoinAddressError.
Proof.
  intros H. destruct (script_iter s) as [items [e'|]] eqn:Es.
  - unfold canonicalize in H. rewrite Es in H. unfold script_iter in Es. destruct (raw_iter s) as [l e''] eqn:Er.
    injection Es as _ ->. destruct (raw_iter_err s e') as [->| ->]; [rewrite Er; reflexivity|congruence|congruence].
  - destruct (canonicalize_iter s items Es) as (t & E & _). congruence.
Qed.

Lemma p2pkh_cscript h : List.length h = 20%nat -> cscript [IOp 0x76; IOp 0xa9; IData h; IOp 0x88; IOp 0xac] = Ok (p2pkh_script h).
Proof.
  intros L. unfold cscript. cbn [objs_ser coerce]. unfold encode_op_pushdata. replace (blen h) with 20 by (unfold blen; lia). reflexivity.
Qed.
Lemma p2sh_cscript h : List.length h = 20%nat -> cscript [IOp 0xa9; IData h; IOp 0x87] = Ok (p2sh_script h).
Proof.
  intros L. unfold cscript. cbn [objs_ser coerce]. unfold encode_op_pushdata. replace (blen h) with 20 by (unfold blen; lia). reflexivity.
Qed.
Lemma bare_cscript pk n : List.length pk = n -> (n < 0x4c)%nat -> cscript [IData pk; IOp 0xac] = Ok (Nb (N.of_nat n) :: pk ++ [xac]).
Proof.
  intros L Hn. unfold cscript. cbn [objs_ser coerce]. unfold encode_op_pushdata. replace (blen pk) with (N.of_nat n) by (unfold blen; lia).
  replace (N.of_nat n <? 76) with true by lia. reflexivity.
Qed.

Lemma cscript_iter l s items : cscript l = Ok s -> Forall stable_item l -> l = map item_of items -> script_iter s = (items, None).
Proof.
  intros E F ->. destruct (script_parses_stable _ F) as (t & cs & Et & Ec & S). replace t with s in Ec by congruence.
  rewrite Ec. f_equal. clear - S. remember (map item_of items) as l eqn:El. revert items El.
  induction S as [|x c l cs S F IH]; intros [|i items] El; try discriminate; [reflexivity|].
  injection El as -> ->. f_equal; [|apply IH; reflexivity].
  destruct i, c; cbn in S; try contradiction; congruence.
Qed.

Lemma p2pkh_ops h : List.length h = 20%nat -> has_ops (p2pkh_script h) [COp 0x76; COp 0xa9; CData h; COp 0x88; COp 0xac].
Proof.
  intros L. eapply cscript_iter; [apply p2pkh_cscript, L| |reflexivity].
  repeat constructor; cbn; try lia. unfold blen. lia.
Qed.
Lemma p2sh_ops h : List.length h = 20%nat -> has_ops (p2sh_script h) [COp 0xa9; CData h; COp 0x87].
Proof.
  intros L. eapply cscript_iter; [apply p2sh_cscript, L| |reflexivity].
  repeat constructor; cbn; try lia. unfold blen. lia.
Qed.
Lemma bare_ops pk n : List.length pk = n -> (n < 0x4c)%nat -> has_ops (Nb (N.of_nat n) :: pk ++ [xac]) [CData pk; COp 0xac].
Proof.
  intros L Hn. eapply cscript_iter; [apply (bare_cscript pk n L Hn)| |reflexivity].
  repeat constructor; cbn; try lia. unfold blen. lia.
Qed.

(** Canonical form of the templates. *)
Lemma canonicalize_template s items l t : has_ops s items -> l = map item_of items -> cscript l = Ok t -> canonicalize s = Ok t.
Proof. intros H -> E. unfold canonicalize. rewrite H. exact E. Qed.

Lemma byte_at_eq s i v : byte_at s i v = true -> v < 256 -> (i < List.length s)%nat ->
  s = firstn i s ++ Nb v :: skipn (S i) s.
Proof.
  unfold byte_at. intros H Hv L. apply N.eqb_eq in H.
  assert (E : nth i s x00 = Nb v) by (apply bN_inj; rewrite bN_Nb_small by exact Hv; exact H).
  rewrite <- E. clear - L. revert i L. induction s as [|x s IH]; intros [|i] L; cbn in L |- *; try lia; [reflexivity|].
  f_equal. apply IH. lia.
Qed.

Lemma slice_mid (a m z : bytes) i j : Z.of_nat (List.length a) = i -> (i + Z.of_nat (List.length m) = j)%Z ->
  py_slice (a ++ m ++ z) (Slice (Some i) (Some j) None) = Ok m.
Proof.
  intros Hi Hj.
  erewrite py_slice_unit by (unfold slice_indices; cbn [sl_step sl_start sl_stop Z.eqb]; reflexivity).
  change (1 <? 0)%Z with false. cbn iota. cbn [adjust].
  assert (L : (Z.of_nat (List.length (a ++ m ++ z)) >= j)%Z) by (rewrite !app_length; lia).
  replace (i <? 0)%Z with false by lia. replace (j <? 0)%Z with false by lia.
  rewrite !Z.min_l by lia. replace (Z.to_nat i) with (List.length a) by lia. replace (Z.to_nat (j - i)) with (List.length m) by lia.
  rewrite skipn_app, skipn_all, Nat.sub_diag. cbn [app skipn]. rewrite firstn_app, firstn_all, Nat.sub_diag. cbn [firstn].
  rewrite app_nil_r. reflexivity.
Qed.

Lemma is_p2sh_iff s : is_p2sh s = true <-> exists h, s = p2sh_script h /\ List.length h = 20%nat.
Proof.
  split.
  - unfold is_p2sh. destruct s as [|b0 [|b1 s]]; try discriminate. intros H.
    apply andb_prop in H as [H H4]. apply andb_prop in H as [H H3]. apply andb_prop in H as [H1 H2].
    apply N.eqb_eq in H1. apply N.eqb_eq in H2. apply N.eqb_eq in H3.
    assert (L : List.length s = 21%nat) by (unfold blen in H1; cbn [List.length] in H1; lia).
    change (nth 22 (b0 :: b1 :: s) x00) with (nth 20 s x00) in H4.
    pose proof (byte_at_eq s 20 0x87 H4 ltac:(lia) ltac:(lia)) as E.
    exists (firstn 20 s). split; [|rewrite firstn_length; lia].
    unfold p2sh_script. cbn [app]. rewrite E at 1. f_equal; [apply bN_inj; exact H2|]. f_equal; [apply bN_inj; exact H3|].
    f_equal. f_equal. apply skipn_all2. lia.
  - intros (h & -> & L). unfold is_p2sh, p2sh_script. cbn [app].
    replace (blen (xa9 :: x14 :: h ++ [x87])) with 23 by (unfold blen; cbn [List.length]; rewrite app_length; cbn [List.length]; lia).
    change (nth 22 (xa9 :: x14 :: h ++ [x87]) x00) with (nth 20 (h ++ [x87]) x00).
    rewrite app_nth2 by lia. replace (20 - List.length h)%nat with 0%nat by lia. reflexivity.
Qed.

Lemma p2sh_from_script pr h : network pr -> List.length h = 20%nat ->
  p2sh_from_scriptPubKey pr (p2sh_script h) = Ok (Address P2SH (SCRIPT_ADDR pr) h).
Proof.
  intros Hn L. unfold p2sh_from_scriptPubKey.
  assert (is_p2sh (p2sh_script h) = true) as -> by (apply is_p2sh_iff; exists h; split; [reflexivity|exact L]).
  rewrite (slice_mid [xa9; x14] h [x87]) by (cbn [List.length]; lia). cbn [bind].
  unfold p2sh_from_bytes. rewrite N.eqb_refl. cbn [negb].
  apply address_from_ok; [exact Hn|destruct Hn as [-> | [-> | ->]]; cbn; lia|]. repeat split.
Qed.

Lemma p2sh_from_none pr s : is_p2sh s = false -> p2sh_from_scriptPubKey pr s = Err CBitcoinAddressError.
Proof. intros H. unfold p2sh_from_scriptPubKey. rewrite H. reflexivity. Qed.

(** The three templates the P2PKH side recognizes in canonical scripts. *)
Definition tpl_pkh (s : bytes) : bool :=
  (blen s =? 25) && byte_at s 0 0x76 && byte_at s 1 0xa9 && byte_at s 2 0x14 && byte_at s 23 0x88 && byte_at s 24 0xac.
Definition tpl_33 (s : bytes) : bool := (blen s =? 35) && byte_at s 0 0x21 && byte_at s 34 0xac.
Definition tpl_65 (s : bytes) : bool := (blen s =? 67) && byte_at s 0 0x41 && byte_at s 66 0xac.

Lemma tpl_pkh_iff s : tpl_pkh s = true <-> exists h, s = p2pkh_script h /\ List.length h = 20%nat.
Proof.
  split.
  - unfold tpl_pkh. intros H. repeat (apply andb_prop in H; destruct H as [H ?]). apply N.eqb_eq in H.
    assert (L : List.length s = 25%nat) by (unfold blen in H; lia).
    destruct s as [|b0 [|b1 [|b2 s]]]; try discriminate. cbn [List.length] in L.
    unfold byte_at in H4, H3, H2. cbn [nth] in H4, H3, H2. apply N.eqb_eq in H4. apply N.eqb_eq in H3. apply N.eqb_eq in H2.
    assert (B1 : byte_at s 20 0x88 = true) by exact H1. assert (B0 : byte_at s 21 0xac = true) by exact H0.
    pose proof (byte_at_eq s 20 0x88 B1 ltac:(lia) ltac:(lia)) as E.
    assert (Lk : List.length (skipn 21 s) = 1%nat) by (rewrite skipn_length; lia).
    assert (E2 : skipn 21 s = [xac]).
    { destruct (skipn 21 s) as [|z [|? ?]] eqn:Ez; try discriminate. f_equal.
      unfold byte_at in B0. apply N.eqb_eq in B0. apply bN_inj. rewrite E in B0.
      rewrite app_nth2 in B0 by (rewrite firstn_length; lia). rewrite firstn_length in B0.
      replace (21 - Nat.min 20 (List.length s))%nat with 1%nat in B0 by lia. exact B0. }
    exists (firstn 20 s). split; [|rewrite firstn_length; lia].
    unfold p2pkh_script. cbn [app]. rewrite E at 1. rewrite E2.
    f_equal; [apply bN_inj; exact H4|]. f_equal; [apply bN_inj; exact H3|]. f_equal. apply bN_inj; exact H2.
  - intros (h & -> & L). unfold tpl_pkh, p2pkh_script. cbn [app].
    replace (blen (x76 :: xa9 :: x14 :: h ++ [x88; xac])) with 25 by (unfold blen; cbn [List.length]; rewrite app_length; cbn [List.length]; lia).
    unfold byte_at. change (nth 23 (x76 :: xa9 :: x14 :: h ++ [x88; xac]) x00) with (nth 20 (h ++ [x88; xac]) x00).
    change (nth 24 (x76 :: xa9 :: x14 :: h ++ [x88; xac]) x00) with (nth 21 (h ++ [x88; xac]) x00).
    rewrite !app_nth2 by lia. rewrite L. reflexivity.
Qed.

Lemma tpl_bare_iff s n : (n < 0x4c)%nat ->
  (blen s =? N.of_nat (n + 2)) && byte_at s 0 (N.of_nat n) && byte_at s (S n) 0xac = true <->
  exists pk, s = Nb (N.of_nat n) :: pk ++ [xac] /\ List.length pk = n.
Proof.
  intros Hn. split.
  - intros H. apply andb_prop in H as [H H0]. apply andb_prop in H as [H H1]. apply N.eqb_eq in H.
    destruct s as [|b0 s]; [cbn in H; lia|]. assert (L : List.length s = S n) by (unfold blen in H; cbn [List.length] in H; lia).
    unfold byte_at in H1. cbn [nth] in H1. apply N.eqb_eq in H1. assert (B : byte_at s n 0xac = true) by exact H0.
    pose proof (byte_at_eq s n 0xac B ltac:(lia) ltac:(lia)) as E.
    exists (firstn n s). split; [|rewrite firstn_length; lia]. rewrite E at 1.
    f_equal; [apply bN_inj; rewrite bN_Nb_small by lia; exact H1|]. f_equal. f_equal. apply skipn_all2. lia.
  - intros (pk & -> & L).
    replace (blen (Nb (N.of_nat n) :: pk ++ [xac])) with (N.of_nat (n + 2)) by (unfold blen; cbn [List.length]; rewrite app_length; cbn [List.length]; lia).
    rewrite N.eqb_refl. unfold byte_at. cbn [nth]. rewrite bN_Nb_small by lia. rewrite N.eqb_refl.
    rewrite app_nth2 by lia. replace (n - List.length pk)%nat with 0%nat by lia. reflexivity.
Qed.

Lemma p2pkh_from_ok pr d : network pr -> p2pkh_from_bytes pr d (PUBKEY_ADDR pr) = Ok (Address P2PKH (PUBKEY_ADDR pr) d).
Proof.
  intros Hn. unfold p2pkh_from_bytes. rewrite N.eqb_refl. cbn [negb].
  apply address_from_ok; [exact Hn|destruct Hn as [-> | [-> | ->]]; cbn; lia|]. repeat split.
Qed.

(** The P2PKH side on a canonical script. *)
Inductive side (pr : prefixes) (bare : bool) (s : bytes) : result address -> Prop :=
| side_pkh h : s = p2pkh_script h -> List.length h = 20%nat -> side pr bare s (Ok (Address P2PKH (PUBKEY_ADDR pr) h))
| side_33 pk : bare = true -> s = x21 :: pk ++ [xac] -> List.length pk = 33%nat ->
    side pr bare s (Ok (Address P2PKH (PUBKEY_ADDR pr) (Hash160 pk)))
| side_65 pk : bare = true -> s = x41 :: pk ++ [xac] -> List.length pk = 65%nat ->
    side pr bare s (Ok (Address P2PKH (PUBKEY_ADDR pr) (Hash160 (firstn 64 pk))))
| side_none : (forall h, List.length h = 20%nat -> s <> p2pkh_script h) ->
    (bare = true -> forall pk, List.length pk = 33%nat -> s <> x21 :: pk ++ [xac]) ->
    (bare = true -> forall pk, List.length pk = 65%nat -> s <> x41 :: pk ++ [xac]) ->
    side pr bare s (Err CBitcoinAddressError).

Lemma p2pkh_side pr (nc bare : bool) spk s : network pr -> (if nc then canonicalize spk = Ok s else spk = s) ->
  side pr bare s (p2pkh_from_scriptPubKey pr nc bare spk).
Proof.
  intros Hn Hs. unfold p2pkh_from_scriptPubKey.
  assert ((if nc then canonicalize spk else Ok spk) = Ok s) as -> by (destruct nc; [exact Hs|congruence]). cbn [bind].
  fold (tpl_pkh s). fold (tpl_33 s). fold (tpl_65 s).
  pose proof (tpl_bare_iff s 33 ltac:(lia)) as T33. change (N.of_nat (33 + 2)) with 35 in T33. change (N.of_nat 33) with 0x21 in T33.
  fold (tpl_33 s) in T33. change (Nb 0x21) with x21 in T33.
  pose proof (tpl_bare_iff s 65 ltac:(lia)) as T65. change (N.of_nat (65 + 2)) with 67 in T65. change (N.of_nat 65) with 0x41 in T65.
  fold (tpl_65 s) in T65. change (Nb 0x41) with x41 in T65.
  destruct (tpl_pkh s) eqn:E1.
  - apply tpl_pkh_iff in E1 as (h & -> & L). unfold p2pkh_script at 1.
    rewrite (slice_mid [x76; xa9; x14] h [x88; xac]) by (cbn [List.length]; lia). cbn [bind].
    rewrite p2pkh_from_ok by exact Hn. apply side_pkh; [reflexivity|exact L].
  - assert (N1 : forall h, List.length h = 20%nat -> s <> p2pkh_script h).
    { intros h L ->. assert (tpl_pkh (p2pkh_script h) = true) by (apply tpl_pkh_iff; exists h; split; [reflexivity|exact L]). congruence. }
    destruct bare; [|apply side_none; [exact N1|discriminate|discriminate]].
    destruct (tpl_33 s) eqn:E2.
    + apply proj1 in T33. destruct (T33 eq_refl) as (pk & -> & L).
      rewrite (slice_mid [x21] pk [xac]) by (cbn [List.length]; lia). cbn [bind]. unfold from_pubkey. rewrite p2pkh_from_ok by exact Hn.
      apply side_33; [reflexivity|reflexivity|exact L].
    + destruct (tpl_65 s) eqn:E3.
      * apply proj1 in T65. destruct (T65 eq_refl) as (pk & -> & L).
        assert (Es : x41 :: pk ++ [xac] = [x41] ++ firstn 64 pk ++ (skipn 64 pk ++ [xac])) by (rewrite (app_assoc (firstn 64 pk)), firstn_skipn; reflexivity).
        rewrite Es at 2. rewrite (slice_mid [x41] (firstn 64 pk)) by (cbn [List.length]; rewrite ?firstn_length; lia). cbn [bind].
        unfold from_pubkey. rewrite p2pkh_from_ok by exact Hn. apply side_65; [reflexivity|reflexivity|exact L].
      * apply side_none; [exact N1| |].
        -- intros _ pk L ->. assert (false = true) by (apply T33; exists pk; split; [reflexivity|exact L]). discriminate.
        -- intros _ pk L ->. assert (false = true) by (apply T65; exists pk; split; [reflexivity|exact L]). discriminate.
Qed.

Lemma has_ops_unique s a b : has_ops s a -> has_ops s b -> a = b.
Proof. unfold has_ops. congruence. Qed.

Lemma ops_first_byte s c r : has_ops s (c :: r) -> exists b t, s = b :: t /\
  match c with COp op => op = bN b | CData _ => bN b <= 0x4e | CInt _ => True end.
Proof.
  unfold has_ops, script_iter, raw_iter. intros H. destruct s as [|b t]; [discriminate|]. exists b, t. split; [reflexivity|].
  revert H. cbn [List.length]. rewrite raw_loop_S. destruct (N.ltb_spec 0x4e (bN b)).
  - destruct (raw_iter_loop _ _ t) as [l e]. cbn [map]. intros E. injection E as E _ _. unfold cook in E. subst c.
    destruct (is_small_int (bN b)); [|reflexivity]. destruct (decode_op_n (bN b)); [exact Logic.I|reflexivity].
  - destruct (push_size (bN b) t) as [[[n h] s2]|e]; [|discriminate]. destruct (blen s2 <? n); [discriminate|].
    match goal with |- context [raw_iter_loop ?f ?i' ?s'] => destruct (raw_iter_loop f i' s') as [l e] end.
    cbn [map]. intros E. injection E as E _ _. subst c. cbn [cook]. exact H.
Qed.

Lemma script_of_length c h : List.length h = 20%nat -> forall d, script_of c h = script_of c d -> h = d.
Proof.
  intros L d E. destruct c; unfold script_of, p2sh_script, p2pkh_script in E.
  - apply app_inv_head in E. apply app_inj_tail in E as [E _]. exact E.
  - apply app_inv_head in E. change [x88; xac] with ([x88] ++ [xac]) in E. rewrite !app_assoc in E.
    apply app_inj_tail in E as [E _]. apply app_inj_tail in E as [E _]. exact E.
Qed.

Lemma to_script pr c h : List.length h = 20%nat -> to_scriptPubKey pr (Address c (version_of pr c) h) = Ok (script_of c h).
Proof.
  intros L. unfold to_scriptPubKey. cbn [a_class a_nVersion a_data]. destruct c; cbn [version_of script_of];
    rewrite N.eqb_refl; cbn [assert bind]; [apply p2sh_cscript, L|apply p2pkh_cscript, L].
Qed.

(** What a script that pays somebody converts to. *)
Lemma from_script_complete pr s c h : network pr -> pays [33%nat] s c h ->
  from_scriptPubKey pr s = Ok (Address c (version_of pr c) h).
Proof.
  intros Hn P. unfold from_scriptPubKey. destruct P as [h -> L | h O L | pk O [L|[]]].
  - rewrite p2sh_from_script by assumption. reflexivity.
  - assert (NP : is_p2sh s = false).
    { destruct (is_p2sh s) eqn:E; [|reflexivity]. apply is_p2sh_iff in E as (h' & -> & _).
      apply ops_first_byte in O as (b & t & E & Hb). injection E as <- _. discriminate. }
    rewrite (p2sh_from_none pr s NP).
    pose proof (p2pkh_side pr true true s (p2pkh_script h) Hn (canonicalize_template s _ _ _ O eq_refl (p2pkh_cscript h L))) as S.
    inversion S as [h' E L' R|pk' _ E L' R|pk' _ E L' R|N1 N2 N3 R].
    + apply (script_of_length P2PKH h L h') in E. subst h'. reflexivity.
    + discriminate.
    + discriminate.
    + exfalso. apply (N1 h L). reflexivity.
  - assert (NP : is_p2sh s = false).
    { destruct (is_p2sh s) eqn:E; [|reflexivity]. apply is_p2sh_iff in E as (h' & -> & _).
      apply ops_first_byte in O as (b & t & E & Hb). injection E as <- _. cbv in Hb. contradiction Hb; reflexivity. }
    rewrite (p2sh_from_none pr s NP).
    pose proof (bare_cscript pk 33 (eq_sym L) ltac:(lia)) as B. change (Nb (N.of_nat 33)) with x21 in B.
    pose proof (p2pkh_side pr true true s _ Hn (canonicalize_template s _ _ _ O eq_refl B)) as S.
    inversion S as [h' E L' R|pk' _ E L' R|pk' _ E L' R|N1 N2 N3 R].
    + discriminate.
    + injection E as E. apply app_inj_tail in E as [-> _]. reflexivity.
    + discriminate.
    + exfalso. apply (N2 eq_refl pk (eq_sym L)). reflexivity.
Qed.

Lemma from_script_sound pr s a : network pr -> from_scriptPubKey pr s = Ok a ->
  a_nVersion a = version_of pr (a_class a) /\
  (pays [33%nat] s (a_class a) (a_data a) \/
   a_class a = P2PKH /\ exists pk, has_ops s [CData pk; COp 0xac] /\ List.length pk = 65%nat /\ a_data a = Hash160 (firstn 64 pk)).
Proof.
  intros Hn H. unfold from_scriptPubKey in H. destruct (is_p2sh s) eqn:E.
  - apply is_p2sh_iff in E as (h & -> & L). rewrite p2sh_from_script in H by assumption. injection H as <-.
    split; [reflexivity|]. left. constructor; [reflexivity|exact L].
  - rewrite (p2sh_from_none pr s E) in H.
    assert (H' : p2pkh_from_scriptPubKey pr true true s = Ok a) by (destruct (p2pkh_from_scriptPubKey pr true true s) as [|[]]; congruence).
    clear H. destruct (script_iter s) as [items e] eqn:Ei.
    destruct e as [e|].
    { exfalso. unfold p2pkh_from_scriptPubKey in H'. destruct (canonicalize s) as [t|] eqn:Ec; [|discriminate].
      unfold canonicalize in Ec. rewrite Ei in Ec. destruct e; discriminate. }
    destruct (canonicalize_iter s items Ei) as (t & Et & It).
    pose proof (p2pkh_side pr true true s t Hn Et) as S. rewrite H' in S.
    inversion S as [h' E' L' R|pk' _ E' L' R|pk' _ E' L' R|]; subst t; (split; [reflexivity|]).
    + left. cbn [a_class a_data]. apply pays_key_hash; [|exact L'].
      assert (Eit : items = _) by (eapply has_ops_unique; [exact It|apply p2pkh_ops, L']). rewrite Eit in Ei. exact Ei.
    + left. cbn [a_class a_data]. apply pays_key; [|left; symmetry; exact L'].
      assert (Eit : items = _) by (eapply has_ops_unique; [exact It|apply (bare_ops pk' 33 L'); lia]). rewrite Eit in Ei. exact Ei.
    + right. cbn [a_class a_data]. split; [reflexivity|]. exists pk'. split; [|split; [exact L'|reflexivity]].
      assert (Eit : items = _) by (eapply has_ops_unique; [exact It|apply (bare_ops pk' 65 L'); lia]). rewrite Eit in Ei. exact Ei.
Qed.

Lemma from_script_errors pr s e : network pr -> from_scriptPubKey pr s = Err e -> e = CBitcoinAddressError.
Proof.
  intros Hn H. unfold from_scriptPubKey in H. destruct (is_p2sh s) eqn:E.
  - apply is_p2sh_iff in E as (h & -> & L). rewrite p2sh_from_script in H by assumption. discriminate.
  - rewrite (p2sh_from_none pr s E) in H.
    assert (G : forall e', p2pkh_from_scriptPubKey pr true true s = Err e' -> e' = CBitcoinAddressError).
    { intros e' H'. destruct (canonicalize s) as [t|e''] eqn:Ec.
      - pose proof (p2pkh_side pr true true s t Hn Ec) as S. rewrite H' in S. inversion S. reflexivity.
      - unfold p2pkh_from_scriptPubKey in H'. rewrite Ec in H'. cbn [bind] in H'. apply canonicalize_err in Ec. congruence. }
    destruct (p2pkh_from_scriptPubKey pr true true s) as [a|e']; [discriminate|]. rewrite (G e' eq_refl) in H. congruence.
Qed.

(** The strict reading: no rewriting of pushes, no bare keys. *)
Lemma strict_exact pr s a : network pr -> p2pkh_from_scriptPubKey pr false false s = Ok a <->
  exists h, List.length h = 20%nat /\ s = p2pkh_script h /\ a = Address P2PKH (PUBKEY_ADDR pr) h.
Proof.
  intros Hn. pose proof (p2pkh_side pr false false s s Hn eq_refl) as S. split.
  - intros H. rewrite H in S. inversion S as [h' E' L' R|pk' B E' L' R|pk' B E' L' R|]; try discriminate.
    exists h'. repeat split; assumption.
  - intros (h & L & E & ->). inversion S as [h' E' L' R|pk' B E' L' R|pk' B E' L' R|N1 N2 N3 R]; try discriminate.
    + f_equal. f_equal. apply (script_of_length P2PKH h' L'). cbn [script_of]. congruence.
    + exfalso. apply (N1 h L E).
Qed.

(** Round trips. *)
Lemma address_script_roundtrip pr c h : network pr -> List.length h = 20%nat -> exists s,
  to_scriptPubKey pr (Address c (version_of pr c) h) = Ok s /\ s = script_of c h /\
  from_scriptPubKey pr s = Ok (Address c (version_of pr c) h).
Proof.
  intros Hn L. exists (script_of c h). split; [apply to_script, L|]. split; [reflexivity|].
  apply from_script_complete; [exact Hn|]. destruct c; cbn [script_of].
  - apply pays_script; [reflexivity|exact L].
  - apply pays_key_hash; [apply p2pkh_ops, L|exact L].
Qed.

Lemma address_data_length pr s a : network pr -> from_scriptPubKey pr s = Ok a -> List.length (a_data a) = 20%nat.
Proof.
  intros Hn H. destruct (from_script_sound pr s a Hn H) as [_ [P|(_ & pk & _ & _ & ->)]]; [|apply Hash160_length].
  destruct P as [h _ L|h _ L|pk _ _]; [exact L|exact L|apply Hash160_length].
Qed.

Lemma redeem_address pr r : network pr -> (blen r <= 520)%N ->
  from_redeemScript pr r = Ok (Address P2SH (SCRIPT_ADDR pr) (Hash160 r)) /\
  to_scriptPubKey pr (Address P2SH (SCRIPT_ADDR pr) (Hash160 r)) = to_p2sh_scriptPubKey true r.
Proof.
  intros Hn L. pose proof (Hash160_length r) as LH. unfold from_redeemScript, to_p2sh_scriptPubKey.
  replace (520 <? blen r) with false by lia. cbn [andb].
  generalize dependent (Hash160 r). intros h LH. rewrite (p2sh_cscript h LH). cbn [bind]. split; [apply p2sh_from_script; assumption|].
  apply (to_script pr P2SH h LH).
Qed.

Lemma redeem_too_long pr r : (520 < blen r)%N -> from_redeemScript pr r = Err ValueError.
Proof. intros L. unfold from_redeemScript, to_p2sh_scriptPubKey. replace (520 <? blen r) with true by lia. reflexivity. Qed.

(** ** Secrets *)

Lemma secret_version pr : network pr -> exists v, SECRET_KEY pr = bN v /\ forall x, firstn 4 (Hash [v]) <> v :: x.
Proof.
  intros [-> | [-> | ->]]; [exists x80|exists xef|exists xef]; (split; [reflexivity|]);
    intros x E; apply (f_equal (fun l => hd x00 l)) in E; cbn [hd] in E; vm_compute in E; discriminate.
Qed.

Lemma slice_0_32 (d : bytes) : py_slice d (Slice (Some 0%Z) (Some 32%Z) None) = Ok (firstn 32 d).
Proof.
  erewrite py_slice_unit by (unfold slice_indices; cbn [sl_step sl_start sl_stop Z.eqb]; reflexivity).
  change (1 <? 0)%Z with false. cbn iota. cbn [adjust]. change (0 <? 0)%Z with false. change (32 <? 0)%Z with false. cbn iota.
  replace (Z.to_nat (Z.min 0 (Z.of_nat (List.length d)))) with 0%nat by lia. cbn [skipn]. f_equal.
  destruct (Nat.le_gt_cases 32 (List.length d)); [f_equal; lia|]. rewrite !firstn_all2 by lia. reflexivity.
Qed.

Lemma secret_text pr k c : network pr -> List.length k = 32%nat -> exists sec s,
  from_secret_bytes pr k c = Ok sec /\ s_key sec = k /\ s_compressed sec = c /\ secret_str sec = Ok s /\ CBitcoinSecret pr s = Ok sec.
Proof.
  intros Hn L. destruct (secret_version pr Hn) as (v & Ev & _). set (d := k ++ (if c then [x01] else [])).
  assert (Hi : secret_init pr (B58 (SECRET_KEY pr) d) = Ok (Secret (SECRET_KEY pr) d k c)).
  { unfold secret_init. cbn [d_nVersion d_data]. rewrite N.eqb_refl. cbn [negb]. rewrite slice_0_32. cbn [bind]. f_equal.
    f_equal.
    - unfold d. rewrite firstn_app, <- L, firstn_all, Nat.sub_diag. cbn [firstn]. apply app_nil_r.
    - unfold d, byte_at, blen. rewrite app_length, L. destruct c; cbn [List.length]; [|reflexivity].
      rewrite app_nth2 by lia. rewrite L. reflexivity. }
  exists (Secret (SECRET_KEY pr) d k c), (b58encode (with_checksum v d)).
  assert (Hv : SECRET_KEY pr <= 255) by (rewrite Ev; pose proof (bN_lt v); lia).
  split; [unfold from_secret_bytes; rewrite base58_from_small by exact Hv; exact Hi|].
  split; [reflexivity|]. split; [reflexivity|]. unfold secret_str. cbn [s_nVersion s_bytes].
  split; [rewrite Ev; apply base58_str_eq|].
  unfold CBitcoinSecret. assert (CBase58Data (b58encode (with_checksum v d)) = Ok (B58 (SECRET_KEY pr) d)) as ->; [|exact Hi].
  apply base58_accepts. exists v. split; [exact Ev|left; reflexivity].
Qed.

Lemma secret_accepted pr s sec : network pr -> CBitcoinSecret pr s = Ok sec ->
  s_nVersion sec = SECRET_KEY pr /\ secret_str sec = Ok s /\ s_key sec = firstn 32 (s_bytes sec) /\
  (s_compressed sec = true <-> nth_error (s_bytes sec) 32 = Some x01).
Proof.
  intros Hn H. unfold CBitcoinSecret in H. destruct (CBase58Data s) as [[n d]|e] eqn:E; [|discriminate]. cbn [bind] in H.
  apply base58_accepts in E as (v & -> & C). unfold secret_init in H. cbn [d_nVersion d_data] in H.
  destruct (N.eqb_spec (bN v) (SECRET_KEY pr)) as [Ev|]; [|discriminate]. cbn [negb] in H. rewrite slice_0_32 in H. cbn [bind] in H.
  injection H as <-. cbn [s_nVersion s_bytes s_key s_compressed]. split; [exact Ev|]. split; [|split; [reflexivity|]].
  - unfold secret_str. cbn [s_nVersion s_bytes]. rewrite base58_str_eq. destruct C as [-> | (_ & c & Hc & _)]; [reflexivity|].
    exfalso. destruct (secret_version pr Hn) as (v' & Ev' & Nv). assert (v = v') as <- by (apply bN_inj; congruence). eapply Nv, Hc.
  - unfold byte_at. split.
    + intros H. apply andb_prop in H as [H1 H2]. apply N.ltb_lt in H1. apply N.eqb_eq in H2. unfold blen in H1.
      rewrite (nth_error_nth' d x00) by lia. f_equal. apply bN_inj. exact H2.
    + intros H. assert (32 < List.length d)%nat by (apply nth_error_Some; congruence).
      rewrite (nth_error_nth d 32 x00 H). unfold blen. replace (32 <? N.of_nat (List.length d)) with true by lia. reflexivity.
Qed.

Lemma secret_errors pr s e : CBitcoinSecret pr s = Err e ->
  e = InvalidBase58Error \/ e = Base58ChecksumError \/ e = CBitcoinSecretError.
Proof.
  unfold CBitcoinSecret. destruct (CBase58Data s) as [d|e'] eqn:E; cbn [bind].
  - unfold secret_init. destruct (negb _); [intros H; right; right; congruence|]. rewrite slice_0_32. discriminate.
  - intros H. injection H as ->. apply base58_rejects in E as [[-> _]|[-> _]]; auto.
Qed.
