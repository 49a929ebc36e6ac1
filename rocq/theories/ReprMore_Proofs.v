(** Other printed forms, pasted back: bits, tags, base58 data, public keys; headers. *)
From Verif Require Import Base Tx_Model Tx_Spec Script_Model Script_Spec Block_Model Block_Spec Hex_Model Money_Model Money_Spec Money_Proofs
  Base58_Model Base58_Spec Base58_Proofs Bits_Model Bits_Spec Bits_Proofs PyText_Spec PyText_Proofs Repr_Model Repr_Spec ChainPipe_Proofs Repr_Proofs ReprTx_Proofs ReprBad_Proofs.
From Coq Require Import Lia ZifyBool ZifyNat ZifyN.
Local Open Scope Z_scope.
Local Open Scope list_scope.

Ltac is_name := destruct (list_eq_dec _ _ _) as [_|Q]; [|exfalso; apply Q; reflexivity].
Ltac not_name := destruct (list_eq_dec _ _ _) as [Q|_]; [discriminate Q|].

(** ** Bits *)

Lemma bits_pasted pr b l : yields b l -> exists s b', bits_repr b = Ok s /\ python pr s = Some (Ok (VBits b')) /\ api_bits b' /\ yields b' l.
Proof.
  intros Y. unfold bits_repr. unfold yields in Y. rewrite Y. cbn [bind]. destruct (bits_new_observed l) as (b' & N & A & Y' & _).
  eexists. exists b'. split; [reflexivity|]. split; [|split; assumption].
  unfold python. rewrite (read_expression _ (ECall (T "Bits") [EList (map (fun x : bool => ENum (if x then 1 else 0)) l)])).
  - f_equal. rewrite evaluate_call. cbn [mapM]. rewrite evaluate_list, mapM_map. rewrite (mapM_all _ (fun x : bool => VInt (if x then 1 else 0))) by reflexivity.
    cbn [bind]. unfold call. cbn [T list_ascii_of_string]. not_name. is_name. rewrite mapM_map. rewrite (mapM_all _ (fun x => x)) by (intros [] _; reflexivity).
    rewrite map_id. cbn [bind]. rewrite N. reflexivity.
  - constructor. rewrite map_map.
    assert (E : forall x, T "Bits([" ++ x ++ T "])" = T "Bits" ++ T "(" ++ (T "[" ++ x ++ T "]") ++ T ")").
    { intros x. cbn [T list_ascii_of_string app]. rewrite <- app_assoc. reflexivity. }
    rewrite E. apply call_items; [literal|]. constructor. constructor. apply atom_list. apply (join_items _ 0); [reflexivity|]. apply Forall2_map_expr.
    intros x _. constructor. destruct x; [apply (atom_num ["1"%char])|apply (atom_num ["0"%char])]; (discriminate || reflexivity).
Qed.

(** ** Texts in quotes *)

Lemma quoted_call f t : letters (T f) -> plain t -> read (T f ++ T "('" ++ t ++ T "')") = Some (ECall (T f) [EStr t]).
Proof.
  intros L P. apply read_expression. constructor.
  assert (E : T "('" ++ t ++ T "')" = T "(" ++ (T "'" ++ t ++ T "'") ++ T ")") by (cbn [T list_ascii_of_string app]; rewrite <- app_assoc; reflexivity).
  rewrite E. apply call_items; [exact L|]. constructor. apply quoted, P.
Qed.

Lemma hexval_digit d : (d < 16)%N -> hexval (hexdigit d) = d.
Proof.
  intros H. assert (S : forallb (fun n => (hexval (hexdigit n) =? n)%N) (map N.of_nat (seq 0 16)) = true) by (vm_compute; reflexivity).
  rewrite forallb_forall in S. apply N.eqb_eq, S. apply in_map_iff. exists (N.to_nat d). split; [lia|]. apply in_seq. lia.
Qed.
Lemma hex_to_hex b : hex (to_hex b) = b.
Proof.
  induction b as [|y b IH]; [reflexivity|]. cbn [to_hex hex]. pose proof (bN_lt y). rewrite !hexval_digit; [|apply N.mod_lt; lia|apply N.div_lt_upper_bound; lia].
  rewrite IH. f_equal. rewrite N.mul_comm. rewrite <- N.div_mod by lia. apply Nb_bN.
Qed.
Lemma to_hex_length b : List.length (T (to_hex b)) = (2 * List.length b)%nat.
Proof. unfold T. induction b as [|y b IH]; [reflexivity|]. cbn [to_hex list_ascii_of_string List.length]. rewrite IH. lia. Qed.

Lemma dashes_gone s : forallb is_hex s = true -> filter (fun c => negb (Ascii.eqb c "-")) s = s.
Proof.
  induction s as [|c s IH]; [reflexivity|]. cbn [forallb filter]. intros H. apply andb_prop in H. destruct H as [C H]. rewrite (IH H).
  destruct (Ascii.eqb_spec c "-") as [E|_]; [subst; discriminate C|reflexivity].
Qed.
Lemma forallb_firstn {A} (p : A -> bool) n l : forallb p l = true -> forallb p (firstn n l) = true.
Proof. rewrite !forallb_forall. intros H x X. apply H. rewrite <- (firstn_skipn n l). apply in_or_app. left. exact X. Qed.
Lemma forallb_skipn {A} (p : A -> bool) n l : forallb p l = true -> forallb p (skipn n l) = true.
Proof. rewrite !forallb_forall. intros H x X. apply H. rewrite <- (firstn_skipn n l). apply in_or_app. right. exact X. Qed.
Lemma skipn_more {A} n m (l : list A) : skipn n (skipn m l) = skipn (m + n) l.
Proof. revert l. induction m as [|m IH]; intros l; [reflexivity|]. destruct l as [|a l]; [destruct n; reflexivity|]. cbn [skipn Nat.add]. apply IH. Qed.

Lemma tag_pasted pr t : List.length t = 16%nat -> python pr (tag_repr t) = Some (Ok (VTag t)).
Proof.
  intros L. pose proof (to_hex_hex t) as H. pose proof (to_hex_length t) as HL. unfold tag_repr.
  change (T "HashTag('" ++ tag_str t ++ T "')") with (T "HashTag" ++ T "('" ++ tag_str t ++ T "')").
  assert (F : filter (fun c => negb (Ascii.eqb c "-")) (tag_str t) = T (to_hex t)).
  { unfold tag_str. cbv zeta. set (h := T (to_hex t)) in *. rewrite !filter_app. change (filter (fun c => negb (Ascii.eqb c "-")) (T "-")) with (@nil ascii). cbn [app].
    rewrite !dashes_gone by auto using forallb_firstn, forallb_skipn.
    replace (skipn 20 h) with (skipn 4 (skipn 16 h)) by apply skipn_more. rewrite firstn_skipn.
    replace (skipn 16 h) with (skipn 4 (skipn 12 h)) by apply skipn_more. rewrite firstn_skipn.
    replace (skipn 12 h) with (skipn 4 (skipn 8 h)) by apply skipn_more. rewrite firstn_skipn. apply firstn_skipn. }
  unfold python. rewrite quoted_call; [|literal|].
  - f_equal. rewrite evaluate_call. cbn [mapM evaluate bind]. unfold call. cbn [list_ascii_of_string].
    not_name. not_name. is_name. unfold uuid_of. cbv zeta. rewrite F, HL, H, L. cbn [Nat.mul Nat.add Nat.eqb andb bind]. rewrite T_back, hex_to_hex. reflexivity.
  - unfold plain, tag_str. cbv zeta. set (h := T (to_hex t)) in *.
    assert (P : forall s, forallb is_hex s = true -> forallb (fun c => negb (Ascii.eqb c "'" || Ascii.eqb c "\")) s = true).
    { intros s. apply forallb_weaken. intros c C. destruct (Ascii.eqb_spec c "'") as [E|_]; [subst; discriminate C|].
      destruct (Ascii.eqb_spec c "\") as [E|_]; [subst; discriminate C|reflexivity]. }
    rewrite !forallb_app. change (forallb (fun c => negb (Ascii.eqb c "'" || Ascii.eqb c "\")) (T "-")) with true.
    rewrite !P by auto using forallb_firstn, forallb_skipn. reflexivity.
Qed.

Lemma alphabet_plain t : Forall (fun c => In c alphabet) t -> plain t.
Proof.
  intros F. unfold plain. apply forallb_forall. intros c C. rewrite Forall_forall in F. specialize (F c C).
  assert (A : forallb (fun c => negb (Ascii.eqb c "'" || Ascii.eqb c "\")) alphabet = true) by (vm_compute; reflexivity).
  rewrite forallb_forall in A. apply A, F.
Qed.
Lemma str_plain d t : base58_str d = Ok t -> plain t.
Proof.
  unfold base58_str. destruct (pybyte _) as [v|e]; [|discriminate]. cbn [bind]. intros E. injection E as <-. apply alphabet_plain, encode_alphabet.
Qed.

Lemma base58_pasted pr n d : (n < 256)%N -> exists s, base58data_repr (B58 n d) = Ok s /\ python pr s = Some (Ok (VBase58 (B58 n d))).
Proof.
  intros N. destruct (base58_text_roundtrip n d N) as (t & S & R). unfold base58data_repr. rewrite S. cbn [bind]. eexists. split; [reflexivity|].
  unfold python, base58_repr. rewrite quoted_call by (literal || exact (str_plain _ _ S)). f_equal. rewrite evaluate_call. cbn [mapM evaluate bind]. unfold call.
  cbn [T list_ascii_of_string]. not_name. not_name. not_name. is_name. rewrite R. reflexivity.
Qed.

Lemma address_new pr c d : network pr -> exists t, address_str (Address c (version_of pr c) d) = Ok t /\ plain t /\
  forall A (f : bytes -> N -> result A), base58_new f t = f d (version_of pr c).
Proof.
  intros Hn. destruct (network_versions pr c Hn) as (v & Ev & _). exists (b58encode (with_checksum v d)).
  unfold address_str. cbn [a_nVersion a_data]. rewrite Ev. split; [apply base58_str_eq|]. split; [apply alphabet_plain, encode_alphabet|].
  intros A f. apply new_checked. left. reflexivity.
Qed.

Lemma address_pasted pr c d : network pr -> exists s, address_repr (Address c (version_of pr c) d) = Ok s /\
  python pr s = Some (Ok (VAddress (Address c (version_of pr c) d))) /\
  forall pr', version_of pr' c <> version_of pr c -> python pr' s = Some (Err ValueError).
Proof.
  intros Hn. destruct (address_new pr c d Hn) as (t & S & P & N). unfold address_repr. rewrite S. cbn [bind a_class]. eexists. split; [reflexivity|].
  assert (R : forall pr', python pr' (base58_repr (match c with P2SH => "P2SHBitcoinAddress" | P2PKH => "P2PKHBitcoinAddress" end)%string t) =
    Some (do a <- match c with P2SH => p2sh_from_bytes pr' | P2PKH => p2pkh_from_bytes pr' end d (version_of pr c); Ok (VAddress a))).
  { intros pr'. unfold python, base58_repr. rewrite quoted_call; [|destruct c; literal|exact P]. f_equal. rewrite evaluate_call. cbn [mapM evaluate bind]. unfold call.
    destruct c; cbn [T list_ascii_of_string]; not_name; not_name; not_name; not_name.
    - is_name. rewrite N. reflexivity.
    - not_name. is_name. rewrite N. reflexivity. }
  split.
  - rewrite R. f_equal. assert (L : (version_of pr c <= 255)%N) by (destruct Hn as [-> | [-> | ->]]; destruct c; cbn; lia).
    assert (A : address_from_bytes pr d (version_of pr c) = Ok (Address c (version_of pr c) d)) by (apply address_from_ok; auto).
    destruct c; unfold p2sh_from_bytes, p2pkh_from_bytes; cbn [version_of] in *; rewrite N.eqb_refl; cbn [negb]; rewrite A; reflexivity.
  - intros pr' D. rewrite R. f_equal. destruct c; unfold p2sh_from_bytes, p2pkh_from_bytes; cbn [version_of] in *.
    + destruct (N.eqb_spec (SCRIPT_ADDR pr) (SCRIPT_ADDR pr')); [congruence|reflexivity].
    + destruct (N.eqb_spec (PUBKEY_ADDR pr) (PUBKEY_ADDR pr')); [congruence|reflexivity].
Qed.

Lemma secret_pasted pr t sec : network pr -> CBitcoinSecret pr t = Ok sec -> exists s, secret_repr sec = Ok s /\ python pr s = Some (Ok (VSecret sec)).
Proof.
  intros Hn H. destruct (secret_accepted pr t sec Hn H) as (_ & S & _). unfold secret_repr. rewrite S. cbn [bind]. eexists. split; [reflexivity|].
  unfold python, base58_repr. rewrite quoted_call by (literal || exact (str_plain _ _ S)). f_equal. rewrite evaluate_call. cbn [mapM evaluate bind]. unfold call.
  cbn [T list_ascii_of_string]. not_name. not_name. not_name. not_name. not_name. not_name. is_name. rewrite H. reflexivity.
Qed.

(** ** Public keys *)

Lemma byte_read q y s : q = "'"%char \/ q = """"%char -> p_bytes q (byte_repr q y ++ s) = match p_bytes q s with Some (l, r) => Some (y :: l, r) | None => None end.
Proof. intros [-> | ->]; destruct y; reflexivity. Qed.
Lemma bytes_read q b r : q = "'"%char \/ q = """"%char -> p_bytes q (flat_map (byte_repr q) b ++ q :: r) = Some (b, r).
Proof.
  intros Q. induction b as [|y b IH].
  - cbn [flat_map app p_bytes]. rewrite Ascii.eqb_refl. reflexivity.
  - cbn [flat_map]. rewrite <- app_assoc, byte_read by exact Q. rewrite IH. reflexivity.
Qed.
Lemma pubkey_pasted pr b : python pr (pubkey_repr b) = Some (Ok (VPubKey b)).
Proof.
  unfold pubkey_repr, bytes_repr. cbv zeta. match goal with |- context [if ?c then ?a else ?b] => set (q := if c then a else b) end.
  assert (Q : q = "'"%char \/ q = """"%char) by (unfold q; destruct (_ && _)%bool; auto). clearbody q.
  unfold python. rewrite (read_expression _ (ECall (T "CPubKey") [EBytes b])).
  - rewrite evaluate_call. cbn [mapM evaluate bind]. unfold call. cbn [T list_ascii_of_string]. clear Q. is_name. reflexivity.
  - constructor. apply (call_items "CPubKey"); [literal|]. constructor. constructor. apply atom_bytes; [exact Q|]. intros r. rewrite <- app_assoc. apply bytes_read, Q.
Qed.

(** ** Headers *)

Definition no_value (e : expr) : Prop := forall pr, exists x, evaluate pr e = Err x.

Lemma hex_char c : is_hex c = true -> is_ident c = true /\ c <> "x"%char /\ c <> ")"%char /\ c <> "."%char.
Proof.
  intros H. split; [|repeat split; intros ->; discriminate]. unfold is_hex, hex_digit, is_ident, is_digit, is_letter in *. cbv zeta in *.
  repeat match goal with H : context [if ?c then _ else _] |- _ => destruct c eqn:?; [lia|] end. discriminate.
Qed.
Lemma hex_split h : forallb is_hex h = true -> exists d g, h = d ++ g /\ forallb is_digit d = true /\
  (g = [] \/ exists c g', g = c :: g' /\ is_digit c = false /\ is_hex c = true).
Proof.
  intros H. induction h as [|c h IH]; [exists [], []; repeat split; left; reflexivity|]. cbn [forallb] in H. apply andb_prop in H. destruct H as [C H].
  destruct (is_digit c) eqn:D; [|exists [], (c :: h); repeat split; right; eauto].
  destruct (IH H) as (d & g & -> & E & F). exists (c :: d), g. split; [reflexivity|]. split; [|exact F]. cbn [forallb]. rewrite D. exact E.
Qed.

Lemma lx_int z : no_value (ECall (T "lx") [ENum z]).
Proof. intros pr. eexists. rewrite evaluate_call. cbn [mapM evaluate bind]. unfold call. cbn [T list_ascii_of_string]. not_name. reflexivity. Qed.
Lemma lx_name h : List.length h = 64%nat -> no_value (ECall (T "lx") [EName h]).
Proof.
  intros L pr. eexists. rewrite evaluate_call. cbn [mapM evaluate]. enough (name h = Err NameError) as -> by reflexivity. unfold name.
  destruct (list_eq_dec _ _ _) as [E|_]; [subst; discriminate L|].
  assert (A : forallb (fun e => negb (Nat.eqb (List.length (list_ascii_of_string (fst e))) 64)) opcodes = true) by (vm_compute; reflexivity).
  destruct (find _ opcodes) as [e|] eqn:F; [|reflexivity]. apply find_some in F. destruct F as [I F]. rewrite forallb_forall in A. specialize (A e I).
  destruct (list_eq_dec _ _ _) as [E|_]; [|discriminate F]. rewrite <- E, L in A. discriminate A.
Qed.

(** Nothing, or an expression that has no value when given to [lx]. *)
Lemma hex_read f h r : List.length h = 64%nat -> forallb is_hex h = true ->
  p_atom f (h ++ ")"%char :: r) = None \/ exists e, p_atom f (h ++ ")"%char :: r) = Some (e, ")"%char :: r) /\ no_value (ECall (T "lx") [e]).
Proof.
  intros L H. destruct f as [|f]; [left; reflexivity|]. destruct h as [|c h]; [discriminate L|]. pose proof H as HC. cbn [forallb] in HC. apply andb_prop in HC. destruct HC as [C CH].
  destruct (is_digit c) eqn:D.
  - destruct (digit_first c D) as (N1 & N2 & N3 & N4).
    assert (E : p_atom (S f) ((c :: h) ++ ")"%char :: r) = p_number ((c :: h) ++ ")"%char :: r)) by (cbn [app p_atom]; rewrite N1, N2, N3, N4, D; reflexivity).
    rewrite E, p_number_is_decimal.
    + destruct (hex_split (c :: h) H) as (d & g & S & DD & G). rewrite S. unfold p_decimal. rewrite <- app_assoc.
      destruct G as [-> | (x & g' & -> & X1 & X2)].
      * cbn [app]. rewrite span_app by (exact DD || reflexivity). cbn [Ascii.eqb Bool.eqb]. destruct (leading_zero d); [left; reflexivity|].
        right. eexists. split; [reflexivity|]. apply lx_int.
      * cbn [app]. rewrite span_app by assumption. destruct (hex_char x X2) as (I & _ & _ & P). left.
        destruct (Ascii.eqb_spec x "."); [congruence|]. destruct (leading_zero d); [reflexivity|]. cbn [ends]. rewrite I. reflexivity.
    + intros a r' Q. destruct h as [|y h]; cbn [app] in Q; [discriminate L|]. injection Q as -> -> _. cbn [forallb] in CH. discriminate CH.
  - destruct (hex_char c C) as (I & _). assert (LT : is_letter c = true) by (unfold is_ident in I; rewrite D in I; exact I).
    right. exists (EName (c :: h)). split; [|apply lx_name, L]. rewrite p_atom_name; [reflexivity| |reflexivity]. split; [eauto|].
    revert H. apply forallb_weaken. intros y Y. apply hex_char, Y.
Qed.

Lemma lx_atom f h r : List.length h = 64%nat -> forallb is_hex h = true ->
  p_atom f (T "lx(" ++ h ++ ")"%char :: r) = None \/ exists e, p_atom f (T "lx(" ++ h ++ ")"%char :: r) = Some (e, r) /\ no_value e.
Proof.
  intros L H. destruct f as [|f]; [left; reflexivity|]. change (T "lx(" ++ h ++ ")"%char :: r) with (T "lx" ++ "("%char :: h ++ ")"%char :: r).
  rewrite p_atom_name by (literal || reflexivity). cbn [Ascii.eqb Bool.eqb]. destruct f as [|f]; [left; reflexivity|]. cbn [p_items].
  destruct h as [|c h]; [discriminate L|]. pose proof H as HC. cbn [forallb] in HC. apply andb_prop in HC. destruct HC as [C _]. destruct (hex_char c C) as (_ & _ & NC & _).
  cbn [app]. destruct (Ascii.eqb_spec c ")"); [congruence|]. destruct f as [|f]; [left; reflexivity|]. cbn [p_expr].
  change (c :: h ++ ")"%char :: r) with ((c :: h) ++ ")"%char :: r). destruct (hex_read f (c :: h) r L H) as [-> | (e & -> & V)]; [left; reflexivity|].
  right. cbn [Ascii.eqb Bool.eqb]. eexists. split; [reflexivity|exact V].
Qed.

Lemma mapM_second e1 e l : no_value e -> forall n, no_value (ECall n (e1 :: e :: l)).
Proof.
  intros V n q. rewrite evaluate_call. cbn [mapM]. destruct (evaluate q e1) as [v|x]; cbn [bind]; [|eauto]. destruct (V q) as (x & ->). cbn [bind]. eauto.
Qed.

Lemma header_unread pr name h : letters (T name) -> List.length (h_prev h) = 32%nat -> forall v, python pr (header_repr name h) <> Some (Ok v).
Proof.
  intros LN L v. unfold python, read. set (s := header_repr name h). set (f := (3 * List.length s + 3)%nat).
  set (rest := T ", lx(" ++ T (b2lx (h_merkle h)) ++ T "), " ++ fmt_i (h_nTime h) ++ T ", 0x" ++ fmt_08x (h_nBits h) ++ T ", 0x" ++ fmt_08x (h_nNonce h) ++ T ")").
  set (hp := T (b2lx (h_prev h))). assert (HL : List.length hp = 64%nat) by (unfold hp, b2lx; rewrite to_hex_length, rev_length; lia).
  assert (HX : forallb is_hex hp = true) by apply to_hex_hex.
  assert (ES : s = T name ++ "("%char :: fmt_i (h_nVersion h) ++ ","%char :: " "%char :: T "lx(" ++ hp ++ ")"%char :: rest) by reflexivity.
  assert (F : (3 * List.length (fmt_i (h_nVersion h)) + 9 <= f)%nat) by (unfold f; rewrite ES; rewrite app_length; cbn [List.length]; rewrite app_length; cbn [List.length]; lia).
  clearbody f. do 3 (destruct f as [|f]; [lia|]).
  assert (P : forall x y, p_atom (S (S f)) s = Some (x, y) -> no_value x).
  { intros x y. rewrite ES. rewrite p_atom_name by (exact LN || reflexivity). cbn [Ascii.eqb Bool.eqb]. cbn [p_items].
    destruct (proj1 writing_starts _ _ (fmt_i_atom (h_nVersion h))) as (c & t & ET & NE). rewrite ET. cbn [app].
    destruct (Ascii.eqb_spec c ")"); [tauto|]. change (c :: t ++ ","%char :: " "%char :: T "lx(" ++ hp ++ ")"%char :: rest) with ((c :: t) ++ ","%char :: " "%char :: T "lx(" ++ hp ++ ")"%char :: rest).
    rewrite <- ET. rewrite (proj1 (proj2 parser_reads) _ _ (expr_atom _ _ (fmt_i_atom (h_nVersion h)))) by (lia || (left; reflexivity)).
    cbn [Ascii.eqb Bool.eqb]. change (skip_spaces (" "%char :: T "lx(" ++ hp ++ ")"%char :: rest)) with (T "lx(" ++ hp ++ ")"%char :: rest).
    assert (IT : p_items f ")" (T "lx(" ++ hp ++ ")"%char :: rest) = None \/ exists e l b r, p_items f ")" (T "lx(" ++ hp ++ ")"%char :: rest) = Some (e :: l, b, r) /\ no_value e).
    { destruct f as [|f0]; [left; reflexivity|]. cbn [p_items]. change (T "lx(" ++ hp ++ ")"%char :: rest) with ("l"%char :: (T "x(" ++ hp ++ ")"%char :: rest)) at 1 3. cbn [Ascii.eqb Bool.eqb].
      assert (PE : p_expr f0 (T "lx(" ++ hp ++ ")"%char :: rest) = None \/ exists e, p_expr f0 (T "lx(" ++ hp ++ ")"%char :: rest) = Some (e, rest) /\ no_value e).
      { destruct f0 as [|g]; [left; reflexivity|]. cbn [p_expr]. destruct (lx_atom g hp rest HL HX) as [-> | (e & -> & V)]; [left; reflexivity|]. right. exists e. split; [reflexivity|exact V]. }
      destruct PE as [-> | (e & -> & V)]; [left; reflexivity|]. unfold rest. cbn [T list_ascii_of_string app Ascii.eqb Bool.eqb skip_spaces].
      match goal with |- context [p_items f0 ?c ?s] => destruct (p_items f0 c s) as [[[l b] r]|] end; [|left; reflexivity]. right. exists e, l, b, r. auto. }
    change (T "lx(" ++ hp ++ ")"%char :: rest) with ("l"%char :: (T "x(" ++ hp ++ ")"%char :: rest)) at 1. cbn [Ascii.eqb Bool.eqb].
    destruct IT as [-> | (e & l & b & r & -> & V)]; [discriminate|]. intros E. injection E as <- _. apply mapM_second, V. }
  cbn [p_expr]. destruct (p_atom (S (S f)) s) as [[x [|c r]]|]; [| |discriminate].
  - destruct (P _ _ eq_refl pr) as (e & ->). congruence.
  - destruct (Ascii.eqb c "*").
    + destruct (p_atom _ r) as [[b [|c' r']]|]; try discriminate. cbn [evaluate]. destruct (P _ _ eq_refl pr) as (e & ->). discriminate.
    + discriminate.
Qed.

(** The text still tells the header. *)
Lemma split_comma a b r r' : forallb (fun c => negb (Ascii.eqb c ",")) a = true -> forallb (fun c => negb (Ascii.eqb c ",")) b = true ->
  a ++ ","%char :: r = b ++ ","%char :: r' -> a = b /\ r = r'.
Proof.
  intros A B E. apply (f_equal (span (fun c => negb (Ascii.eqb c ",")))) in E. rewrite !span_app in E by (assumption || reflexivity). injection E as -> ->. auto.
Qed.
Lemma split_length (a b r r' : text) : List.length a = List.length b -> a ++ r = b ++ r' -> a = b /\ r = r'.
Proof.
  intros L E. split.
  - apply (f_equal (firstn (List.length a))) in E. rewrite !firstn_app, firstn_all, L, firstn_all, Nat.sub_diag in E. cbn [firstn] in E. rewrite !app_nil_r in E. exact E.
  - apply (f_equal (skipn (List.length a))) in E. rewrite !skipn_app, skipn_all, L, skipn_all, Nat.sub_diag in E. exact E.
Qed.
Lemma fmt_i_inj a b : fmt_i a = fmt_i b -> a = b.
Proof.
  intros E. pose proof (read_expression _ _ (expr_atom _ _ (fmt_i_atom a))) as A. pose proof (read_expression _ _ (expr_atom _ _ (fmt_i_atom b))) as B.
  rewrite E in A. assert (X : num_expr a = num_expr b) by congruence. pose proof (evaluate_num mainnet a) as P. pose proof (evaluate_num mainnet b) as Q. congruence.
Qed.
Lemma fmt_i_no_comma z : forallb (fun c => negb (Ascii.eqb c ",")) (fmt_i z) = true.
Proof.
  assert (P : forall z, 0 <= z -> forallb (fun c => negb (Ascii.eqb c ",")) (fmt_i z) = true).
  { intros x X. destruct (fmt_i_spec x X) as (N & _). apply number_value in N. destruct N as [_ N]. revert N. apply forallb_weaken.
    intros c C. destruct (Ascii.eqb_spec c ","); [subst; discriminate C|reflexivity]. }
  destruct (Z.ltb_spec z 0) as [L|L]; [|apply P, L].
  assert (fmt_i z = "-"%char :: fmt_i (- z)) as ->.
  { unfold fmt_i. destruct (z <? 0)%Z eqn:E; [|lia]. destruct (- z <? 0)%Z eqn:F; [lia|]. replace (Z.abs_N (- z)) with (Z.abs_N z) by lia. reflexivity. }
  cbn [forallb Ascii.eqb Bool.eqb negb andb]. apply P. lia.
Qed.
Lemma value_zeros k d : value_of 16 (repeat "0"%char k ++ d) = value_of 16 d.
Proof. unfold value_of. induction k as [|k IH]; [reflexivity|]. cbn [repeat app fold_left]. exact IH. Qed.
Lemma fmt_08x_inj a b : 0 <= a -> 0 <= b -> fmt_08x a = fmt_08x b -> a = b.
Proof.
  intros A B E. unfold fmt_08x in E. cbv zeta in E. apply (f_equal (value_of 16)) in E. rewrite !value_zeros in E.
  destruct (fmt_x_spec a A) as (X & _). destruct (fmt_x_spec b B) as (Y & _). congruence.
Qed.
Lemma fmt_08x_no_comma z : 0 <= z -> forallb (fun c => negb (Ascii.eqb c ",")) (fmt_08x z) = true.
Proof.
  intros H. unfold fmt_08x. cbv zeta. rewrite forallb_app. destruct (fmt_x_spec z H) as (_ & X & _). apply andb_true_intro. split.
  - induction (8 - List.length (fmt_x z))%nat as [|k IH]; [reflexivity|]. exact IH.
  - revert X. apply forallb_weaken. intros c C. destruct (Ascii.eqb_spec c ","); [subst; discriminate C|reflexivity].
Qed.
Lemma b2lx_inj a b : T (b2lx a) = T (b2lx b) -> a = b.
Proof.
  intros E. apply (f_equal string_of_list_ascii) in E. rewrite !T_back in E. pose proof (lx_b2lx a) as A. pose proof (lx_b2lx b) as B. congruence.
Qed.

Lemma header_text name h h' : wf_header h -> wf_header h' -> header_repr name h = header_repr name h' -> h = h'.
Proof.
  intros (_ & P & M & Tm & B & N) (_ & P' & M' & Tm' & B' & N') E. unfold header_repr in E. do 2 apply app_inv_head in E.
  change (fmt_i (h_nVersion h) ++ T ", lx(" ++ ?x) with (fmt_i (h_nVersion h) ++ ","%char :: T " lx(" ++ x) in E.
  apply (split_comma _ _ _ _ (fmt_i_no_comma _) (fmt_i_no_comma _)) in E. destruct E as [EV E]. apply (app_inv_head (T " lx(")) in E.
  apply split_length in E; [|unfold b2lx; rewrite !to_hex_length, !rev_length; lia]. destruct E as [EP E]. apply app_inv_head in E.
  apply split_length in E; [|unfold b2lx; rewrite !to_hex_length, !rev_length; lia]. destruct E as [EM E]. apply app_inv_head in E.
  apply (split_comma _ _ _ _ (fmt_i_no_comma _) (fmt_i_no_comma _)) in E. destruct E as [ET E]. apply (app_inv_head (T " 0x")) in E.
  apply (split_comma _ _ _ _ (fmt_08x_no_comma (h_nBits h) ltac:(lia)) (fmt_08x_no_comma (h_nBits h') ltac:(lia))) in E. destruct E as [EB E]. apply (app_inv_head (T " 0x")) in E.
  apply app_inv_tail in E. apply fmt_i_inj in EV, ET. apply b2lx_inj in EP, EM. apply fmt_08x_inj in EB; [|lia..]. apply fmt_08x_inj in E; [|lia..].
  destruct h, h'. cbn in *. congruence.
Qed.
