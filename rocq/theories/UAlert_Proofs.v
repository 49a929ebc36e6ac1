From Verif Require Import Base Base58_Model Money_Model Net_Model Repr_Model PyText_Spec PyText_Proofs Repr_Proofs ReprMore_Proofs MmrRepr_Proofs UAlert_Model.
Local Open Scope list_scope.

Lemma before_comma : forall (p p' r r' : text), forallb (fun c => negb (Ascii.eqb c ",")) p = true -> forallb (fun c => negb (Ascii.eqb c ",")) p' = true ->
  p ++ ","%char :: r = p' ++ ","%char :: r' -> p = p' /\ r = r'.
Proof.
  induction p as [|c p IH]; intros p' r r' A B E; destruct p' as [|c' p']; cbn [app forallb] in *.
  - injection E as ->. split; reflexivity.
  - injection E as <- E. discriminate B.
  - injection E as -> E. discriminate A.
  - injection E as <- E. apply andb_prop in A, B. destruct (IH p' r r' (proj2 A) (proj2 B) E) as (-> & ->). split; reflexivity.
Qed.
Lemma number_comma a a' (s r r' : text) : fmt_i a ++ (","%char :: s) ++ r = fmt_i a' ++ (","%char :: s) ++ r' -> a = a' /\ r = r'.
Proof.
  intros E. cbn [app] in E. apply before_comma in E; [|apply fmt_i_no_comma..]. destruct E as (E & F). split; [apply fmt_i_inj, E|]. eapply app_inv_head, F.
Qed.
Lemma atom_then b b' s s' : atom s (EBytes b) -> atom s' (EBytes b') -> forall r r' : text, s ++ r = s' ++ r' -> b = b' /\ r = r'.
Proof.
  intros A B r r' E. inversion A as [| | | |q t x Q P Et| | | | | |]; subst. inversion B as [| | | |q' t' x' Q' P' Et'| | | | | |]; subst.
  cbn [app] in E. injection E as <- E. pose proof (P r) as X. rewrite E, (P' r') in X. injection X as -> ->. split; reflexivity.
Qed.
Lemma bytes_then b b' (r r' : text) : bytes_repr b ++ r = bytes_repr b' ++ r' -> b = b' /\ r = r'.
Proof. exact (atom_then b b' _ _ (bytes_atom b) (bytes_atom b') r r'). Qed.
Lemma alert_text a a' : ualert_repr a = ualert_repr a' ->
  f_head a = f_head a' /\ f_nMinVer a = f_nMinVer a' /\ f_nMaxVer a = f_nMaxVer a' /\ f_nPriority a = f_nPriority a' /\
  f_strComment a = f_strComment a' /\ f_strStatusBar a = f_strStatusBar a' /\ f_strReserved a = f_strReserved a'.
Proof.
  unfold ualert_repr. cbv zeta. intros E. apply app_inv_head in E.
  do 8 (apply number_comma in E; destruct E as (? & E)).
  apply bytes_then in E. destruct E as (? & E). apply app_inv_head in E. apply bytes_then in E. destruct E as (? & E). apply app_inv_head in E. apply bytes_then in E. destruct E as (? & _).
  destruct (f_head a), (f_head a'). cbn in *. subst. repeat split; assumption.
Qed.
Lemma alert_text_same a a' : f_head a = f_head a' -> f_nMinVer a = f_nMinVer a' -> f_nMaxVer a = f_nMaxVer a' -> f_nPriority a = f_nPriority a' ->
  f_strComment a = f_strComment a' -> f_strStatusBar a = f_strStatusBar a' -> f_strReserved a = f_strReserved a' -> ualert_repr a = ualert_repr a'.
Proof. unfold ualert_repr. intros -> -> -> -> -> -> ->. reflexivity. Qed.
