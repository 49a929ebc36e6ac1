(** Proofs about the printed forms of proofs and MMRs. *)
From Coq Require Import ZifyBool ZifyNat ZifyN.
From Verif Require Import Base Hex_Model Base58_Model Tx_Model Money_Model Repr_Model PyText_Spec PyText_Proofs Repr_Proofs ReprTx_Proofs ReprMore_Proofs
  Serialize_Model Proof_Model Proof_Spec ProofHash_Proofs Mmr_Model Mmr_Spec Mmr_Proofs ChainPipe_Proofs MmrRepr_Model MmrRepr_Spec.
#[local] Open Scope list_scope.
#[local] Open Scope nat_scope.

Lemma bytes_atom b : atom (bytes_repr b) (EBytes b).
Proof.
  unfold bytes_repr. cbv zeta. match goal with |- context [if ?c then ?a else ?b] => set (q := if c then a else b) end.
  assert (Q : q = "'"%char \/ q = """"%char) by (unfold q; destruct (_ && _)%bool; auto). clearbody q.
  apply atom_bytes; [exact Q|]. intros r. rewrite <- app_assoc. apply bytes_read, Q.
Qed.

Lemma simple_repr nm ct v : simple v -> exists s e, val_repr nm ct v = Ok s /\ expression s e /\ literal e v.
Proof.
  intros (p & -> & N). destruct p as [b|z|b|]; [| | |congruence]; cbn [val_repr].
  - destruct b; do 2 eexists; (split; [reflexivity|]); (split; [apply expr_atom, atom_name; split; [do 2 eexists; split; reflexivity|reflexivity]|constructor]).
  - exists (fmt_i z), (num_expr z). split; [reflexivity|]. split; [apply expr_atom, fmt_i_atom|]. unfold num_expr. destruct (Z.ltb_spec z 0).
    + replace z with (- (- z))%Z at 2 by lia. constructor. lia.
    + constructor. assumption.
  - exists (bytes_repr b), (EBytes b). split; [reflexivity|]. split; [apply expr_atom, bytes_atom|constructor].
Qed.

Lemma simples_repr nm ct vs : Forall simple vs -> exists l es, vals_repr nm ct vs = Ok l /\ Forall2 expression l es /\ Forall2 literal es vs.
Proof.
  induction 1 as [|v vs H _ (l & es & E & F & G)].
  - exists [], []. split; [reflexivity|]. split; constructor.
  - destruct (simple_repr nm ct v H) as (s & e & E1 & F1 & G1). exists (s :: l), (e :: es). cbn [vals_repr]. rewrite E1, E. cbn [bind].
    split; [reflexivity|]. split; constructor; assumption.
Qed.

Lemma list_text nm ct f vs : identifier f -> Forall simple vs -> exists l, vals_repr nm ct vs = Ok l /\ reads_as f vs (f ++ T "(" ++ list_repr l ++ T ")").
Proof.
  intros I S. destruct (simples_repr nm ct vs S) as (l & es & E & F & G). exists l. split; [exact E|]. exists es. split; [|exact G].
  apply read_expression, expr_atom. apply (atom_call f (list_repr l) [EList es]); [exact I|]. apply items_one, expr_atom, list_atom, F.
Qed.

Lemma mmr_text nm ct M t s : mmr_repr nm ct M t = Ok s -> exists n vs l, mlen t = Ok n /\ items t = Ok vs /\ vals_repr nm ct vs = Ok l /\
  s = n_qualname nm (m_base M) ++ T "(" ++ list_repr l ++ T ")".
Proof.
  intros H. assert (H' : (do _ <- mlen t; do vs <- items t; do l <- vals_repr nm ct vs; Ok (n_qualname nm (m_base M) ++ T "(" ++ list_repr l ++ T ")")) = Ok s).
  { destruct t as [| | |[] ?]; try exact H. discriminate. }
  destruct (mlen t) as [n|]; [|discriminate]. cbn [bind] in H'. destruct (items t) as [vs|]; [|discriminate]. cbn [bind] in H'.
  destruct (vals_repr nm ct vs) as [l|] eqn:E; [|discriminate]. cbn [bind] in H'. exists n, vs, l. repeat split; [exact E|congruence].
Qed.

(** ** Pruned MMRs *)

Lemma hides_len ct M t t' : hides ct M t t' -> mlen t' = mlen t \/ mlen t' = Err PrunedError.
Proof. destruct 1 as [t|t dh _|l l' r r' n _ _]; [auto| |auto]. destruct t as [| | |[] ?]; cbn; auto. Qed.
Lemma hides_items ct M t t' : hides ct M t t' -> Mmr_Model.items t' = Mmr_Model.items t \/ Mmr_Model.items t' = Err PrunedError.
Proof.
  induction 1 as [t|t dh _|l l' r r' n _ IHl _ IHr]; [auto| |].
  - destruct t as [| | |[] ?]; cbn; auto.
  - cbn [Mmr_Model.items]. destruct IHl as [->| ->]; [|auto]. destruct (Mmr_Model.items l); [|auto]. cbn [bind]. destruct IHr as [->| ->]; auto.
Qed.
Lemma hides_kind ct M t t' : hides ct M t t' -> kind_of t' = kind_of t.
Proof. destruct 1; reflexivity. Qed.

Lemma repr_unfold nm ct M t : kind_of t <> KBase -> mmr_repr nm ct M t =
  (do _ <- mlen t; do vs <- Mmr_Model.items t; do l <- vals_repr nm ct vs; Ok (n_qualname nm (m_base M) ++ T "(" ++ list_repr l ++ T ")")).
Proof. intros N. destruct t as [| | |[] ?]; try reflexivity. cbn in N. congruence. Qed.

Lemma hides_repr nm ct M t t' : hides ct M t t' -> mmr_repr nm ct M t' = mmr_repr nm ct M t \/ mmr_repr nm ct M t' = Err PrunedError.
Proof.
  intros H. pose proof (hides_kind _ _ _ _ H) as K. destruct (kind_of t) eqn:KT.
  - left. destruct t as [| | |[] ?]; try discriminate. destruct t' as [| | |[] ?]; try discriminate. reflexivity.
  - rewrite !repr_unfold by congruence. destruct (hides_len _ _ _ _ H) as [->| ->]; [|auto]. destruct (mlen t); [|auto]. cbn [bind].
    destruct (hides_items _ _ _ _ H) as [->| ->]; auto.
  - rewrite !repr_unfold by congruence. destruct (hides_len _ _ _ _ H) as [->| ->]; [|auto]. destruct (mlen t); [|auto]. cbn [bind].
    destruct (hides_items _ _ _ _ H) as [->| ->]; auto.
  - rewrite !repr_unfold by congruence. destruct (hides_len _ _ _ _ H) as [->| ->]; [|auto]. destruct (mlen t); [|auto]. cbn [bind].
    destruct (hides_items _ _ _ _ H) as [->| ->]; auto.
Qed.

(** ** Proofs *)

Lemma app_inv_tails {A} (a b c d : list A) : List.length b = List.length d -> a ++ b = c ++ d -> a = c /\ b = d.
Proof.
  intros L E. assert (LL : List.length a = List.length c) by (apply (f_equal (@List.length A)) in E; rewrite !app_length in E; lia).
  revert c LL E. induction a as [|x a IH]; intros [|y c] LL E; try discriminate; [auto|]. injection E as -> E. destruct (IH c) as [-> ->]; auto.
Qed.

Lemma b2x_inj a b : b2x a = b2x b -> a = b.
Proof. intros H. pose proof (ChainPipe_Proofs.x_b2x a) as A. rewrite H, ChainPipe_Proofs.x_b2x in A. congruence. Qed.

Lemma proof_text nm ct v s : proof_repr nm ct v = Ok s -> exists c h, class_of v = Some c /\ phash ct v = Ok h /\ List.length h = 32 /\
  s = full_name nm c ++ T "(<" ++ T (b2x h) ++ T ">)".
Proof.
  unfold proof_repr. destruct (class_of v) as [c|]; [|discriminate]. destruct (phash ct v) as [h|] eqn:E; [|discriminate]. cbn [bind].
  intros H. exists c, h. split; [reflexivity|]. split; [reflexivity|]. split; [exact (phash_length ct v h E)|]. unfold full_name. rewrite <- !app_assoc.
  injection H as <-. reflexivity.
Qed.

Lemma same_text nm ct v1 v2 s : proof_repr nm ct v1 = Ok s -> proof_repr nm ct v2 = Ok s ->
  exists c1 c2 h, class_of v1 = Some c1 /\ class_of v2 = Some c2 /\ full_name nm c1 = full_name nm c2 /\ phash ct v1 = Ok h /\ phash ct v2 = Ok h.
Proof.
  intros H1 H2. destruct (proof_text nm ct v1 s H1) as (c1 & h1 & C1 & P1 & L1 & E1). destruct (proof_text nm ct v2 s H2) as (c2 & h2 & C2 & P2 & L2 & E2).
  rewrite E1 in E2. apply app_inv_tails in E2.
  - destruct E2 as [EN EH]. apply (app_inv_head (T "(<")) in EH. apply (app_inv_tail (T ">)")) in EH.
    assert (h1 = h2) as ->. { apply b2x_inj. unfold T in EH. rewrite <- (string_of_list_ascii_of_string (b2x h1)), EH. apply string_of_list_ascii_of_string. }
    exists c1, c2, h2. auto 10.
  - rewrite !app_length. unfold b2x. rewrite !to_hex_length, L1, L2. reflexivity.
Qed.
