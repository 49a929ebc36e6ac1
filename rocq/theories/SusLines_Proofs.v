From Verif Require Import Base PySlice Sha256 Serialize_Model Serialize_Spec Serialize_Proofs Tx_Model Tx_Spec Tx_Proofs
  Proof_Model Proof_Spec Proof_Proofs ProofHash_Proofs ProofMain_Proofs ProofArrive_Proofs MerbinnerHash_Proofs
  Hex_Model Chain_Model Chain_Spec Chain_Proofs ChainPipe_Proofs SusLines_Model SusLines_Spec.
Local Open Scope string_scope.
Local Open Scope list_scope.

Section Lines.
Context (ct : ctable) (P : chain) (C : is_chain ct P) (W : wf_table ct) (V : variant_table ct).
Ltac step := cbn [attr_index String.eqb Ascii.eqb Bool.eqb andb option_map nth_error bind].

(** ** Seals *)
Lemma seal_out_hash dh : seal_outpoint ct (PHash (p_bseal P) dh) = Err PrunedError.
Proof. unfold seal_outpoint. rewrite (peek_hash ct _ _ _ _ (A_bseal ct P C)). reflexivity. Qed.
Lemma sealinfo_cases f s : deserialize ct (p_bseal P) f = Ok s -> object ct (p_bseal P) s /\ exists h, phash ct s = Ok h /\
  ((exists o n, s = Seal P o n /\ sealinfo_lines ct P f = ([String.append "Hash:		" (b2x h); String.append "OutPoint:	" (show_outpoint (b2lx (o_hash o)) (o_n o))], Ok tt)) \/
   (exists dh, s = PHash (p_bseal P) dh /\ sealinfo_lines ct P f = ([String.append "Hash:		" (b2x h)], Err PrunedError))).
Proof.
  intros D. pose proof (deserialize_fits ct _ _ _ W V (proj1 (proj2 (d_bseal ct P C))) D) as O. split; [exact O|]. destruct (seal_hash_ok ct P C s W O) as (h & H). exists h. split; [exact H|].
  unfold sealinfo_lines. rewrite D. cbn [line]. rewrite H.
  destruct (seal_shape ct P C s O) as [(o & n & -> & _)|(dh & -> & _)].
  - left. exists o, n. split; [reflexivity|]. rewrite seal_outpoint_ok by assumption. reflexivity.
  - right. exists dh. split; [reflexivity|]. rewrite seal_out_hash. reflexivity.
Qed.

Lemma append_inj a x y : String.append a x = String.append a y -> x = y.
Proof. induction a as [|c a IH]; cbn; [auto|]. intros E. injection E as E. auto. Qed.
Lemma b2x_same a b : b2x a = b2x b -> a = b.
Proof. intros E. pose proof (x_b2x a) as X. rewrite E, x_b2x in X. congruence. Qed.

Lemma sealinfo_agree (T : wf_tags ct) f1 f2 l x1 r1 x2 r2 s1 s2 : deserialize ct (p_bseal P) f1 = Ok s1 -> deserialize ct (p_bseal P) f2 = Ok s2 ->
  sealinfo_lines ct P f1 = (l :: x1, r1) -> sealinfo_lines ct P f2 = (l :: x2, r2) -> same_as_far (l :: x1, r1) (l :: x2, r2) \/ hash_collision ct s1 s2.
Proof.
  intros D1 D2 E1 E2. destruct (sealinfo_cases f1 s1 D1) as (O1 & h1 & H1 & K1). destruct (sealinfo_cases f2 s2 D2) as (O2 & h2 & H2 & K2).
  assert (L1 : l = String.append "Hash:		" (b2x h1)). { destruct K1 as [(? & ? & _ & X)|(? & _ & X)]; rewrite X in E1; injection E1 as <- _ _; reflexivity. }
  assert (L2 : l = String.append "Hash:		" (b2x h2)). { destruct K2 as [(? & ? & _ & X)|(? & _ & X)]; rewrite X in E2; injection E2 as <- _ _; reflexivity. }
  assert (h1 = h2) as <- by (apply b2x_same, (append_inj "Hash:		"); congruence).
  assert (CL : forall s, object ct (p_bseal P) s -> class_of s = Some (p_bseal P)) by (intros s O; destruct (seal_shape ct P C s O) as [(? & ? & -> & _)|(? & -> & _)]; reflexivity).
  destruct (same_class_binding ct _ _ (p_bseal P) s1 s2 h1 W T (fits_holds _ _ _ O1) (fits_holds _ _ _ O2) (CL s1 O1) (CL s2 O2) H1 H2) as [(A & _)|K]; [left|right; exact K].
  destruct K1 as [(o & n & -> & X1)|(dh & -> & X1)]; rewrite X1 in E1; inversion E1; subst;
    destruct K2 as [(o' & n' & -> & X2)|(dh' & -> & X2)]; rewrite X2 in E2; inversion E2; subst.
  - assert (o = o') as <-. { inversion A as [|? ? ? F| |]; subst; [reflexivity|]. inversion F as [|? ? ? ? AO _]; subst. pose proof (agree_leaf _ _ _ AO eq_refl) as Y. congruence. }
    eexists. split; left; reflexivity.
  - eexists. split; [left; reflexivity|right; eexists; split; reflexivity].
  - eexists. split; [right; eexists; split; reflexivity|left; reflexivity].
  - exists [String.append "Hash:		" (b2x h1)]. split; right; exists []; split; reflexivity.
Qed.

(** ** Witnesses *)
Lemma far_err a m : same_as_far (a, Err PrunedError) (a ++ m, Err PrunedError).
Proof. exists (a ++ m). split; right; [exists m|exists []]; (split; [|reflexivity]); [reflexivity|symmetry; apply app_nil_r]. Qed.
Lemma far_err' a m : same_as_far (a ++ m, Err PrunedError) (a, Err PrunedError).
Proof. destruct (far_err a m) as (x & A & B). exists x. auto. Qed.
Definition head (h : bytes) := String.append "Hash:		" (b2x h).
Lemma pruned_tx_no_hash s i dh b h : phash ct (Witness P s (TxInProof P i (PHash (p_tx P) dh)) b) = Ok h -> False.
Proof.
  assert (N : forall x, phash ct (TxInProof P i (PHash (p_tx P) dh)) = Ok x -> False).
  { intros x X. unfold phash, TxInProof in X. rewrite hashes_full in X. cbn [snd] in X. unfold tagged in X. destruct (d_txin ct P C) as (Ea & _ & Et). rewrite Ea, Et in X. unfold tag in X.
    cbn [hash_fields] in X. rewrite (phash_tx_hash ct P C) in X. cbn [bind] in X. destruct (ser_leaf _ _); discriminate. }
  intros H. unfold phash at 1, Witness in H. rewrite hashes_full in H. cbn [snd] in H. unfold tagged in H. destruct (d_bwit ct P C) as (Ea & _ & Et). rewrite Ea, Et in H. unfold tag in H.
  cbn [hash_fields] in H. destruct (phash ct s); cbn [bind] in H; [|discriminate].
  destruct (phash ct (TxInProof P i (PHash (p_tx P) dh))) as [x|] eqn:X; [exact (N x eq_refl)|discriminate].
Qed.

Inductive wit_case (w : val) (h : bytes) (out : output) : Prop :=
| wc_head : (forall s i t b, w <> Witness P s (TxInProof P i (TxProof P t)) b) -> out = ([head h], Err PrunedError) -> wit_case w h out
| wc_seal dh i t b id sh : w = Witness P (PHash (p_bseal P) dh) (TxInProof P i (TxProof P t)) b -> tx_GetHash t = Ok id -> phash ct (PHash (p_bseal P) dh) = Ok sh ->
    out = ([head h; String.append "Txid:		" (b2lx id); String.append "Seal Hash:	" (b2x sh)], Err PrunedError) -> wit_case w h out
| wc_all o n i t b id sh : w = Witness P (Seal P o n) (TxInProof P i (TxProof P t)) b -> tx_GetHash t = Ok id -> phash ct (Seal P o n) = Ok sh ->
    out = ([head h; String.append "Txid:		" (b2lx id); String.append "Seal Hash:	" (b2x sh); String.append "Seal OutPoint:	" (show_outpoint (b2x (o_hash o)) (o_n o))], Ok tt) -> wit_case w h out.

Lemma peek_txin s i b : peek ct (Witness P s i b) "txinproof" = Ok i.
Proof. unfold Witness. rewrite (peek_full ct _ _ _ _ (A_bwit ct P C)). reflexivity. Qed.
Lemma peek_seal s i b : peek ct (Witness P s i b) "seal" = Ok s.
Proof. unfold Witness. rewrite (peek_full ct _ _ _ _ (A_bwit ct P C)). reflexivity. Qed.
Lemma witnessinfo_cases f w h : deserialize ct (p_bwit P) f = Ok w -> phash ct w = Ok h -> object ct (p_bwit P) w /\ wit_case w h (witnessinfo_lines ct P f).
Proof.
  intros D H. pose proof (deserialize_fits ct _ _ _ W V (proj1 (proj2 (d_bwit ct P C))) D) as O. split; [exact O|].
  unfold witnessinfo_lines. rewrite D, H. cbn [line].
  destruct (witness_shape ct P C w O) as [(s & i & b & -> & Os & Oi & _)|(dh & -> & _)].
  2:{ apply wc_head; [intros; discriminate|]. rewrite (peek_hash ct _ _ _ _ (A_bwit ct P C)). reflexivity. }
  rewrite peek_txin, peek_seal. cbn [bind].
  destruct (txin_shape ct P C i Oi) as [(n & p & -> & _ & Op)|(dh & -> & _)].
  2:{ apply wc_head; [unfold Witness, TxInProof; intros ? ? ? ? K; inversion K|]. rewrite (peek_hash ct _ _ _ _ (A_txin ct P C)). step. reflexivity. }
  assert (peek ct (TxInProof P n p) "txproof" = Ok p) as -> by (unfold TxInProof; rewrite (peek_full ct _ _ _ _ (A_txin ct P C)); reflexivity). cbn [bind].
  destruct (tx_shape ct P C p Op) as [(t & -> & Wt)|(dh & -> & _)]; [|destruct (pruned_tx_no_hash _ _ _ _ _ H)].
  rewrite (txhash_is_txid ct P C). destruct (tx_GetHash_wf t Wt) as (id & Hi). rewrite Hi. destruct (seal_hash_ok ct P C s W Os) as (sh & Hs). rewrite Hs. cbn [line].
  destruct (seal_shape ct P C s Os) as [(o & m & -> & _)|(dh & -> & _)].
  - rewrite seal_outpoint_ok by assumption. eapply wc_all; [reflexivity|exact Hi|exact Hs|reflexivity].
  - rewrite seal_out_hash. eapply wc_seal; [reflexivity|exact Hi|exact Hs|reflexivity].
Qed.

Lemma agree_wit s1 i1 t1 b1 s2 i2 t2 b2 : agree ct (Witness P s1 (TxInProof P i1 (TxProof P t1)) b1) (Witness P s2 (TxInProof P i2 (TxProof P t2)) b2) -> agree ct s1 s2 /\ t1 = t2.
Proof.
  intros A. assert (B : agree ct s1 s2 /\ agree ct (TxInProof P i1 (TxProof P t1)) (TxInProof P i2 (TxProof P t2))).
  { inversion A as [|? ? ? F| |]; subst; [split; apply A_refl|]. inversion F as [|? ? ? ? A1 F2]; subst. inversion F2 as [|? ? ? ? A2 _]; subst. auto. }
  destruct B as (B1 & B2). split; [exact B1|].
  assert (B3 : agree ct (TxProof P t1) (TxProof P t2)). { inversion B2 as [|? ? ? F| |]; subst; [apply A_refl|]. inversion F as [|? ? ? ? A1 F2]; subst. inversion F2; subst. assumption. }
  inversion B3 as [|? ? ? F| |]; subst; [reflexivity|]. inversion F as [|? ? ? ? A1 F2]; subst. pose proof (agree_leaf _ _ _ A1 eq_refl). congruence.
Qed.

Lemma witnessinfo_agree (T : wf_tags ct) f1 f2 l x1 r1 x2 r2 w1 w2 : deserialize ct (p_bwit P) f1 = Ok w1 -> deserialize ct (p_bwit P) f2 = Ok w2 ->
  witnessinfo_lines ct P f1 = (l :: x1, r1) -> witnessinfo_lines ct P f2 = (l :: x2, r2) -> same_as_far (l :: x1, r1) (l :: x2, r2) \/ hash_collision ct w1 w2.
Proof.
  intros D1 D2 E1 E2.
  assert (HH : forall f w y r, deserialize ct (p_bwit P) f = Ok w -> witnessinfo_lines ct P f = (l :: y, r) -> exists h, phash ct w = Ok h /\ l = head h).
  { intros f w y r D E. unfold witnessinfo_lines in E. rewrite D in E. destruct (phash ct w) as [h|e]; cbn [line] in E; [|discriminate]. exists h. split; [reflexivity|]. injection E as <- _ _. reflexivity. }
  destruct (HH _ _ _ _ D1 E1) as (h1 & H1 & L1). destruct (HH _ _ _ _ D2 E2) as (h2 & H2 & L2).
  assert (h1 = h2) as <- by (apply b2x_same, (append_inj "Hash:		"); unfold head in *; congruence).
  destruct (witnessinfo_cases f1 w1 h1 D1 H1) as (O1 & K1). destruct (witnessinfo_cases f2 w2 h1 D2 H2) as (O2 & K2). rewrite E1 in K1. rewrite E2 in K2.
  assert (CL : forall s, object ct (p_bwit P) s -> class_of s = Some (p_bwit P)) by (intros s O; destruct (witness_shape ct P C s O) as [(? & ? & ? & -> & _)|(? & -> & _)]; reflexivity).
  destruct (same_class_binding ct _ _ (p_bwit P) w1 w2 h1 W T (fits_holds _ _ _ O1) (fits_holds _ _ _ O2) (CL w1 O1) (CL w2 O2) H1 H2) as [(A & _)|K]; [left|right; exact K].
  assert (SO : forall s i b, object ct (p_bwit P) (Witness P s i b) -> object ct (p_bseal P) s).
  { intros s i b O. destruct (witness_shape ct P C _ O) as [(s' & i' & b' & Q & Os & _)|(dh & Q & _)]; [|discriminate]. injection Q as <- _ _. exact Os. }
  destruct K1 as [_ X1|dh i t b id sh Q1 Hi1 Hs1 X1|o n i t b id sh Q1 Hi1 Hs1 X1]; rewrite X1;
    destruct K2 as [_ X2|dh' i' t' b' id' sh' Q2 Hi2 Hs2 X2|o' n' i' t' b' id' sh' Q2 Hi2 Hs2 X2]; rewrite X2;
    try (rewrite Q1, Q2 in A; apply agree_wit in A; destruct A as (A & <-); assert (id' = id) as -> by congruence;
         rewrite Q1 in O1; rewrite Q2 in O2; apply SO in O1; apply SO in O2;
         assert (sh = sh') as <- by (eapply (agree_hash ct W); [exact (fits_holds _ _ _ O1)|exact (fits_holds _ _ _ O2)|exact A|exact Hs1|exact Hs2])).
  - exact (far_err _ []).
  - exact (far_err [_] [_; _]).
  - eexists. split; [right; eexists; split; reflexivity|left; reflexivity].
  - exact (far_err' [_] [_; _]).
  - exact (far_err _ []).
  - eexists. split; [right; eexists; split; reflexivity|left; reflexivity].
  - eexists. split; [left; reflexivity|right; eexists; split; reflexivity].
  - eexists. split; [left; reflexivity|right; eexists; split; reflexivity].
  - eexists. split; [left; reflexivity|]. assert (o = o') as <-; [|left; reflexivity].
    inversion A as [|? ? ? F| |]; subst; [reflexivity|]. inversion F as [|? ? ? ? AO _]; subst. pose proof (agree_leaf _ _ _ AO eq_refl) as Y. congruence.
Qed.

(** ** In plain words *)
Lemma sealinfo_plain f :
  (exists e, deserialize ct (p_bseal P) f = Err e /\ sealinfo_lines ct P f = ([], Err e)) \/
  (exists s h, deserialize ct (p_bseal P) f = Ok s /\ phash ct s = Ok h /\
    ((exists o n, s = Seal P o n /\ sealinfo_lines ct P f = ([String.append "Hash:		" (b2x h); String.append "OutPoint:	" (show_outpoint (b2lx (o_hash o)) (o_n o))], Ok tt)) \/
     (exists dh, s = PHash (p_bseal P) dh /\ sealinfo_lines ct P f = ([String.append "Hash:		" (b2x h)], Err PrunedError)))).
Proof.
  destruct (deserialize ct (p_bseal P) f) as [s|e] eqn:D.
  - right. destruct (sealinfo_cases f s D) as (_ & h & H & K). exists s, h. auto.
  - left. exists e. split; [reflexivity|]. unfold sealinfo_lines. rewrite D. reflexivity.
Qed.
Lemma witnessinfo_plain f :
  (exists e, (deserialize ct (p_bwit P) f = Err e \/ exists w, deserialize ct (p_bwit P) f = Ok w /\ phash ct w = Err e) /\ witnessinfo_lines ct P f = ([], Err e)) \/
  (exists w h, deserialize ct (p_bwit P) f = Ok w /\ phash ct w = Ok h /\
    ((exists o n i t b id sh, w = Witness P (Seal P o n) (TxInProof P i (TxProof P t)) b /\ tx_GetHash t = Ok id /\ phash ct (Seal P o n) = Ok sh /\
        witnessinfo_lines ct P f = ([String.append "Hash:		" (b2x h); String.append "Txid:		" (b2lx id); String.append "Seal Hash:	" (b2x sh);
          String.append "Seal OutPoint:	" (show_outpoint (b2x (o_hash o)) (o_n o))], Ok tt)) \/
     (exists dh i t b id sh, w = Witness P (PHash (p_bseal P) dh) (TxInProof P i (TxProof P t)) b /\ tx_GetHash t = Ok id /\ phash ct (PHash (p_bseal P) dh) = Ok sh /\
        witnessinfo_lines ct P f = ([String.append "Hash:		" (b2x h); String.append "Txid:		" (b2lx id); String.append "Seal Hash:	" (b2x sh)], Err PrunedError)) \/
     ((forall s i t b, w <> Witness P s (TxInProof P i (TxProof P t)) b) /\ witnessinfo_lines ct P f = ([String.append "Hash:		" (b2x h)], Err PrunedError)))).
Proof.
  destruct (deserialize ct (p_bwit P) f) as [w|e] eqn:D.
  2:{ left. exists e. split; [auto|]. unfold witnessinfo_lines. rewrite D. reflexivity. }
  destruct (phash ct w) as [h|e] eqn:H.
  2:{ left. exists e. split; [right; eauto|]. unfold witnessinfo_lines. rewrite D, H. reflexivity. }
  right. exists w, h. split; [reflexivity|]. split; [exact H|]. destruct (witnessinfo_cases f w h D H) as (_ & [N X|dh i t b id sh Q Hi Hs X|o n i t b id sh Q Hi Hs X]).
  - right. right. auto.
  - right. left. exists dh, i, t, b, id, sh. auto.
  - left. exists o, n, i, t, b, id, sh. auto.
Qed.
End Lines.
