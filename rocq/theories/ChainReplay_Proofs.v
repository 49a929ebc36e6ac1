(** Seal witnesses that are pruned, verified and sent. *)
From Verif Require Import Base PySlice Sha256 Ripemd160 Serialize_Model Serialize_Spec Serialize_Proofs Tx_Model Tx_Spec Tx_Proofs
  Script_Model Proof_Model Proof_Spec Proof_Proofs ProofHash_Proofs ProofView_Proofs ProofReplay_Proofs ProofMain_Proofs ProofArrive_Proofs MerbinnerHash_Proofs MerbinnerSubset_Proofs
  Hex_Model Chain_Model Chain_Spec Chain_Proofs ChainPipe_Proofs.
From Coq Require Import ZifyBool ZifyNat ZifyN.
Local Open Scope string_scope.
Local Open Scope list_scope.
Section Chain.
Context (ct : ctable) (P : chain) (C : is_chain ct P).
Ltac vw := repeat (cbn [run read get put_back prune class_of attr_index String.eqb Ascii.eqb Bool.eqb andb option_map nth_error set_nth repeat List.length bind observe app hash_of fst snd then_do];
   rewrite ?(A_tx ct P C), ?(A_txin ct P C), ?(A_txout ct P C), ?(A_bseal ct P C), ?(A_bwit ct P C)).

(** The view after verify and after verify_hash. *)
Definition view_tx (t : tx) (st : list (option val)) : val := PView (p_tx P) (TxProof P t) st.
Definition view_wit o n i t j t' (out : val) : val :=
  PView (p_bwit P) (Witness P (Seal P o n) (TxInProof P i (TxProof P t)) (TxOutProof P j (TxProof P t')))
    [Some (PView (p_bseal P) (Seal P o n) [Some (VOut o); None]);
     Some (PView (p_txin P) (TxInProof P i (TxProof P t)) [Some (VPrim (PyInt i)); Some (view_tx t [Some (VTx t)])]);
     Some out].
Lemma verified_view o n i t j t' x : input t i x -> i_prevout x = o -> same_txid t t' -> wf_outpoint o ->
  run ct btc_verify (prune ct (Witness P (Seal P o n) (TxInProof P i (TxProof P t)) (TxOutProof P j (TxProof P t')))) =
  (Ok tt, view_wit o n i t j t' (PView (p_txout P) (TxOutProof P j (TxProof P t')) [None; Some (view_tx t' [None])])).
Proof.
  intros X Ex S Wo. unfold btc_verify, out_at, txin_at, int_at, tx_at, value_at, proof_at, hash_at, view_wit, view_tx, Witness, Seal, TxInProof, TxOutProof, TxProof, prune.
  vw.
  match goal with |- context [then_do (py_index ?a ?b)] => assert (py_index a b = Ok x) as -> by (destruct X; apply py_index_ok; [assumption|split; assumption]) end.
  vw.
  destruct (outpoint_eq_ok o (i_prevout x)) as (r & -> & Hr); [exact Wo|rewrite Ex; exact Wo|]. rewrite (proj2 Hr (eq_sym Ex)).
  unfold assert at 1. vw. fold (TxProof P t). fold (TxProof P t').
  assert (V : forall u st, phash ct (PView (p_tx P) (TxProof P u) st) = phash ct (TxProof P u)) by reflexivity.
  destruct (same_txid_hash ct P C t t' S) as (h & H1 & H2). rewrite V, H1. vw. rewrite V, H2. vw. rewrite (proj2 (bytes_eqb_eq h h) eq_refl). reflexivity.
Qed.

Lemma digest_view h o n i t j t' y : output t' j y -> List.length h = 32 -> commitment h (o_scriptPubKey y) ->
  run ct (btc_verify_hash h) (view_wit o n i t j t' (PView (p_txout P) (TxOutProof P j (TxProof P t')) [None; Some (view_tx t' [None])])) =
  (Ok tt, view_wit o n i t j t' (PView (p_txout P) (TxOutProof P j (TxProof P t')) [Some (VPrim (PyInt j)); Some (view_tx t' [Some (VTx t')])])).
Proof.
  intros Y L K. unfold btc_verify_hash. assert ((blen h =? 32)%N = true) as -> by (unfold blen; lia). unfold assert at 1.
  unfold txout_at, int_at, tx_at, value_at, view_wit, view_tx, Witness, Seal, TxInProof, TxOutProof, TxProof, prune. vw.
  match goal with |- context [then_do (py_index ?a ?b)] => assert (py_index a b = Ok y) as -> by (destruct Y; apply py_index_ok; [assumption|split; assumption]) end.
  vw. destruct (commits_to_ok (o_scriptPubKey y) h L) as (r & -> & Hr). rewrite (proj2 Hr K). vw. reflexivity.
Qed.

Lemma hash_made c attrs tg fs m : declares ct c attrs (tag tg) -> hash_fields ct attrs fs = Ok m -> exists h, phash ct (PFull c fs) = Ok h.
Proof. intros (A & _ & T) H. eexists. eapply phash_full; [exact T|]. rewrite A. exact H. Qed.

Lemma witness_hash_ok o n i t j t' : wf_table ct -> wf_outpoint o -> wf_tx t -> wf_tx t' -> (0 <= i < 2 ^ 32)%Z -> (0 <= j < 2 ^ 32)%Z ->
  List.length n = 16 -> exists h, phash ct (Witness P (Seal P o n) (TxInProof P i (TxProof P t)) (TxOutProof P j (TxProof P t'))) = Ok h.
Proof.
  intros W Wo Wt Wt' Ri Rj Ln.
  destruct (seal_hash_ok ct P C (Seal P o n) W (seal_object ct P C o n Wo Ln)) as (hs & Hs).
  assert (T : forall u, wf_tx u -> exists h, phash ct (TxProof P u) = Ok h).
  { intros u Wu. rewrite (tx_phash ct P C). destruct (tx_GetHash_wf u Wu) as (h & ->). eexists. reflexivity. }
  destruct (T t Wt) as (ht & Ht). destruct (T t' Wt') as (ht' & Ht').
  assert (U : forall k, (0 <= k < 2 ^ 32)%Z -> exists b, ser_leaf (SerPrim UInt32) (VPrim (PyInt k)) = Ok b).
  { intros k Rk. unfold ser_leaf, UInt32. cbn [to_py prim_ser]. eexists. reflexivity. }
  destruct (U i Ri) as (bi & Bi). destruct (U j Rj) as (bj & Bj).
  destruct (hash_made _ _ _ [VPrim (PyInt i); TxProof P t] (bi ++ ht ++ []) (d_txin ct P C)) as (ha & Ha). { cbn [hash_fields]. rewrite Bi, Ht. reflexivity. }
  destruct (hash_made _ _ _ [VPrim (PyInt j); TxProof P t'] (bj ++ ht' ++ []) (d_txout ct P C)) as (hb & Hb). { cbn [hash_fields]. rewrite Bj, Ht'. reflexivity. }
  eapply hash_made; [exact (d_bwit ct P C)|]. cbn [hash_fields]. rewrite Hs. unfold TxInProof, TxOutProof. rewrite Ha, Hb. reflexivity.
Qed.

Lemma sent_witness w h v1 v2 : wf_table ct -> object ct (p_bwit P) w -> run ct btc_verify (prune ct w) = (Ok tt, v1) -> run ct (btc_verify_hash h) v1 = (Ok tt, v2) ->
  exists f, ser_proof ct v2 = Ok f /\ deserialize ct (p_bwit P) f = Ok w.
Proof.
  intros W O R1 R2. pose proof (prune_shows ct any_bits _ w O) as S0.
  pose proof (run_same ct any_bits btc_verify W _ w _ O S0) as (F1 & _). pose proof (run_shows ct any_bits btc_verify W _ w _ O S0) as (S1 & _).
  rewrite R1 in F1, S1. cbn [fst snd] in F1, S1.
  pose proof (run_same ct any_bits (btc_verify_hash h) W _ w _ O S1) as (F2 & _). pose proof (run_shows ct any_bits (btc_verify_hash h) W _ w _ O S1) as (S2 & _).
  rewrite R2 in F2, S2. cbn [fst snd] in F2, S2. symmetry in F1, F2.
  apply (proj1 (btc_verify_exact ct P C w O)) in F1. destruct F1 as (o & n & i & t & j & t' & x & -> & X & Ex & S).
  apply (btc_verify_hash_exact ct P C _ h O) in F2. destruct F2 as (L & s' & a' & j' & u & y & E & Y & K). inversion E; subst s' a' j' u. clear E.
  destruct (witness_shape ct P C _ O) as [(s & a & b & E & Os & Oa & Ob)|(dh & E & _)]; [|discriminate E]. inversion E; subst s a b. clear E.
  destruct (seal_wf ct P C o n Os) as (Wo & Ln).
  destruct (txin_shape ct P C _ Oa) as [(i' & p & E & Ri & Op)|(dh & E & _)]; [|discriminate E]. inversion E; subst i' p. clear E.
  destruct (txout_shape ct P C _ Ob) as [(j' & p & E & Rj & Oq)|(dh & E & _)]; [|discriminate E]. inversion E; subst j' p. clear E.
  destruct (tx_shape ct P C _ Op) as [(u & E & Wt)|(dh & E & _)]; [|discriminate E]. inversion E; subst u. clear E.
  destruct (tx_shape ct P C _ Oq) as [(u & E & Wt')|(dh & E & _)]; [|discriminate E]. inversion E; subst u. clear E.
  rewrite (verified_view o n i t j t' x X Ex S Wo) in R1. assert (E : v1 = _) by (inversion R1; reflexivity). rewrite E in R2. clear R1 E.
  rewrite (digest_view h o n i t j t' y Y L K) in R2. assert (E : v2 = _) by (inversion R2; reflexivity).
  destruct (witness_hash_ok o n i t j t' W Wo Wt Wt' Ri Rj Ln) as (hw & Hw).
  destruct (witness_file_roundtrip ct P C _ W O) as (f & Ef & Df). exists f. split; [|exact Df].
  pose proof (ser_frozen ct any_bits W _ (SerProof (p_bwit P)) v2 hw O S2 (fun _ => Hw)) as SF. cbn [ser_val] in SF. rewrite SF.
  assert (Fz : frozen ct v2 = Witness P (Seal P o n) (TxInProof P i (TxProof P t)) (TxOutProof P j (TxProof P t'))) by (rewrite E; reflexivity).
  rewrite Fz. exact Ef.
Qed.
End Chain.
