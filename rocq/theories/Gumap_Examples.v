(** The map IntGuMap of proofchains/test/core/uniquebits/test_gumap.py for the examples of Gumap_Props.v. *)
From Verif Require Import Base Bits_Spec Sha256 Serialize_Model Serialize_Spec Tx_Model Tx_Spec Tx_Proofs Script_Model Proof_Model Proof_Spec
  Chain_Model Chain_Spec Chain_Proofs Chain_Examples Chain_Props Gumap_Model Gumap_Spec Gumap_Proofs.
From Coq Require Import ZifyBool ZifyNat ZifyN.
Local Open Scope string_scope.
Local Open Scope list_scope.

(** test_gumap.py:35-37: the 32 bits of a key, most significant first; a larger key raises OverflowError. *)
Definition int_prefix (k : val) : result (list bool) :=
  match k with
  | VPrim (PyInt z) => if (0 <=? z)%Z && (z <? 2 ^ 32)%Z then Ok (map (fun i => Z.testbit z (31 - Z.of_nat i)) (seq 0 32)) else Err OverflowError
  | _ => Err AttributeError
  end.
Definition intmap : gumap := Gumap GUMAP UNUSED GLEAF GINNER (SerPrim UInt64) (SerPrim UInt64) BSEAL BWIT int_prefix btc_verify_hash.

Lemma intmap_ok : is_gumap ledger chain1 intmap.
Proof.
  constructor; try reflexivity.
  - intros c H. cbn in H. intuition subst; reflexivity.
  - split; [|discriminate]. repeat constructor; cbn; intuition discriminate.
  - split; [reflexivity|left; reflexivity].
  - eexists _, _. split; [reflexivity|]. split; [reflexivity|]. vm_compute. discriminate.
Qed.

Definition int (z : Z) : val := VPrim (PyInt z).
Lemma int_fits z : (0 <= z < 2 ^ 64)%Z -> fits ledger any_bits (SerPrim UInt64) (int z).
Proof. intros R. constructor. cbn. lia. Qed.

(** test_gumap.py:44-49 [make_btc_witness] for a complete seal. *)
Definition make_btc (s : val) (h : bytes) : result val :=
  do o <- seal_outpoint ledger s; do i <- txin_new o [] 0xffffffff; do sc <- script_op_return h; do t <- tx_new [i] [mkTxOut 0 sc] 0 1;
  Ok (Witness chain1 s (TxInProof chain1 0 (TxProof chain1 t)) (TxOutProof chain1 0 (TxProof chain1 t))).

Definition seal2 := Seal chain1 outpoint2 nonce1.
Definition seal3 := Seal chain1 outpoint1 (repeat x01 16).

(** Nodes with fake seals. *)
Definition get_ok {A} (d : A) (r : result A) : A := match r with Ok a => a | Err _ => d end.
Definition fake (h : bytes) : val := FakeWitness chain1 (FakeSeal chain1 h).
Definition leaf_id (k x : Z) : bytes := get_ok [] (leaf_hash ledger intmap (int k) (int x)).
Definition fake_leaf (k x : Z) : val := Leaf intmap (fake (leaf_id k x)) (int k) (int x).
Definition fake_inner (l r : val) : val := Inner intmap [] (fake (get_ok [] (inner_hash ledger intmap l r))) l r.

Definition left_leaf := fake_leaf 0 5.
Definition right_leaf := fake_leaf (2 ^ 31) 6.
Definition map1 := fake_inner left_leaf right_leaf.
(** The same with the right half not opened. *)
Definition map2 := fake_inner left_leaf (Unused intmap [true] (FakeSeal chain1 (leaf_id (2 ^ 31) 6))).
(** The same with another value under the seal of the left half: does not verify there. *)
Definition map3 := fake_inner (Leaf intmap (fake (leaf_id 0 5)) (int 0) (int 7)) right_leaf.
(** Two values for one key, everything verifies. *)
Definition map4 := fake_inner (fake_leaf 0 5) (fake_leaf 0 6).

Lemma is_fake h : List.length h = 32 -> is_witness ledger chain1 intmap (fake h).
Proof. intros L. left. apply (fwit_object ledger chain1 ledger_chain), (fseal_object ledger chain1 ledger_chain), L. Qed.
Lemma leaf_object w k x : is_witness ledger chain1 intmap w -> (0 <= k < 2 ^ 64)%Z -> (0 <= x < 2 ^ 64)%Z -> object ledger GUMAP (Leaf intmap w (int k) (int x)).
Proof. intros H R1 R2. apply (node_shape ledger chain1 intmap intmap_ok). right; left. eexists _, _, _. split; [reflexivity|]. split; [exact H|]. split; apply int_fits; assumption. Qed.
Lemma inner_object p w l r : is_witness ledger chain1 intmap w -> object ledger GUMAP l -> object ledger GUMAP r -> object ledger GUMAP (Inner intmap p w l r).
Proof. intros H R1 R2. apply (node_shape ledger chain1 intmap intmap_ok). right; right. eexists _, _, _, _. split; [reflexivity|auto]. Qed.
Lemma unused_object p s : is_seal ledger chain1 intmap s -> object ledger GUMAP (Unused intmap p s).
Proof. intros H. apply (node_shape ledger chain1 intmap intmap_ok). left. eexists _, _. split; [reflexivity|exact H]. Qed.

Ltac objects := repeat first [apply inner_object|apply leaf_object|apply unused_object|apply is_fake]; try lia; try (vm_compute; reflexivity);
  try (left; apply (fseal_object ledger chain1 ledger_chain); vm_compute; reflexivity).

Lemma map1_object : object ledger GUMAP map1. Proof. unfold map1, fake_inner, left_leaf, right_leaf, fake_leaf. objects. Qed.
Lemma map2_object : object ledger GUMAP map2. Proof. unfold map2, fake_inner, left_leaf, fake_leaf. objects. Qed.
Lemma map3_object : object ledger GUMAP map3. Proof. unfold map3, fake_inner, right_leaf, fake_leaf. objects. Qed.
Lemma map4_object : object ledger GUMAP map4. Proof. unfold map4, fake_inner, fake_leaf. objects. Qed.

(** The nodes of a map of two levels. *)
Lemma two_levels p w l r q n : (forall p' w' l' r', l <> Inner intmap p' w' l' r') -> (forall p' w' l' r', r <> Inner intmap p' w' l' r') ->
  node intmap (Inner intmap p w l r) q n -> (q = [] /\ n = Inner intmap p w l r) \/ (q = [false] /\ n = l) \/ (q = [true] /\ n = r).
Proof.
  intros Nl Nr H. inversion H as [|? ? ? ? ? ? H'|? ? ? ? ? ? H']; subst; [auto|right; left|right; right];
    inversion H' as [? E|? ? ? ? ? ? ? E1 E2|? ? ? ? ? ? ? E1 E2]; subst; auto; exfalso; first [eapply Nl; reflexivity|eapply Nr; reflexivity].
Qed.
Ltac walk H := apply two_levels in H; [|discriminate..]; destruct H as [(-> & ->)|[(-> & ->)|(-> & ->)]].

Lemma map1_verified : all_verified ledger chain1 intmap map1. Proof. intros p n H. walk H; vm_compute; reflexivity. Qed.
Lemma map2_verified : all_verified ledger chain1 intmap map2. Proof. intros p n H. walk H; vm_compute; reflexivity. Qed.
Lemma map4_verified : all_verified ledger chain1 intmap map4. Proof. intros p n H. walk H; vm_compute; reflexivity. Qed.

Lemma map1_placed : placed intmap map1.
Proof.
  intros p w k x H. remember (Leaf intmap w k x) as n eqn:E. walk H; try discriminate E; injection E as _ <- _;
    (eexists; split; [vm_compute; reflexivity|]); eexists; cbn [app]; reflexivity.
Qed.
Lemma map2_placed : placed intmap map2.
Proof.
  intros p w k x H. remember (Leaf intmap w k x) as n eqn:E. walk H; try discriminate E; injection E as _ <- _;
    (eexists; split; [vm_compute; reflexivity|]); eexists; cbn [app]; reflexivity.
Qed.
Lemma map1_fake : all_fake chain1 intmap map1.
Proof. intros p n H. walk H; right; [right|left|left]; repeat eexists. Qed.
Lemma map2_fake : all_fake chain1 intmap map2.
Proof. intros p n H. walk H; [right; right|right; left|left]; repeat eexists. Qed.

(** The maker of witnesses of the tests is honest. *)
Lemma make_btc_honest o n : wf_outpoint o -> List.length n = 16 -> honest ledger chain1 intmap make_btc (Seal chain1 o n).
Proof.
  intros Wo Ln h Lh. set (t := mkTx [mkTxIn o [] 0xffffffff] [mkTxOut 0 ([x6a; x20] ++ h)] 0 1).
  assert (Wt : wf_tx t).
  { unfold t, wf_tx. cbn [t_vin t_vout t_nLockTime t_nVersion List.length]. repeat split; try lia.
    - constructor; [|constructor]. split; [exact Wo|]. cbn. split; [vm_compute; discriminate|lia].
    - constructor; [|constructor]. split; [cbn; lia|]. cbn [o_scriptPubKey]. unfold wf_script, blen. rewrite app_length, Lh. vm_compute. discriminate. }
  exists (Witness chain1 (Seal chain1 o n) (TxInProof chain1 0 (TxProof chain1 t)) (TxOutProof chain1 0 (TxProof chain1 t))).
  assert (O : object ledger BWIT (Witness chain1 (Seal chain1 o n) (TxInProof chain1 0 (TxProof chain1 t)) (TxOutProof chain1 0 (TxProof chain1 t)))).
  { apply (witness_object ledger chain1 ledger_chain); [apply (seal_object ledger chain1 ledger_chain); assumption|apply (txin_object ledger chain1 ledger_chain); [lia|]|
      apply (txout_object ledger chain1 ledger_chain); [lia|]]; apply (tx_object ledger chain1 ledger_chain), Wt. }
  split; [|split; [right; exact O|split; [reflexivity|]]].
  - unfold make_btc. change (seal_outpoint ledger (Seal chain1 o n)) with (Ok o). cbn [bind]. unfold txin_new. cbn [bind negb andb Z.leb Z.compare Pos.compare Pos.compare_cont].
    rewrite (script_op_return_bytes h Lh). cbn [bind]. reflexivity.
  - right. split; [reflexivity|]. apply (btc_verify_hash_exact ledger chain1 ledger_chain _ h O). split; [exact Lh|].
    eexists _, _, _, _, _. split; [reflexivity|]. split; [split; [lia|reflexivity]|]. left. reflexivity.
Qed.
