(** Property C169: proofs about a key of a merbinner tree are short. *)
From Verif Require Import Base Bits_Model Serialize_Model Proof_Model Proof_Spec Merbinner_Model Merbinner_Spec Merbinner_Proofs Tree_Examples Merbinner_Examples
  MmrView_Model MbtView_Model MbtView_Proofs.

Lemma common_starts a : forall b, starts (common_prefix a b) a /\ starts (common_prefix a b) b.
Proof.
  induction a as [|x a IH]; intros [|y b]; cbn [common_prefix]; try (split; eexists; reflexivity). destruct (Bool.eqb x y) eqn:E; [|split; eexists; reflexivity].
  apply Bool.eqb_prop in E. subst y. destruct (IH b) as ((s & Es) & (s' & Es')). split; [exists s|exists s']; cbn [app]; congruence.
Qed.

(** A map with keys of [n] bits, of which no key but [k] starts with the same [d] bits as [k], and with entries that take at most
    [m] bytes.  Looking [k] up in a pruned copy gives what the map has, and this is what is then sent of the copy. *)
Theorem C169_lookup_proof_is_short : forall ct M ks vs k2p K n D t h k d m, wf_table ct -> is_mbt ct M ks vs -> good_keys ct k2p K n -> (Z.of_nat n < 2 ^ 63)%Z ->
  history ct M k2p K D (Ok t) -> phash ct (bnode M t) = Ok h -> K k ->
  (forall k' v, In (k', v) D -> exists kb vb, ser_val ct ks (prune ct k') = Ok kb /\ ser_val ct vs (prune ct v) = Ok vb /\ List.length kb + List.length vb <= m) ->
  (forall k' v p, In (k', v) D -> k' <> k -> starts p (k2p k') -> starts p (k2p k) -> List.length p < d) ->
  exists res w b, vlookup ct k2p t k (prune ct (bnode M t)) = (res, w) /\
    ((exists v, In (k, v) D /\ res = Ok (prune ct v)) \/ (~ In k (map fst D) /\ res = Err KeyError)) /\
    ser_proof ct w = Ok b /\ List.length b <= 78 + n / 8 + m + (45 + n / 8) * d.
Proof.
  intros ct M ks vs k2p K n D t h k d m W I G Ln Hy H Kk Hm Hd.
  destruct (history_ok ct M ks vs k2p K n W I G D _ Hy) as (t' & E & T & P). assert (t' = t) as -> by congruence.
  destruct (lookup_tree ct M ks vs k2p K n W I G Ln k d m t h Kk T H) as (res & w & b & E1 & E2 & E3 & E4).
  - apply Forall_forall. intros (k', v) X. apply (Hm k' v). apply (Permutation_in _ P X).
  - intros k' v X N. apply (Hd k' v _ (Permutation_in _ P X) N); apply common_starts.
  - exists res, w, b. split; [exact E1|]. split; [|auto]. destruct E2 as [(v & Iv & ->)|(Nv & ->)]; [left|right].
    + exists v. split; [apply (Permutation_in _ P Iv)|reflexivity].
    + split; [|reflexivity]. intros X. apply Nv. apply (Permutation_in _ (Permutation_map fst (Permutation_sym P)) X).
Qed.
Print Assumptions C169_lookup_proof_is_short.

Definition trio_tree : mbt := match mbt_new woods IntMBTree from_bytes trio with Ok t => t | Err _ => TEmpty end.
Lemma trio_tree_ok : mbt_new woods IntMBTree from_bytes trio = Ok trio_tree. Proof. vm_compute. reflexivity. Qed.
(** The length of what is sent of a pruned copy after a key was looked up. *)
Definition sent_for (k : val) : result (result val * nat) :=
  let '(r, w) := vlookup woods from_bytes trio_tree k (prune woods (bnode IntMBTree trio_tree)) in do b <- ser_proof woods w; Ok (r, List.length b).
Example C169_instance : history woods IntMBTree from_bytes digest trio (Ok trio_tree) /\ (exists h, phash woods (bnode IntMBTree trio_tree) = Ok h) /\ digest (key x80 x00) /\
  (forall k' v, In (k', v) trio -> exists kb vb, ser_val woods (SerPrim Digest) (prune woods k') = Ok kb /\ ser_val woods (SerPrim UInt64) (prune woods v) = Ok vb /\
     List.length kb + List.length vb <= 33) /\
  (forall k' v p, In (k', v) trio -> k' <> key x80 x00 -> starts p (from_bytes k') -> starts p (from_bytes (key x80 x00)) -> List.length p < 1) /\
  map sent_for [key x80 x00; key x0f x00; key x0f x02; key x80 x01] =
    [Ok (Ok (num 7), 71%nat); Ok (Ok (num 8), 109%nat); Ok (Err KeyError, 107%nat); Ok (Err KeyError, 71%nat)].
Proof.
  split; [rewrite <- trio_tree_ok; exact trio_history|]. split; [exists (match phash woods (bnode IntMBTree trio_tree) with Ok h => h | Err _ => [] end); vm_compute; reflexivity|].
  split; [apply key_digest|]. split; [|split].
  - intros k' v H. cbn [trio In] in H. decompose [or] H; try contradiction; match goal with X : _ = (k', v) |- _ => injection X as <- <- end;
      (eexists _, _; split; [vm_compute; reflexivity|]; split; [vm_compute; reflexivity|]; apply Nat.leb_le; vm_compute; reflexivity).
  - intros k' v p H N S S'. destruct p as [|x p]; [cbn; lia|exfalso]. destruct S as (s & S), S' as (s' & S'). cbn [trio In] in H.
    decompose [or] H; try contradiction; match goal with X : _ = (k', v) |- _ => injection X as <- <- end; try congruence; vm_compute in S; vm_compute in S'; congruence.
  - vm_compute. reflexivity.
Qed.
