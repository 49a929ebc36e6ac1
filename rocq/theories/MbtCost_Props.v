(** Property C171: operations on merbinner trees are cheap. *)
From Verif Require Import Base Serialize_Model Proof_Model Proof_Spec Merbinner_Model Merbinner_Spec Merbinner_Proofs Tree_Examples Merbinner_Examples
  MmrCost_Model MbtCost_Model MbtCost_Proofs MbtView_Props.

(** A map with keys of [n] bits, of which no key but [k] starts with the same [d] bits as [k].  The counts are of the calls that lookup,
    [put] and [remove] make; what comes out is what they give. *)
Theorem C171_operations_are_cheap : forall ct M ks vs k2p K n D t k v d, wf_table ct -> is_mbt ct M ks vs -> good_keys ct k2p K n ->
  history ct M k2p K D (Ok t) -> K k ->
  (forall k' v' p, In (k', v') D -> k' <> k -> starts p (k2p k') -> starts p (k2p k) -> List.length p < d) ->
  (fst (cgetitem ct k2p t k) = tgetitem ct k2p t k /\ snd (cgetitem ct k2p t k) <= d + 2) /\
  (fst (cput ct M k2p t k v) = put ct M k2p t k v /\ snd (cput ct M k2p t k v) <= 2 * d + 4) /\
  (fst (cremove ct M k2p t k) = remove ct M k2p t k /\ snd (cremove ct M k2p t k) <= 2 * d + 3).
Proof.
  intros ct M ks vs k2p K n D t k v d W I G Hy Kk Hd. destruct (history_ok ct M ks vs k2p K n W I G D _ Hy) as (t' & E & T & P). assert (t' = t) as -> by congruence.
  assert (H : snd (cdescend t (k2p k)) <= S d).
  { apply (descend_tree_le ct k2p K n G k d t Kk T). intros k' v' X N. apply (Hd k' v' _ (Permutation_in _ P X) N); apply common_starts. }
  split; [split; [apply cgetitem_getitem|apply getitem_le, H]|]. split; (split; [first [apply cput_put|apply cremove_remove]|first [apply put_le, H|apply remove_le, H]]).
Qed.
Print Assumptions C171_operations_are_cheap.

(** However many keys there are, the number of bits of a key is a bound. *)
Theorem C171_bits_are_a_bound : forall ct M ks vs k2p K n D t k v, wf_table ct -> is_mbt ct M ks vs -> good_keys ct k2p K n ->
  history ct M k2p K D (Ok t) -> K k ->
  snd (cgetitem ct k2p t k) <= n + 2 /\ snd (cput ct M k2p t k v) <= 2 * n + 4 /\ snd (cremove ct M k2p t k) <= 2 * n + 3.
Proof.
  intros ct M ks vs k2p K n D t k v W I G Hy Kk. destruct (C171_operations_are_cheap ct M ks vs k2p K n D t k v n W I G Hy Kk) as ((_ & A) & (_ & B) & _ & C); [|auto].
  intros k' v' p X N (s & E) (s' & E'). destruct (history_ok ct M ks vs k2p K n W I G D _ Hy) as (t' & Et & T & P).
  assert (Kk' : K k').
  { destruct T as [-> |R]; [apply (Permutation_in _ (Permutation_sym P)) in X; destruct X|]. apply (radix_keys k2p K t' R k' v'). apply (Permutation_in _ (Permutation_sym P) X). }
  pose proof (gk_len _ _ _ _ G k Kk) as L. pose proof (gk_len _ _ _ _ G k' Kk') as L'. rewrite E in L'. rewrite E' in L. rewrite app_length in L, L'.
  destruct s as [|x s]; [|cbn in L'; lia]. destruct s' as [|y s']; [|cbn in L, L'; lia]. exfalso. apply N. apply (gk_inj _ _ _ _ G); congruence.
Qed.
Print Assumptions C171_bits_are_a_bound.

(** A map with three keys: the calls for keys that are in it and for keys that are not. *)
Example C171_instance : history woods IntMBTree from_bytes digest trio (Ok trio_tree) /\ digest (key x80 x00) /\
  (forall k' v p, In (k', v) trio -> k' <> key x80 x00 -> starts p (from_bytes k') -> starts p (from_bytes (key x80 x00)) -> List.length p < 1) /\
  map (fun k => snd (cgetitem woods from_bytes trio_tree k)) [key x80 x00; key x0f x00; key x0f x02] = [3; 4; 3] /\
  snd (cput woods IntMBTree from_bytes trio_tree (key x0f x02) (num 1)) = 6 /\ snd (cremove woods IntMBTree from_bytes trio_tree (key x0f x00)) = 5.
Proof.
  destruct C169_instance as (A & _ & B & _ & C & _). split; [exact A|]. split; [exact B|]. split; [exact C|]. split; [vm_compute; reflexivity|]. split; vm_compute; reflexivity.
Qed.
