(** C185: the hashes of mountain ranges and merbinner trees, computed by hand. *)
From Verif Require Import Base Sha256 Serialize_Model Serialize_Spec Proof_Model Proof_Spec Mmr_Model Mmr_Spec Merbinner_Model Merbinner_Spec
  Declare_Model Declare_Spec Declare_Props Tree_Examples Merbinner_Examples Recipe_Spec TreeRecipe_Spec TreeRecipe_Proofs.
Local Open Scope string_scope.
Local Open Scope list_scope.

(** In every program, for every class decorated with make_mmr_subclass and every list of items, however the mountain range was built. *)
Theorem C185_mmr_hash_by_hand : forall ds w b t value, declared_by ds w -> In (DMmr b (Some t) value) ds ->
  exists M, is_mmr (table_of w) M value /\ c_hash (table_of w (m_base M)) = HTag (Some t) /\
    forall vs r, built (table_of w) M vs r -> Forall (item (table_of w) M) vs -> fine (List.length vs) ->
    exists tr, r = Ok tr /\ forall h, phash (table_of w) (node M tr) = Ok h <-> mmr_hash (part (table_of w) ("value", value)) t vs h.
Proof. exact program_mmr. Qed.
Print Assumptions C185_mmr_hash_by_hand.

(** In every program, for every class decorated with make_MerbinnerTree_subclass and every map, whatever led to it. *)
Theorem C185_mbt_hash_by_hand : forall ds w b t key value, declared_by ds w -> In (DMbt b (Some t) key value) ds ->
  exists M, is_mbt (table_of w) M key value /\ c_hash (table_of w (b_base M)) = HTag (Some t) /\
    forall k2p K n D r, good_keys (table_of w) k2p K n -> history (table_of w) M k2p K D r ->
    exists tr, r = Ok tr /\ forall h, phash (table_of w) (bnode M tr) = Ok h <-> mbt_hash (part (table_of w) ("key", key)) (part (table_of w) ("value", value)) k2p t D h.
Proof. exact program_mbt. Qed.
Print Assumptions C185_mbt_hash_by_hand.

(** The values were also computed with Python's hashlib. *)
Lemma keys_anywhere ct : good_keys ct from_bytes digest 256.
Proof.
  constructor.
  - apply (gk_len _ _ _ _ woods_keys).
  - apply (gk_inj _ _ _ _ woods_keys).
  - intros k1 k2 (b1 & -> & _) (b2 & -> & _). cbn [py_eq prim_eq]. eexists. split; [reflexivity|]. rewrite bytes_eqb_eq. split; [intros ->; reflexivity|congruence].
Qed.
Definition ranges : mmr_classes := MmrClasses 13 14 15 16.
Definition trees : mbt_classes := MbtClasses 17 18 19 20.
Definition three : mmr := match mmr_new (table_of (after 13)) ranges [num 0; num 1; num 200] with Ok t => t | Err _ => Empty end.
Definition trio_here : mbt := match mbt_new (table_of (after 13)) trees from_bytes trio with Ok t => t | Err _ => TEmpty end.
Definition made_ok (r : result val) : bool := match r with Ok _ => true | Err _ => false end.
Lemma made_ok_some r : made_ok r = true -> exists p, r = Ok p.
Proof. destruct r as [p|]; [exists p; reflexivity|discriminate]. Qed.

Example C185_instance :
  (declared_by proofchains (after 13) /\ In (DMmr MMR (Some (uuid "738b5a85-d6f1-4873-9c21-300a01166f1d")) (SerPrim UInt64)) proofchains /\
   In (DMbt MBT (Some (uuid "2bb60984-0486-41ab-aad6-bd5b1586bd14")) (SerPrim Digest) (SerPrim UInt64)) proofchains) /\
  (built (table_of (after 13)) ranges [num 0; num 1; num 200] (Ok three) /\ Forall (item (table_of (after 13)) ranges) [num 0; num 1; num 200] /\ fine 3 /\
   phash (table_of (after 13)) (node ranges three) = Ok (hex "a8b9dd2d82d10545ace270ee9d5701c650dd9c6f7a58af48de2851d4d4b45932")) /\
  (good_keys (table_of (after 13)) from_bytes digest 256 /\ history (table_of (after 13)) trees from_bytes digest trio (Ok trio_here) /\
   phash (table_of (after 13)) (bnode trees trio_here) = Ok (hex "c106f31a42d6aa86e78388f4b1b3f33533af6c8d1147803503b73f19f5e2033b")).
Proof.
  split; [split; [exact (after_declared 13 (le_n 13))|split; cbn; auto 20]|]. split.
  - assert (E : mmr_new (table_of (after 13)) ranges [num 0; num 1; num 200] = Ok three) by (vm_compute; reflexivity).
    split; [rewrite <- E; apply B_new|]. split; [|split; [unfold fine; lia|vm_compute; reflexivity]].
    repeat (constructor; [apply made_ok_some; vm_compute; reflexivity|]). constructor.
  - assert (E : mbt_new (table_of (after 13)) trees from_bytes trio = Ok trio_here) by (vm_compute; reflexivity).
    split; [apply keys_anywhere|]. split; [|vm_compute; reflexivity]. rewrite <- E. apply Hy_new; [apply trio_new|].
    intros k v H. split; [apply (proj2 trio_new k v H)|].
    cbn [trio In] in H. destruct H as [H|[H|[H|[]]]]; injection H as <- <-; apply made_ok_some; vm_compute; reflexivity.
Qed.
