(** IntMBTree (proofmarshal/test/test_merbinnertree.py:30-43), for the examples: keys are
    32 byte digests, [key2prefix] is [Bits.from_bytes], values are 64 bit integers. *)
From Verif Require Import Base Serialize_Model Serialize_Spec Proof_Model Proof_Spec Bits_Spec Mmr_Model Merbinner_Model Merbinner_Spec Tree_Examples.

Definition IntMBTree := MbtClasses 4 5 6 7.
Definition from_bytes (k : val) : list bool := match k with VPrim (PyBytes b) => bytes_bits b | _ => [] end.
Definition digest (k : val) : Prop := exists b, k = VPrim (PyBytes b) /\ List.length b = 32.

Lemma woods_mbt : is_mbt woods IntMBTree (SerPrim Digest) (SerPrim UInt64).
Proof.
  constructor; try reflexivity.
  - intros c [<-|[<-|[<-|[<-|[]]]]]; reflexivity.
  - repeat constructor; cbn; intuition discriminate.
Qed.

Lemma bytes_bits_length b : List.length (bytes_bits b) = 8 * List.length b.
Proof. induction b as [|x b IH]; [reflexivity|]. cbn [bytes_bits flat_map]. rewrite app_length. change (flat_map byte_bits b) with (bytes_bits b). rewrite IH. cbn [List.length]. change (List.length (byte_bits x)) with 8. lia. Qed.
Lemma byte_bits_inj x y : byte_bits x = byte_bits y -> x = y.
Proof.
  assert (H : forall z, Byte.of_N (fold_left (fun a (b : bool) => 2 * a + if b then 1 else 0)%N (byte_bits z) 0%N) = Some z) by (intros []; reflexivity).
  intros E. pose proof (H x) as Hx. rewrite E, H in Hx. congruence.
Qed.
Lemma bytes_bits_inj a : forall b, bytes_bits a = bytes_bits b -> a = b.
Proof.
  induction a as [|x a IH]; intros [|y b] E; try reflexivity; try (apply (f_equal (@List.length bool)) in E; rewrite !bytes_bits_length in E; cbn in E; lia).
  cbn [bytes_bits flat_map] in E.
  assert (L : byte_bits x = byte_bits y /\ bytes_bits a = bytes_bits b).
  { assert (X : forall (p q r s : list bool), List.length p = List.length q -> p ++ r = q ++ s -> p = q /\ r = s).
    { induction p as [|u p IHp]; intros [|v q] r s L Z; try discriminate; [split; [reflexivity|exact Z]|]. cbn in *. injection Z as -> Z. injection L as L. destruct (IHp q r s L Z) as [-> ->]. split; reflexivity. }
    apply X; [reflexivity|exact E]. }
  destruct L as (L1 & L2). f_equal; [apply byte_bits_inj, L1|apply IH, L2].
Qed.

Lemma woods_keys : good_keys woods from_bytes digest 256.
Proof.
  constructor.
  - intros k (b & -> & L). cbn [from_bytes]. rewrite bytes_bits_length, L. reflexivity.
  - intros k1 k2 (b1 & -> & _) (b2 & -> & _) E. cbn [from_bytes] in E. apply bytes_bits_inj in E. congruence.
  - intros k1 k2 (b1 & -> & _) (b2 & -> & _). cbn [py_eq prim_eq]. eexists. split; [reflexivity|]. rewrite bytes_eqb_eq. split; [intros ->; reflexivity|congruence].
Qed.

(** A key whose first two bytes are given. *)
Definition key (a b : byte) : val := VPrim (PyBytes (a :: b :: repeat x00 30)).
Lemma key_digest a b : digest (key a b).
Proof. eexists. split; reflexivity. Qed.

Lemma woods_entry k z : digest k -> (0 <= z < 2 ^ 64)%Z -> entry_ok woods IntMBTree k (num z).
Proof.
  intros (b & -> & L) H. eexists. unfold construct. cbn. unfold blen. rewrite L. cbn.
  destruct (Z.leb_spec 0 z); [|lia]. destruct (Z.leb_spec z 18446744073709551615); [reflexivity|lia].
Qed.
Lemma woods_fine k z : digest k -> (0 <= z < 2 ^ 64)%Z -> entry_fine woods (SerPrim Digest) (SerPrim UInt64) k (num z).
Proof.
  intros (b & -> & L) H. split; [apply Ho_leaf; [reflexivity|]; constructor; unfold Digest, prim_ok, blen; rewrite L; reflexivity|].
  split; [apply num_holds, H|]. split; intros X; discriminate X.
Qed.

(** Three entries; the last two share their first byte. *)
Definition trio : list (val * val) := [(key x80 x00, num 7); (key x0f x00, num 8); (key x0f x01, num 9)].
Lemma trio_new : NoDup (map fst trio) /\ (forall k v, In (k, v) trio -> digest k /\ entry_ok woods IntMBTree k v).
Proof.
  split; [repeat constructor; cbn; intuition discriminate|].
  intros k v H. cbn [trio In] in H. decompose [or] H; try contradiction; match goal with X : _ = (k, v) |- _ => injection X as <- <- end;
    (split; [apply key_digest|apply woods_entry; [apply key_digest|lia]]).
Qed.
Lemma trio_history : history woods IntMBTree from_bytes digest trio (mbt_new woods IntMBTree from_bytes trio).
Proof. apply Hy_new; apply trio_new. Qed.
(** Another way to the same map. *)
Definition detour : result mbt :=
  do t <- (do t <- mbt_new woods IntMBTree from_bytes [(key x0f x01, num 9); (key x77 x77, num 1)]; put woods IntMBTree from_bytes t (key x0f x00) (num 8));
  do t <- remove woods IntMBTree from_bytes t (key x77 x77); put woods IntMBTree from_bytes t (key x80 x00) (num 7).
