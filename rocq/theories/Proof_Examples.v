(** A concrete table of classes used in the examples of Proof_Props.v: the classes of
    proofmarshal/test/test_proof.py:19-33, 200-230, 275, TxProof and OutPointProof of
    proofchains/core/bitcoin.py:62-97, and the seals of
    proofchains/core/uniquebits/singleuseseal.py:30-48. *)
From Verif Require Import Base Serialize_Model Serialize_Spec Tx_Model Tx_Spec Proof_Model Proof_Spec.

Definition FOO := 0. Definition BAR := 1. Definition VAR := 2. Definition EMPTY := 3. Definition LEAF := 4.
Definition INNER := 5. Definition TXPROOF := 6. Definition OUTPOINT := 7. Definition EITHER := 8. Definition FLAGS := 9.
Definition SEAL := 10. Definition FAKE := 11.

Definition var_tag := hex "0790a99e0a124677b4c657054039b9cf".
Definition shop : ctable := fun c =>
  match c with
  | 0 => mkClass [("n", SerPrim UInt8)] Plain (HTag (Some (hex "19e5278a76cc479c8713e7648636979c"))) [FOO]
  | 1 => mkClass [("left", SerProof FOO); ("right", SerProof FOO); ("nonproof_attr", SerPrim UInt8)] Plain
           (HTag (Some (hex "4c3cce550a90404ebaf3a6720205e8ab"))) [BAR]
  | 2 => mkClass [] (Variant [EMPTY; LEAF; INNER]) (HTag (Some var_tag)) [VAR]
  | 3 => mkClass [] (Variant [EMPTY; LEAF; INNER]) (HTag (Some (tag_derive (hex "a5516ff099a74a00b9188d30ea6f25b1") var_tag))) [EMPTY; VAR]
  | 4 => mkClass [("value", SerPrim UInt8)] (Variant [EMPTY; LEAF; INNER])
           (HTag (Some (tag_derive (hex "69cd3faab1e748e4be6ed73f6644829b") var_tag))) [LEAF; VAR]
  | 5 => mkClass [("left", SerProof VAR); ("right", SerProof VAR)] (Variant [EMPTY; LEAF; INNER])
           (HTag (Some (tag_derive (hex "e540376ab7b44b068d25b7b00cf7e081") var_tag))) [INNER; VAR]
  | 6 => mkClass [("tx", SerTx)] Plain HTx [TXPROOF]
  | 7 => mkClass [("txproof", SerProof TXPROOF); ("n", SerPrim UInt32)] Plain
           (HTag (Some (hex "557eb53363be497db1637d1875de9681"))) [OUTPOINT]
  | 8 => mkClass [("u", SerUnion [FOO; BAR])] Plain (HTag (Some (hex "000102030405060708090a0b0c0d0e0f"))) [EITHER]
  | 9 => mkClass [("flags", SerBits)] Plain (HTag (Some (hex "100102030405060708090a0b0c0d0e0f"))) [FLAGS]
  | 10 => mkClass [] Plain (HTag None) [SEAL]
  | 11 => mkClass [("committed_hash", SerPrim Digest)] Plain (HTag (Some (hex "e5690d7316e34f8fbd4f148c32d37baf"))) [FAKE; SEAL]
  | _ => mkClass [] Plain (HTag None) [c]
  end%string.

Definition foo n := PFull FOO [VPrim (PyInt n)].
Definition bar a b n := PFull BAR [a; b; VPrim (PyInt n)].
Definition leaf n := PFull LEAF [VPrim (PyInt n)].
Definition empty := PFull EMPTY [].
Definition inner a b := PFull INNER [a; b].
Definition either a := PFull EITHER [a].
Definition flags l := PFull FLAGS [VBits l].

Ltac each c := destruct c as [|[|[|[|[|[|[|[|[|[|[|[|c]]]]]]]]]]]].

Lemma shop_wf : wf_table shop.
Proof.
  constructor.
  - intros c. each c; cbn; repeat constructor; cbn; intuition discriminate.
  - intros c. unfold subclass. each c; cbn; auto.
  - intros c u i k Hc Hi.
    assert (u = [EMPTY; LEAF; INNER]) as -> by (each c; cbn in Hc; congruence). clear Hc.
    destruct i as [|[|[|i]]]; cbn in Hi; inversion Hi; subst; try (destruct i; discriminate); (split; [reflexivity|]);
      intros j m Hj Hm; destruct j as [|[|j]]; try lia; cbn in Hm; inversion Hm; subst; intros H; cbn in H; intuition discriminate.
  - intros c name cs i m k Ha Hi Hd.
    assert (cs = [FOO; BAR]) as -> by (each c; cbn in Ha; intuition congruence). clear Ha.
    destruct i as [|[|i]]; cbn in Hi; inversion Hi; subst; try (destruct i; discriminate); cbn in Hd; subst;
      (split; [cbn; auto|]); intros j m' Hj Hm; destruct j as [|j]; try lia; cbn in Hm; inversion Hm; subst; intros H; cbn in H; intuition discriminate.
  - intros c H. each c; cbn in H; try discriminate. split; [reflexivity|]. exists "tx"%string. reflexivity.
Qed.

Lemma shop_tags : wf_tags shop.
Proof.
  constructor.
  - intros c t H. each c; cbn in H; inversion H; vm_compute; reflexivity.
  - intros c name sr k1 k2 Ha H1 H2.
    assert (D : (exists b, sr = SerProof b /\ c_kind (shop b) = Plain) \/ sr = SerProof VAR \/ sr = SerUnion [FOO; BAR] \/
      match sr with SerProof _ | SerUnion _ => False | _ => True end).
    { each c; cbn in Ha; intuition; repeat match goal with H : _ = (_, _) |- _ => inversion H; subst; clear H end; auto;
        try (left; eexists; split; reflexivity). }
    destruct D as [(b & -> & Hb)|[->|[->|D]]].
    + cbn in H1, H2. unfold declared in *. rewrite Hb in *. left. congruence.
    + cbn in H1, H2. unfold declared in *. cbn in H1, H2.
      intuition subst; auto; right; do 2 eexists; (split; [reflexivity|]); (split; [reflexivity|]); vm_compute; discriminate.
    + destruct H1 as (c1 & I1 & D1), H2 as (c2 & I2 & D2). cbn in I1, I2.
      intuition subst; cbn in D1, D2; subst; auto; right; do 2 eexists; (split; [reflexivity|]); (split; [reflexivity|]); vm_compute; discriminate.
    + destruct sr; contradiction.
Qed.

Lemma shop_variants : variant_table shop.
Proof.
  intros c name sr Ha. each c; cbn in Ha; intuition; repeat match goal with H : _ = (_, _) |- _ => inversion H; subst; clear H end; cbn; auto;
    try (intros u k Hu Hk H; cbn in Hu; inversion Hu; subst; cbn in Hk; intuition subst; cbn in H; intuition discriminate).
  intuition subst; reflexivity.
Qed.

Ltac fit := repeat first
  [ apply F_full; [first [reflexivity | unfold declared; cbn; tauto]|cbn [c_attrs shop]]
  | apply FA_nil | apply FA_cons
  | apply F_prim; cbn; lia ].

Lemma foo_fits Q n : (0 <= n <= 255)%Z -> fits shop Q (SerProof FOO) (foo n).
Proof. intros H. unfold foo. fit. Qed.

Lemma bar_fits Q a b n : (0 <= a <= 255)%Z -> (0 <= b <= 255)%Z -> (0 <= n <= 255)%Z -> fits shop Q (SerProof BAR) (bar (foo a) (foo b) n).
Proof. intros Ha Hb Hn. unfold bar, foo. fit. Qed.

Lemma inner_fits Q : fits shop Q (SerProof VAR) (inner (inner empty (leaf 7)) (leaf 15)).
Proof. unfold inner, empty, leaf. fit. Qed.
