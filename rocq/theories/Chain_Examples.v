(** A concrete table of classes for the examples of Chain_Props.v and Gumap_Props.v: the
    proof classes of proofchains/core/bitcoin.py:62-125, of
    proofchains/core/uniquebits/singleuseseal.py:30-89 and the map IntGuMap of
    proofchains/test/core/uniquebits/test_gumap.py:25-37. *)
From Verif Require Import Base Serialize_Model Serialize_Spec Tx_Model Tx_Spec Proof_Model Proof_Spec Chain_Model Chain_Spec.
Local Open Scope string_scope.
Local Open Scope list_scope.

Definition SINGLEUSESEAL := 0. Definition SEALWITNESS := 1. Definition TXPROOF := 2. Definition OUTPOINT := 3. Definition TXIN := 4.
Definition TXOUT := 5. Definition FSEAL := 6. Definition FWIT := 7. Definition BSEAL := 8. Definition BWIT := 9.
Definition GUMAP := 10. Definition UNUSED := 11. Definition GLEAF := 12. Definition GINNER := 13.

Definition gumap_tag := uuid "73777384-88f0-40cc-a836-443cc6db3589".
Definition ledger : ctable := fun c =>
  match c with
  | 0 => mkClass [] Plain (HTag None) [SINGLEUSESEAL]
  | 1 => mkClass [] Plain (HTag None) [SEALWITNESS]
  | 2 => mkClass [("tx", SerTx)] Plain HTx [TXPROOF]
  | 3 => mkClass [("txproof", SerProof TXPROOF); ("n", SerPrim UInt32)] Plain (tag "557eb533-63be-497d-b163-7d1875de9681") [OUTPOINT]
  | 4 => mkClass [("i", SerPrim UInt32); ("txproof", SerProof TXPROOF)] Plain (tag "65d34d83-3291-4813-9119-bd7e29b9dea3") [TXIN]
  | 5 => mkClass [("i", SerPrim UInt32); ("txproof", SerProof TXPROOF)] Plain (tag "ed624663-7a20-4dd6-8980-9870003dfbe7") [TXOUT]
  | 6 => mkClass [("committed_hash", SerPrim Digest)] Plain (tag "e5690d73-16e3-4f8f-bd4f-148c32d37baf") [FSEAL; SINGLEUSESEAL]
  | 7 => mkClass [("seal", SerProof FSEAL)] Plain (tag "a5092f56-3a31-476a-ac81-1b00211140eb") [FWIT; SEALWITNESS]
  | 8 => mkClass [("outpoint", SerOut); ("nonce", SerPrim (SFixed 16))] Plain (tag "b59093bf-527f-4d2a-9a51-3c2e3d2f0c25") [BSEAL; SINGLEUSESEAL]
  | 9 => mkClass [("seal", SerProof BSEAL); ("txinproof", SerProof TXIN); ("txoutproof", SerProof TXOUT)] Plain
           (tag "2ca464a0-1b8c-4aa5-8e72-5d3aaa804cbd") [BWIT; SINGLEUSESEAL]
  | 10 => mkClass [] (Variant [UNUSED; GLEAF; GINNER]) (HTag (Some gumap_tag)) [GUMAP]
  | 11 => mkClass [("prefix", SerBits); ("seal", SerUnion [FSEAL; BSEAL])] (Variant [UNUSED; GLEAF; GINNER])
            (HTag (Some (tag_derive (uuid "dae47bef-d9a3-4971-a6a4-1c67c5f02c11") gumap_tag))) [UNUSED; GUMAP]
  | 12 => mkClass [("witness", SerUnion [FWIT; BWIT]); ("key", SerPrim UInt64); ("value", SerPrim UInt64)] (Variant [UNUSED; GLEAF; GINNER])
            (HTag (Some (tag_derive (uuid "0c60f344-9109-4930-aec1-432c5750fcba") gumap_tag))) [GLEAF; GUMAP]
  | 13 => mkClass [("prefix", SerBits); ("witness", SerUnion [FWIT; BWIT]); ("left", SerProof GUMAP); ("right", SerProof GUMAP)] (Variant [UNUSED; GLEAF; GINNER])
            (HTag (Some (tag_derive (uuid "6893cac7-e834-49cd-8e95-77707b0499b5") gumap_tag))) [GINNER; GUMAP]
  | _ => mkClass [] Plain (HTag None) [c]
  end.

Definition chain1 : chain := Chain TXPROOF OUTPOINT TXIN TXOUT FSEAL FWIT BSEAL BWIT.

Ltac each c := destruct c as [|[|[|[|[|[|[|[|[|[|[|[|[|[|c]]]]]]]]]]]]]].

Lemma ledger_chain : is_chain ledger chain1.
Proof. constructor; (split; [reflexivity|split; reflexivity]). Qed.

Lemma ledger_wf : wf_table ledger.
Proof.
  constructor.
  - intros c. each c; cbn; repeat constructor; cbn; intuition discriminate.
  - intros c. unfold subclass. each c; cbn; auto.
  - intros c u i k Hc Hi.
    assert (u = [UNUSED; GLEAF; GINNER]) as -> by (each c; cbn in Hc; congruence). clear Hc.
    destruct i as [|[|[|i]]]; cbn in Hi; inversion Hi; subst; try (destruct i; discriminate); (split; [reflexivity|]);
      intros j m Hj Hm; destruct j as [|[|j]]; try lia; cbn in Hm; inversion Hm; subst; intros H; cbn in H; intuition discriminate.
  - intros c name cs i m k Ha Hi Hd.
    assert (cs = [FSEAL; BSEAL] \/ cs = [FWIT; BWIT]) as [-> | ->] by (each c; cbn in Ha; intuition congruence); clear Ha;
    destruct i as [|[|i]]; cbn in Hi; inversion Hi; subst; try (destruct i; discriminate); cbn in Hd; subst;
      (split; [cbn; auto|]); intros j m' Hj Hm; destruct j as [|j]; try lia; cbn in Hm; inversion Hm; subst; intros H; cbn in H; intuition discriminate.
  - intros c H. each c; cbn in H; try discriminate. split; [reflexivity|]. exists "tx"%string. reflexivity.
Qed.

Lemma ledger_tags : wf_tags ledger.
Proof.
  constructor.
  - intros c t H. assert (K : match c_hash (ledger c) with HTag (Some x) => List.length x = 16 | _ => True end) by (each c; vm_compute; auto). rewrite H in K. exact K.
  - intros c name sr k1 k2 Ha H1 H2.
    assert (D : (exists b, sr = SerProof b /\ c_kind (ledger b) = Plain) \/ sr = SerProof GUMAP \/ sr = SerUnion [FSEAL; BSEAL] \/ sr = SerUnion [FWIT; BWIT] \/
      match sr with SerProof _ | SerUnion _ => False | _ => True end).
    { each c; cbn in Ha; intuition; repeat match goal with H : _ = (_, _) |- _ => inversion H; subst; clear H end; auto;
        try (left; eexists; split; reflexivity). }
    destruct D as [(b & -> & Hb)|[->|[->|[->|D]]]].
    + cbn in H1, H2. unfold declared in *. rewrite Hb in *. left. congruence.
    + cbn in H1, H2. unfold declared in *. cbn in H1, H2.
      intuition subst; auto; right; do 2 eexists; (split; [reflexivity|]); (split; [reflexivity|]); vm_compute; discriminate.
    + destruct H1 as (c1 & I1 & D1), H2 as (c2 & I2 & D2). cbn in I1, I2.
      intuition subst; cbn in D1, D2; subst; auto; right; do 2 eexists; (split; [reflexivity|]); (split; [reflexivity|]); vm_compute; discriminate.
    + destruct H1 as (c1 & I1 & D1), H2 as (c2 & I2 & D2). cbn in I1, I2.
      intuition subst; cbn in D1, D2; subst; auto; right; do 2 eexists; (split; [reflexivity|]); (split; [reflexivity|]); vm_compute; discriminate.
    + destruct sr; contradiction.
Qed.

Lemma ledger_variants : variant_table ledger.
Proof.
  intros c name sr Ha. each c; cbn in Ha; intuition; repeat match goal with H : _ = (_, _) |- _ => inversion H; subst; clear H end; cbn; auto;
    try (intros u k Hu Hk H; cbn in Hu; inversion Hu; subst; cbn in Hk; intuition subst; cbn in H; intuition discriminate);
    intuition subst; reflexivity.
Qed.

(** The test vectors of test_singleuseseal.py:18-26, 48-63: a seal, the transaction closing it
    over 32 zero bytes, and the same digest committed to in the three ways. *)
Definition outpoint1 : outpoint := mkOutPoint (rev (hex "14180092832c9e49f36e37c2cfa6695a6670cc66dcba42266245e11c8f9de4cf")) 0.
Definition outpoint2 : outpoint := mkOutPoint (rev (hex "2c3c21bf70aada1a1ee4eeb09062ab4525a49d9e5fb19e9c6ef0398a3cfd2093")) 1.
Definition nonce1 := repeat x00 16.
Definition digest1 := repeat x00 32.
Definition digest2 := repeat x01 32.
Definition seal1 := Seal chain1 outpoint1 nonce1.
Definition out_return := mkTxOut 0 ([x6a; x20] ++ digest1).
Definition out_p2sh := mkTxOut 600 (hex "a914b8bcb07f6344b42ab04250c86a6e8b75d3fdbbc687").
Definition out_p2pkh := mkTxOut 600 (hex "76a914b8bcb07f6344b42ab04250c86a6e8b75d3fdbbc688ac").
Definition out_other := mkTxOut 0 ([x6a; x20] ++ digest2).
Definition close_tx (os : list outpoint) (outs : list txout) : tx := mkTx (map (fun o => mkTxIn o [] 0xffffffff) os) outs 0 1.
Definition tx1 := close_tx [outpoint1] [out_return].
Definition tx2 := close_tx [outpoint2; outpoint1] [out_return; out_other].
Definition witness t i j := Witness chain1 seal1 (TxInProof chain1 i (TxProof chain1 t)) (TxOutProof chain1 j (TxProof chain1 t)).
