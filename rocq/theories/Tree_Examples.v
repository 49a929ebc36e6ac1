(** The two tree classes of the test-suite, used in the examples: IntMMR
    (proofmarshal/test/test_mmr.py:18-22) and IntMBTree (proofmarshal/test/test_merbinnertree.py:30-43). *)
From Verif Require Import Base Serialize_Model Serialize_Spec Tx_Model Tx_Spec Proof_Model Proof_Spec Mmr_Model Mmr_Spec.

Definition IntMMR := MmrClasses 0 1 2 3.
Definition mmr_tag := hex "738b5a85d6f148739c21300a01166f1d".
Definition mbt_tag := hex "2bb60984048641abaad6bd5b1586bd14".
Definition woods : ctable := fun c =>
  match c with
  | 0 => mkClass [] (Variant [1; 2; 3]) (HTag (Some mmr_tag)) [0]
  | 1 => mkClass [] (Variant [1; 2; 3]) (HTag (Some (tag_derive (hex "390de307878747b7b25d250aba02b1e5") mmr_tag))) [1; 0]
  | 2 => mkClass [("value", SerPrim UInt64)] (Variant [1; 2; 3]) (HTag (Some (tag_derive (hex "4ea09c8e87f54978a82978d42ab8638a") mmr_tag))) [2; 0]
  | 3 => mkClass [("left", SerProof 0); ("right", SerProof 0); ("length", SerPrim UInt64)] (Variant [1; 2; 3])
           (HTag (Some (tag_derive (hex "a7ca25ce8fee4063b02296b2dbcb392e") mmr_tag))) [3; 0]
  | 4 => mkClass [] (Variant [5; 6; 7]) (HTag (Some mbt_tag)) [4]
  | 5 => mkClass [] (Variant [5; 6; 7]) (HTag (Some (tag_derive (hex "ca380e10c7d544dfaef055bce2125329") mbt_tag))) [5; 4]
  | 6 => mkClass [("key", SerPrim Digest); ("value", SerPrim UInt64)] (Variant [5; 6; 7]) (HTag (Some (tag_derive (hex "f5cc855e9d214f8dab427883c765c323") mbt_tag))) [6; 4]
  | 7 => mkClass [("prefix", SerBits); ("left", SerProof 4); ("right", SerProof 4)] (Variant [5; 6; 7])
           (HTag (Some (tag_derive (hex "66d747410ffd41789a79641a45e23dda") mbt_tag))) [7; 4]
  | _ => mkClass [] Plain (HTag None) [c]
  end%string.

Ltac per c := destruct c as [|[|[|[|[|[|[|[|c]]]]]]]].

Lemma woods_wf : wf_table woods.
Proof.
  constructor.
  - intros c. per c; cbn; repeat constructor; cbn; intuition discriminate.
  - intros c. unfold subclass. per c; cbn; auto.
  - intros c u i k Hc Hi.
    assert (D : u = [1; 2; 3] \/ u = [5; 6; 7]) by (per c; cbn in Hc; inversion Hc; auto). clear Hc.
    destruct D as [-> | ->]; destruct i as [|[|[|i]]]; cbn in Hi; inversion Hi; subst; try (destruct i; discriminate); (split; [reflexivity|]);
      intros j m Hj Hm; destruct j as [|[|j]]; try lia; cbn in Hm; inversion Hm; subst; intros H; cbn in H; intuition discriminate.
  - intros c name cs i m k Ha Hi Hd. exfalso. per c; cbn in Ha; intuition discriminate.
  - intros c H. per c; cbn in H; discriminate.
Qed.

Lemma woods_tags : wf_tags woods.
Proof.
  constructor.
  - intros c t H. per c; cbn in H; inversion H; vm_compute; reflexivity.
  - intros c name sr k1 k2 Ha H1 H2.
    assert (D : sr = SerProof 0 \/ sr = SerProof 4 \/ match sr with SerProof _ | SerUnion _ => False | _ => True end).
    { per c; cbn in Ha; intuition; repeat match goal with H : _ = (_, _) |- _ => inversion H; subst; clear H end; auto. }
    destruct D as [->|[->|D]].
    1,2: cbn in H1, H2; unfold declared in *; cbn in H1, H2;
      intuition subst; auto; right; do 2 eexists; (split; [reflexivity|]); (split; [reflexivity|]); vm_compute; discriminate.
    destruct sr; contradiction.
Qed.

Lemma woods_mmr : is_mmr woods IntMMR (SerPrim UInt64).
Proof.
  constructor; try reflexivity.
  - intros c [<-|[<-|[<-|[<-|[]]]]]; reflexivity.
  - repeat constructor; cbn; intuition discriminate.
Qed.

(** Integers as list items. *)
Definition num (z : Z) : val := VPrim (PyInt z).
Definition nums (n : nat) : list val := map (fun i => num (Z.of_nat i)) (seq 0 n).

Lemma num_item z : (0 <= z < 2 ^ 64)%Z -> item woods IntMMR (num z).
Proof.
  intros H. eexists. unfold construct. cbn. destruct (Z.leb_spec 0 z); [|lia]. destruct (Z.leb_spec z 18446744073709551615); [reflexivity|lia].
Qed.
Lemma num_holds z : (0 <= z < 2 ^ 64)%Z -> holds woods (SerPrim UInt64) (num z).
Proof. intros H. apply Ho_leaf; [reflexivity|]. constructor. unfold UInt64, prim_ok. lia. Qed.
Lemma nums_all (P : val -> Prop) n : (forall z, (0 <= z < 2 ^ 64)%Z -> P (num z)) -> (Z.of_nat n < 2 ^ 64)%Z -> Forall P (nums n).
Proof. intros H L. unfold nums. apply Forall_map, Forall_forall. intros x Hx. apply in_seq in Hx. apply H. lia. Qed.

Lemma leaf_holds z : (0 <= z < 2 ^ 64)%Z -> holds woods (SerProof 0) (node IntMMR (Leaf (num z))).
Proof. intros H. apply Ho_full; [cbn; auto|]. constructor; [apply num_holds, H|constructor]. Qed.
Lemma inner_holds l r n : holds woods (SerProof 0) (node IntMMR l) -> holds woods (SerProof 0) (node IntMMR r) -> (0 <= n < 2 ^ 64)%Z ->
  holds woods (SerProof 0) (node IntMMR (Inner l r n)).
Proof. intros H1 H2 H. apply Ho_full; [cbn; auto|]. constructor; [exact H1|]. constructor; [exact H2|]. constructor; [apply (num_holds n), H|constructor]. Qed.
