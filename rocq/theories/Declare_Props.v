(** C184: declaring classes. *)
From Verif Require Import Base Sha256 Serialize_Model Serialize_Spec Proof_Model Proof_Spec Mmr_Model Mmr_Spec Merbinner_Model Merbinner_Spec Chain_Model Chain_Spec Gumap_Model Gumap_Spec
  Declare_Model Declare_Spec Declare_Proofs DeclareUse_Proofs.
Local Open Scope string_scope.
Local Open Scope list_scope.

(** What the other theorems ask of the classes holds in every program of sensible declarations. *)
Theorem C184_tables : forall ds w, declared_by ds w -> wf_table (table_of w) /\ variant_table (table_of w) /\ wf_tags (table_of w).
Proof. exact declared_tables. Qed.
Print Assumptions C184_tables.

(** A sensible declaration succeeds. *)
Theorem C184_runs : forall ds w d, declared_by ds w -> sensible w d -> exists w', declare w d = Ok w'.
Proof. exact declared_runs. Qed.
Print Assumptions C184_runs.

(** It makes new classes and changes nothing about the old ones. *)
Theorem C184_kept : forall ds w d w', declared_by ds w -> sensible w d -> declare w d = Ok w' ->
  List.length w < List.length w' /\ forall c, c < List.length w -> table_of w' c = table_of w c.
Proof. exact declared_kept. Qed.
Print Assumptions C184_kept.

(** Every declared mountain range class has its three node classes, with the documented HASHTAGs, whatever was declared before and after it. *)
Theorem C184_mmr : forall ds w b tag value, declared_by ds w -> In (DMmr b tag value) ds ->
  exists t M, tag = Some t /\ is_mmr (table_of w) M value /\ subclass (table_of w) (m_base M) MMR /\
    c_hash (table_of w (m_base M)) = HTag (Some t) /\
    c_hash (table_of w (m_empty M)) = HTag (Some (tag_derive (uuid "390de307-8787-47b7-b25d-250aba02b1e5") t)) /\
    c_hash (table_of w (m_leaf M)) = HTag (Some (tag_derive (uuid "4ea09c8e-87f5-4978-a829-78d42ab8638a") t)) /\
    c_hash (table_of w (m_inner M)) = HTag (Some (tag_derive (uuid "a7ca25ce-8fee-4063-b022-96b2dbcb392e") t)).
Proof. exact declared_mmr. Qed.
Print Assumptions C184_mmr.

(** The same for merbinner trees. *)
Theorem C184_mbt : forall ds w b tag key value, declared_by ds w -> In (DMbt b tag key value) ds ->
  exists t M, tag = Some t /\ is_mbt (table_of w) M key value /\ subclass (table_of w) (b_base M) MBT /\
    c_hash (table_of w (b_base M)) = HTag (Some t) /\
    c_hash (table_of w (b_empty M)) = HTag (Some (tag_derive (uuid "ca380e10-c7d5-44df-aef0-55bce2125329") t)) /\
    c_hash (table_of w (b_leaf M)) = HTag (Some (tag_derive (uuid "f5cc855e-9d21-4f8d-ab42-7883c765c323") t)) /\
    c_hash (table_of w (b_inner M)) = HTag (Some (tag_derive (uuid "66d74741-0ffd-4178-9a79-641a45e23dda") t)).
Proof. exact declared_mbt. Qed.
Print Assumptions C184_mbt.

(** And for maps of single-use seals, if the witness class has its seal among the attributes. *)
Theorem C184_gumap : forall ds w b tag P seal wit key value pre ver, declared_by ds w -> In (DGumap b tag (p_fseal P) (p_fwit P) seal wit key value) ds ->
  In ("seal", SerProof seal) (c_attrs (table_of w wit)) ->
  exists t n, tag = Some t /\ let G := Gumap n (n + 1) (n + 2) (n + 3) key value seal wit pre ver in
    (leaf_tag (tag_derive (uuid "0c60f344-9109-4930-aec1-432c5750fcba") t) <> inner_tag (tag_derive (uuid "6893cac7-e834-49cd-8e95-77707b0499b5") t) -> is_gumap (table_of w) P G) /\
    subclass (table_of w) n GUMAP /\ c_hash (table_of w n) = HTag (Some t).
Proof. exact declared_gumap. Qed.
Print Assumptions C184_gumap.

(** A decorated class without HASHTAG is refused. *)
Theorem C184_no_tag : forall ds w, declared_by ds w -> forall d,
  (exists value, d = DMmr MMR None value) \/ (exists key value, d = DMbt MBT None key value) \/ (exists fseal fwit seal wit key value, d = DGumap GUMAP None fseal fwit seal wit key value) ->
  declare w d = Err TypeError.
Proof. exact declared_no_tag. Qed.
Print Assumptions C184_no_tag.

(** That the tags of the nodes are different, as [sensible] asks, is so unless a collision can be given. *)
Theorem C184_marks : forall t, List.length t = 16 -> forall subs,
  In subs [["390de307-8787-47b7-b25d-250aba02b1e5"; "4ea09c8e-87f5-4978-a829-78d42ab8638a"; "a7ca25ce-8fee-4063-b022-96b2dbcb392e"];
           ["ca380e10-c7d5-44df-aef0-55bce2125329"; "f5cc855e-9d21-4f8d-ab42-7883c765c323"; "66d74741-0ffd-4178-9a79-641a45e23dda"];
           ["dae47bef-d9a3-4971-a6a4-1c67c5f02c11"; "0c60f344-9109-4930-aec1-432c5750fcba"; "6893cac7-e834-49cd-8e95-77707b0499b5"]] ->
  marked (Some t) subs \/
  exists s s', In s subs /\ In s' subs /\ collision (fun m => firstn 16 (sha256 m)) (derive_root ++ uuid s ++ t) (derive_root ++ uuid s' ++ t).
Proof.
  intros t Lt subs I.
  assert (A : NoDup (map uuid subs) /\ Forall (fun s => List.length (uuid s) = 16) subs).
  { destruct I as [<-|[<-|[<-|[]]]]; (split; [vm_compute; repeat (constructor; [cbn [In]; intuition discriminate|]); constructor|repeat (constructor; [reflexivity|]); constructor]). }
  destruct (marks_or t subs (proj1 A) (proj2 A)) as [N|C]; [left|right; exact C]. exists t. split; [reflexivity|]. split; [exact Lt|exact N].
Qed.
Print Assumptions C184_marks.

(** ** The classes of proofchains and of the tests *)
Definition proofchains : list decl :=
  [DClass None None None; DClass None None None; DTx "tx";
   DClass None (Some [("txproof", SerProof 5); ("n", SerPrim UInt32)]) (Some (uuid "557eb533-63be-497d-b163-7d1875de9681"));
   DClass None (Some [("i", SerPrim UInt32); ("txproof", SerProof 5)]) (Some (uuid "65d34d83-3291-4813-9119-bd7e29b9dea3"));
   DClass None (Some [("i", SerPrim UInt32); ("txproof", SerProof 5)]) (Some (uuid "ed624663-7a20-4dd6-8980-9870003dfbe7"));
   DClass (Some 3) (Some [("committed_hash", SerPrim Digest)]) (Some (uuid "e5690d73-16e3-4f8f-bd4f-148c32d37baf"));
   DClass (Some 4) (Some [("seal", SerProof 9)]) (Some (uuid "a5092f56-3a31-476a-ac81-1b00211140eb"));
   DClass (Some 3) (Some [("outpoint", SerOut); ("nonce", SerPrim (SFixed 16))]) (Some (uuid "b59093bf-527f-4d2a-9a51-3c2e3d2f0c25"));
   DClass (Some 3) (Some [("seal", SerProof 11); ("txinproof", SerProof 7); ("txoutproof", SerProof 8)]) (Some (uuid "2ca464a0-1b8c-4aa5-8e72-5d3aaa804cbd"));
   DMmr MMR (Some (uuid "738b5a85-d6f1-4873-9c21-300a01166f1d")) (SerPrim UInt64);
   DMbt MBT (Some (uuid "2bb60984-0486-41ab-aad6-bd5b1586bd14")) (SerPrim Digest) (SerPrim UInt64);
   DGumap GUMAP (Some (uuid "73777384-88f0-40cc-a836-443cc6db3589")) 9 10 11 12 (SerPrim UInt64) (SerPrim UInt64)].
Definition after (n : nat) : world := match declare_all library (firstn n proofchains) with Ok w => w | Err _ => [] end.
Definition here : chain := Chain 5 6 7 8 9 10 11 12.

Definition the_tag (c : class) : bytes := match c_hash c with HTag (Some t) => t | _ => [] end.
Ltac ref := first [exact Logic.I | (split; [vm_compute; lia|intros u E; vm_compute in E; first [discriminate | injection E as <-; vm_compute; lia]])].
Ltac mark := eexists; split; [reflexivity|]; split; [reflexivity|]; vm_compute; repeat (constructor; [cbn [In]; intuition discriminate|]); constructor.
Ltac two := split; [intros m [<-|[<-|[]]]; (split; [vm_compute; lia|vm_compute; reflexivity])
  | intros [|[|i]] [|j] m m' L E E'; try lia; cbn in E, E'; try discriminate; [injection E as <-; injection E' as <-|destruct i; discriminate..]; split;
    [intros S; vm_compute in S; intuition discriminate
    |match goal with |- exists t t', c_hash ?x = _ /\ c_hash ?y = _ /\ _ => exists (the_tag x), (the_tag y) end; split; [vm_compute; reflexivity|]; split; [vm_compute; reflexivity|]; vm_compute; discriminate]].
Ltac plain := split; [intros b E; first [discriminate E | injection E as <-; split; [vm_compute; lia|]; split; [reflexivity|vm_compute; discriminate]]|];
  split; [intros a E; first [discriminate E | injection E as <-; split; [cbn; repeat (constructor; [cbn; intuition discriminate|]); constructor|repeat (constructor; [cbn [snd]; ref|]); constructor]]
         | intros t E; first [discriminate E | injection E as <-; reflexivity]].

Lemma after_declared n : n <= 13 -> declared_by (firstn n proofchains) (after n).
Proof.
  assert (S : forall i d, nth_error proofchains i = Some d -> sensible (after i) d).
  { intros i d E. do 13 (destruct i as [|i]; [cbn [nth_error proofchains] in E; injection E as <-; cbn [sensible];
      first [exact Logic.I | plain | (split; [reflexivity|]; split; [ref|]; mark) | (split; [reflexivity|]; split; [ref|]; split; [ref|]; mark)
            | (split; [reflexivity|]; split; [two|]; split; [two|]; split; [ref|]; split; [ref|]; mark)]|]). destruct i; discriminate. }
  assert (A : forall i d, nth_error proofchains i = Some d -> declare (after i) d = Ok (after (Datatypes.S i))).
  { intros i d E. do 13 (destruct i as [|i]; [cbn [nth_error proofchains] in E; injection E as <-; vm_compute; reflexivity|]). destruct i; discriminate. }
  induction n as [|n IH]; intros L; [exact db_library|].
  destruct (nth_error proofchains n) as [d|] eqn:E; [|apply nth_error_None in E; cbn in E; lia].
  assert (F : firstn (Datatypes.S n) proofchains = firstn n proofchains ++ [d]).
  { clear - E. revert n E. generalize proofchains. intros l n. revert l. induction n as [|n IH]; intros [|x l] E; try discriminate; [injection E as ->; reflexivity|].
    cbn [firstn app]. f_equal. apply IH, E. }
  rewrite F. exact (db_more _ _ d _ (IH ltac:(lia)) (S n d E) (A n d E)).
Qed.

Example C184_example :
  declared_by proofchains (after 13) /\ List.length (after 13) = 25 /\ is_chain (table_of (after 13)) here /\
  is_mmr (table_of (after 13)) (MmrClasses 13 14 15 16) (SerPrim UInt64) /\ is_mbt (table_of (after 13)) (MbtClasses 17 18 19 20) (SerPrim Digest) (SerPrim UInt64) /\
  is_gumap (table_of (after 13)) here (Gumap 21 22 23 24 (SerPrim UInt64) (SerPrim UInt64) 11 12 (fun _ => Ok []) (fun _ => Ret (Ok tt))).
Proof.
  split; [exact (after_declared 13 (le_n 13))|]. split; [vm_compute; reflexivity|].
  split; [constructor; (split; [vm_compute; reflexivity|split; vm_compute; reflexivity])|].
  split; [|split].
  - constructor; try (vm_compute; reflexivity); [intros c [<-|[<-|[<-|[<-|[]]]]]; vm_compute; reflexivity|cbn; repeat (constructor; [cbn; intuition discriminate|]); constructor].
  - constructor; try (vm_compute; reflexivity); [intros c [<-|[<-|[<-|[<-|[]]]]]; vm_compute; reflexivity|cbn; repeat (constructor; [cbn; intuition discriminate|]); constructor].
  - constructor; [vm_compute; reflexivity|vm_compute; reflexivity|vm_compute; reflexivity| | |vm_compute; reflexivity| |].
    + intros c [<-|[<-|[<-|[<-|[]]]]]; vm_compute; reflexivity.
    + split; [cbn; repeat (constructor; [cbn; intuition discriminate|]); constructor|vm_compute; discriminate].
    + split; [vm_compute; reflexivity|vm_compute; left; reflexivity].
    + exists (the_tag (table_of (after 13) 23)), (the_tag (table_of (after 13) 24)). split; [vm_compute; reflexivity|]. split; [vm_compute; reflexivity|]. vm_compute. discriminate.
Qed.

(** ** A decorated subclass of a decorated class *)
(** Not a sensible declaration: its node classes are added to the list of the class it is derived from.  That class is no longer the
    merbinner tree it was, and bytes it refused before are now read as an object of the other class. *)
Theorem C184_nested : exists ds w d w' c, declared_by ds w /\ declare w d = Ok w' /\ c < List.length w /\ table_of w' c <> table_of w c /\
  (exists M, b_base M = c /\ is_mbt (table_of w) M (SerPrim Digest) (SerPrim UInt64)) /\
  (forall M key value, b_base M = c -> ~ is_mbt (table_of w') M key value) /\
  (exists buf e x v, deserialize (table_of w) c buf = Err e /\ deserialize (table_of w') c buf = Ok v /\ class_of v = Some x /\ List.length w <= x).
Proof.
  set (d := DMbt 17 (Some (uuid "5d4c8b4e-12f5-4f5c-8b5e-3c1a34e1f4a7")) (SerPrim UInt64) (SerPrim Digest)).
  assert (E : exists w', declare (after 13) d = Ok w' /\ c_kind (table_of w' 17) = Variant [18; 19; 20; 26; 27; 28] /\ deserialize (table_of w') 17 (hex "0003") = Ok (PFull 26 [])).
  { exists (match declare (after 13) d with Ok w' => w' | Err _ => [] end). split; [vm_compute; reflexivity|]. split; vm_compute; reflexivity. }
  destruct E as (w' & Ed & Ek & Er). exists proofchains, (after 13), d, w', 17. split; [exact (after_declared 13 (le_n 13))|]. split; [exact Ed|].
  assert (K0 : c_kind (table_of (after 13) 17) = Variant [18; 19; 20]) by (vm_compute; reflexivity).
  split; [vm_compute; lia|]. split; [intros X; apply (f_equal c_kind) in X; rewrite Ek in X; pose proof (eq_trans X K0) as Y; discriminate Y|]. split; [|split].
  - exists (MbtClasses 17 18 19 20). split; [reflexivity|]. exact (proj1 (proj2 (proj2 (proj2 (proj2 C184_example))))).
  - intros M key value B [Mk _ _ _ _]. specialize (Mk (b_base M) (or_introl eq_refl)). rewrite B, Ek in Mk. discriminate.
  - exists (hex "0003"), (match deserialize (table_of (after 13)) 17 (hex "0003") with Ok _ => TypeError | Err e => e end), 26, (PFull 26 []). split; [vm_compute; reflexivity|]. split; [exact Er|]. split; [reflexivity|]. vm_compute. lia.
Qed.
Print Assumptions C184_nested.
