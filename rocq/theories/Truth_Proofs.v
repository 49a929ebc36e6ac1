From Coq Require Import ZifyBool ZifyNat ZifyN.
From Verif Require Import Base PySlice PySlice_Proofs Sha256 Serialize_Model Serialize_Spec Serialize_Proofs Tx_Model Tx_Spec Tx_Proofs Proof_Model Proof_Spec Proof_Proofs ProofHash_Proofs
  Mmr_Model Mmr_Spec Mmr_Proofs Merbinner_Model Merbinner_Spec Merbinner_Proofs MerbinnerHash_Proofs MerbinnerSubset_Proofs MbtChange_Spec MbtChange_Proofs MmrChange_Spec MmrChange_Proofs MbtSub_Proofs Truth_Spec.

Section List.
Context (ct : ctable) (M : mmr_classes) (sr : ser).
Context (W : wf_table ct) (T : wf_tags ct) (I : is_mmr ct M sr).
Notation mboth := (mboth ct M). Notation vboth := (vboth ct sr).
Local Open Scope Z_scope.

Lemma reversed_same : forall t1 t2 l1, mboth t1 t2 -> items_reversed t1 = Ok l1 -> items_reversed t2 = Err PrunedError \/ exists l2, items_reversed t2 = Ok l2 /\ Forall2 vboth l1 l2.
Proof.
  induction t1 as [|v|l IHl r IHr n|k dh]; intros t2 l1 B E; pose proof B as (G1 & G2 & S); pose proof (msame_kind ct M sr I _ _ S) as K; cbn [items_reversed kind_of] in *.
  - inversion E; subst. right. exists []. split; [|constructor]. destruct t2 as [| | |[] ?]; try discriminate K; reflexivity.
  - pose proof (msame_twin ct M sr I _ _ S) as TW. inversion TW as [|? w A| | |kk dh ? KK]; subst; [|left; reflexivity].
    inversion E; subst. right. exists [w]. split; [reflexivity|]. constructor; [|constructor]. split; [exact (mgood_value ct M sr T I _ G1)|split; [exact (mgood_value ct M sr T I _ G2)|exact A]].
  - pose proof (msame_twin ct M sr I _ _ S) as TW. inversion TW as [| |? ? l' r' ? Sl Sr| |kk dh ? KK]; subst; [|left; reflexivity].
    destruct (mboth_parts ct M sr T I _ _ _ _ _ B) as (Bl & Br). cbn [items_reversed]. destruct (items_reversed r) as [y|] eqn:Ey; [|discriminate]. cbn [bind] in E.
    destruct (items_reversed l) as [x|] eqn:Ex; [|discriminate]. cbn [bind] in E. inversion E; subst.
    destruct (IHr r' y Br eq_refl) as [-> |(y' & -> & Fy)]; [left; reflexivity|]. cbn [bind]. destruct (IHl l' x Bl eq_refl) as [-> |(x' & -> & Fx)]; [left; reflexivity|]. cbn [bind].
    right. eexists. split; [reflexivity|]. apply Forall2_app; assumption.
  - destruct k; try discriminate E. inversion E; subst. right. exists []. split; [|constructor]. destruct t2 as [| | |[] ?]; try discriminate K; reflexivity.
Qed.

Lemma getitem_same : forall t1 t2 i, mboth t1 t2 ->
  (forall v, getitem t1 i = Ok v -> getitem t2 i = Err PrunedError \/ exists w, getitem t2 i = Ok w /\ vboth v w) /\
  (getitem t1 i = Err IndexError -> getitem t2 i = Err PrunedError \/ getitem t2 i = Err IndexError).
Proof.
  induction t1 as [|v|l IHl r IHr n|k dh]; intros t2 i B; pose proof B as (G1 & G2 & S); pose proof (msame_kind ct M sr I _ _ S) as K; cbn [kind_of] in K.
  - split; [discriminate|]. intros _. right. destruct t2 as [| | |[] ?]; try discriminate K; reflexivity.
  - pose proof (msame_twin ct M sr I _ _ S) as TW. inversion TW as [|? w A| | |kk dh ? KK]; subst; cbn [getitem kind_of]; destruct ((i =? 0) || (i =? -1)); (split; [intros x E|intros E]); try discriminate E; auto.
    injection E as <-. right. exists w. split; [reflexivity|]. split; [exact (mgood_value ct M sr T I _ G1)|split; [exact (mgood_value ct M sr T I _ G2)|exact A]].
  - pose proof (msame_twin ct M sr I _ _ S) as TW. inversion TW as [| |? ? l' r' ? Sl Sr| |kk dh ? KK]; subst; [|split; intros; left; reflexivity].
    destruct (mboth_parts ct M sr T I _ _ _ _ _ B) as (Bl & Br). cbn [getitem]. set (j := if i <? 0 then do n <- py_len n; Ok (n + i) else Ok i).
    destruct j as [j'|e]; cbn [bind]; [|split; [discriminate|auto]]. destruct (py_len n) as [m|e]; cbn [bind]; [|split; [discriminate|auto]].
    destruct (negb ((0 <=? j') && (j' <? m))); [split; [discriminate|auto]|].
    destruct (mlen l) as [nl|e] eqn:El; cbn [bind].
    2: { split; [discriminate|]. intros E. injection E as ->. exfalso. clear - El. destruct l as [| | |[] ?]; cbn in El; try discriminate El. unfold py_len in El. destruct (_ <? _); discriminate El. }
    destruct (len_same ct M sr I _ _ _ Bl El) as [-> | ->]; cbn [bind]; [|split; intros; left; reflexivity].
    destruct ((0 <=? j') && (j' <? nl)); [exact (IHl l' j' Bl)|].
    destruct (mlen r) as [nr|e] eqn:Er; cbn [bind].
    2: { split; [discriminate|]. intros E. injection E as ->. exfalso. clear - Er. destruct r as [| | |[] ?]; cbn in Er; try discriminate Er. unfold py_len in Er. destruct (_ <? _); discriminate Er. }
    destruct (len_same ct M sr I _ _ _ Br Er) as [-> | ->]; cbn [bind]; [|split; intros; left; reflexivity].
    destruct ((nl <=? j') && (j' <? nl + nr)); [exact (IHr r' (j' - nl) Br)|split; discriminate].
  - cbn [getitem]. destruct k; (split; [intros v E|intros E]); try discriminate E.
    + right. destruct t2 as [| | |[] ?]; try discriminate K; reflexivity.
    + destruct ((i =? 0) || (i =? -1)); discriminate E.
    + destruct ((i =? 0) || (i =? -1)) eqn:X; try discriminate E. right. destruct t2 as [| | |[] ?]; try discriminate K; cbn [getitem]; rewrite X; reflexivity.
Qed.

Lemma mhash_same t1 t2 h : holds ct (SerProof (m_base M)) (node M t1) -> holds ct (SerProof (m_base M)) (node M t2) -> phash ct (node M t1) = Ok h -> phash ct (node M t2) = Ok h ->
  mboth t1 t2 \/ hash_collision ct (node M t1) (node M t2).
Proof.
  intros A1 A2 H1 H2. destruct (holds_class _ _ _ A1) as (k1 & K1 & S1), (holds_class _ _ _ A2) as (k2 & K2 & S2).
  destruct (hash_binding ct W T _ _ _ _ k1 k2 h A1 A2 K1 K2) as [A|C]; [|exact H1|exact H2| |right; exact C].
  { eapply (tag_distinct ct T (m_inner M) "left" (SerProof (m_base M))); [rewrite (mm_inner _ _ _ I); left; reflexivity|exact S1|exact S2]. }
  left. split; [split; eauto|split; [split; eauto|exact A]].
Qed.

Lemma vboth_agree l1 l2 : Forall2 vboth l1 l2 -> Forall2 (agree ct) l1 l2.
Proof. induction 1 as [|? ? ? ? (_ & _ & A) _ IH]; constructor; assumption. Qed.

Theorem list_truth l t t' h : built ct M l (Ok t) -> Forall (item ct M) l -> Forall (fine_value ct sr) l -> fine (List.length l) ->
  any_object ct M t' -> phash ct (node M t) = Ok h -> phash ct (node M t') = Ok h ->
  (right_or (mmr_silence t') (mlen t') (fun n => n = Z.of_nat (List.length l)) /\
   right_or (mmr_silence t') (items t') (Forall2 (agree ct) l) /\
   right_or (mmr_silence t') (items_reversed t') (Forall2 (agree ct) (rev l)) /\
   (forall i, - Z.of_nat (List.length l) <= i < Z.of_nat (List.length l) ->
      right_or (mmr_silence t') (getitem t' i) (fun w => exists v, nth_error l (Z.to_nat (if i <? 0 then Z.of_nat (List.length l) + i else i)) = Some v /\ agree ct v w)) /\
   (forall i, ~ - Z.of_nat (List.length l) <= i < Z.of_nat (List.length l) -> getitem t' i = Err (mmr_silence t') \/ getitem t' i = Err IndexError)) \/
  hash_collision ct (node M t) (node M t').
Proof.
  intros B IV FV L AO H H'. destruct (built_ok ct M sr l (Ok t) W I B IV L) as (x & E & D). injection E as <-. destruct (documented_good ct M sr T I t l D FV L) as (G & _).
  destruct AO as [A'|(dh & ->)].
  2: { left. unfold right_or. cbn. auto 10. }
  destruct (mhash_same t t' h G A' H H') as [BO|C]; [left|right; exact C].
  assert (mmr_silence t' = PrunedError) as ->. { destruct BO as (_ & G' & _). pose proof (mgood_kind ct M sr I _ G') as N. destruct t' as [| | |[] ?]; try reflexivity. cbn in N. congruence. }
  split; [|split; [|split; [|split]]].
  - destruct (len_same ct M sr I _ _ _ BO (doc_len _ _ D L)) as [X|X]; [right; eauto|left; exact X].
  - destruct (items_same ct M sr T I _ _ _ BO (doc_items _ _ D)) as [X|(l2 & X & F)]; [left; exact X|right; eauto using vboth_agree].
  - destruct (reversed_same _ _ _ BO (doc_items_reversed _ _ D)) as [X|(l2 & X & F)]; [left; exact X|right; eauto using vboth_agree].
  - intros i Hi. destruct (getitem_same t t' i BO) as (S & _). rewrite (getitem_ok _ _ D L) in S.
    assert (exists v, nth_error l (Z.to_nat (if i <? 0 then Z.of_nat (List.length l) + i else i)) = Some v /\ py_index l i = Ok v) as (v & NV & PI).
    { destruct (nth_error l (Z.to_nat (if i <? 0 then Z.of_nat (List.length l) + i else i))) as [v|] eqn:E; [|apply nth_error_None in E; destruct (Z.ltb_spec i 0); lia].
      exists v. split; [reflexivity|]. unfold py_index, znth. destruct (Z.ltb_spec i 0).
      - destruct (Z.ltb_spec (i + Z.of_nat (List.length l)) 0); [lia|]. rewrite Z.add_comm, E. reflexivity.
      - destruct (Z.ltb_spec i 0); [lia|]. rewrite E. reflexivity. }
    destruct (S v PI) as [X|(w & X & (_ & _ & A))]; [left; exact X|right]. exists w. split; [exact X|]. eauto.
  - intros i Hi. destruct (getitem_same t t' i BO) as (_ & S). rewrite (getitem_ok _ _ D L) in S. exact (S (proj2 (proj1 (index_bounds _ _)) Hi)).
Qed.
End List.

Section Map.
Context (ct : ctable) (M : mbt_classes) (ks vs : ser) (k2p : val -> list bool).
Context (W : wf_table ct) (T : wf_tags ct) (I : is_mbt ct M ks vs) (R : prefix_respects ct ks k2p).
Notation both := (both ct M). Notation fair := (fair ct).

Lemma tlen_same : forall t1 t2 n, both t1 t2 -> tlen t1 = Ok n -> tlen t2 = Err PrunedError \/ tlen t2 = Ok n.
Proof.
  induction t1 as [|k v|p l IHl r IHr|k dh]; intros t2 n B E; pose proof B as (G1 & G2 & S); pose proof (same_kind ct M ks vs I _ _ S) as K; cbn [tlen bkind_of] in *.
  - right. rewrite <- E. destruct t2 as [| | |[] ?]; try discriminate K; reflexivity.
  - right. rewrite <- E. destruct t2 as [| | |[] ?]; try discriminate K; reflexivity.
  - pose proof (same_twin ct M ks vs I _ _ S) as TW. inversion TW as [| |? ? ? l' r' Sl Sr| |kk dh ? KK]; subst; [|left; reflexivity].
    destruct (both_inner ct M ks vs T I _ _ _ _ _ B) as (Bl & Br). cbn [tlen]. destruct (tlen l) as [x|] eqn:Ex; [|discriminate]. cbn [bind] in E. destruct (tlen r) as [y|] eqn:Ey; [|discriminate]. cbn [bind] in E. inversion E; subst.
    destruct (IHl l' x Bl eq_refl) as [-> | ->]; [left; reflexivity|]. cbn [bind]. destruct (IHr r' y Br eq_refl) as [-> | ->]; [left; reflexivity|]. auto.
  - destruct k; try discriminate E; right; rewrite <- E; destruct t2 as [| | |[] ?]; try discriminate K; reflexivity.
Qed.
Lemma tkeys_same : forall t1 t2 l1, both t1 t2 -> tkeys t1 = Ok l1 -> tkeys t2 = Err PrunedError \/ exists l2, tkeys t2 = Ok l2 /\ Forall2 (fair ks) l1 l2.
Proof.
  induction t1 as [|k v|p l IHl r IHr|k dh]; intros t2 l1 B E; pose proof B as (G1 & G2 & S); pose proof (same_kind ct M ks vs I _ _ S) as K; cbn [tkeys bkind_of] in *.
  - inversion E; subst. right. exists []. split; [|constructor]. destruct t2 as [| | |[] ?]; try discriminate K; reflexivity.
  - pose proof (same_twin ct M ks vs I _ _ S) as TW. inversion TW as [|? ? k2 v2 A A'| | |kk dh ? KK]; subst; [|left; reflexivity].
    inversion E; subst. right. exists [k2]. split; [reflexivity|]. constructor; [|constructor]. exact (proj1 (both_leaf ct M ks vs k2p T I R _ _ _ _ B)).
  - pose proof (same_twin ct M ks vs I _ _ S) as TW. inversion TW as [| |? ? ? l' r' Sl Sr| |kk dh ? KK]; subst; [|left; reflexivity].
    destruct (both_inner ct M ks vs T I _ _ _ _ _ B) as (Bl & Br). cbn [tkeys]. destruct (tkeys l) as [x|] eqn:Ex; [|discriminate]. cbn [bind] in E. destruct (tkeys r) as [y|] eqn:Ey; [|discriminate]. cbn [bind] in E. inversion E; subst.
    destruct (IHl l' x Bl eq_refl) as [-> |(x' & -> & Fx)]; [left; reflexivity|]. cbn [bind]. destruct (IHr r' y Br eq_refl) as [-> |(y' & -> & Fy)]; [left; reflexivity|]. cbn [bind].
    right. eexists. split; [reflexivity|]. apply Forall2_app; assumption.
  - destruct k; try discriminate E. inversion E; subst. right. exists []. split; [|constructor]. destruct t2 as [| | |[] ?]; try discriminate K; reflexivity.
Qed.
Lemma tvalues_same : forall t1 t2 l1, both t1 t2 -> tvalues t1 = Ok l1 -> tvalues t2 = Err PrunedError \/ exists l2, tvalues t2 = Ok l2 /\ Forall2 (fair vs) l1 l2.
Proof.
  induction t1 as [|k v|p l IHl r IHr|k dh]; intros t2 l1 B E; pose proof B as (G1 & G2 & S); pose proof (same_kind ct M ks vs I _ _ S) as K; cbn [tvalues bkind_of] in *.
  - inversion E; subst. right. exists []. split; [|constructor]. destruct t2 as [| | |[] ?]; try discriminate K; reflexivity.
  - pose proof (same_twin ct M ks vs I _ _ S) as TW. inversion TW as [|? ? k2 v2 A A'| | |kk dh ? KK]; subst; [|left; reflexivity].
    inversion E; subst. right. exists [v2]. split; [reflexivity|]. constructor; [|constructor]. exact (proj2 (both_leaf ct M ks vs k2p T I R _ _ _ _ B)).
  - pose proof (same_twin ct M ks vs I _ _ S) as TW. inversion TW as [| |? ? ? l' r' Sl Sr| |kk dh ? KK]; subst; [|left; reflexivity].
    destruct (both_inner ct M ks vs T I _ _ _ _ _ B) as (Bl & Br). cbn [tvalues]. destruct (tvalues l) as [x|] eqn:Ex; [|discriminate]. cbn [bind] in E. destruct (tvalues r) as [y|] eqn:Ey; [|discriminate]. cbn [bind] in E. inversion E; subst.
    destruct (IHl l' x Bl eq_refl) as [-> |(x' & -> & Fx)]; [left; reflexivity|]. cbn [bind]. destruct (IHr r' y Br eq_refl) as [-> |(y' & -> & Fy)]; [left; reflexivity|]. cbn [bind].
    right. eexists. split; [reflexivity|]. apply Forall2_app; assumption.
  - destruct k; try discriminate E. inversion E; subst. right. exists []. split; [|constructor]. destruct t2 as [| | |[] ?]; try discriminate K; reflexivity.
Qed.
Lemma fair_agree sr l1 l2 : Forall2 (fair sr) l1 l2 -> Forall2 (agree ct) l1 l2.
Proof. induction 1 as [|? ? ? ? (_ & _ & _ & _ & A) _ IH]; constructor; assumption. Qed.
Lemma combine_agree : forall ks1 ks2, Forall2 (agree ct) ks1 ks2 -> forall vs1 vs2, Forall2 (agree ct) vs1 vs2 -> Forall2 (agree_entry ct) (combine ks1 vs1) (combine ks2 vs2).
Proof. induction 1 as [|a b l m A _ IH]; intros vs1 vs2 F; cbn; [constructor|]. destruct F as [|x y ? ? B F]; constructor; [split; assumption|]. apply IH, F. Qed.
End Map.

Section HonestMap.
Context (ct : ctable) (M : mbt_classes) (ks vs : ser) (k2p : val -> list bool) (K : val -> Prop) (n : nat).
Context (W : wf_table ct) (T : wf_tags ct) (I : is_mbt ct M ks vs) (G : good_keys ct k2p K n).

Theorem map_truth D t t' h : prefix_respects ct ks k2p -> history ct M k2p K D (Ok t) -> (forall k v, In (k, v) D -> entry_fine ct ks vs k v) ->
  any_tree ct M t' -> phash ct (bnode M t) = Ok h -> phash ct (bnode M t') = Ok h ->
  (right_or (mbt_silence t') (tlen t') (fun m => m = List.length D) /\
   (exists entries, Permutation entries D /\ StronglySorted (before k2p) entries /\
      right_or (mbt_silence t') (titems t') (Forall2 (agree_entry ct) entries) /\
      right_or (mbt_silence t') (tkeys t') (Forall2 (agree ct) (map fst entries)) /\
      right_or (mbt_silence t') (tvalues t') (Forall2 (agree ct) (map snd entries))) /\
   (forall k v, K k -> In (k, v) D -> right_or (mbt_silence t') (tgetitem ct k2p t' k) (agree ct v)) /\
   (forall k, K k -> holds ct ks k -> hashable ct k -> ~ In k (map fst D) -> tgetitem ct k2p t' k = Err (mbt_silence t') \/ tgetitem ct k2p t' k = Err KeyError)) \/
  hash_collision ct (bnode M t) (bnode M t').
Proof.
  intros R H F AT P P'. destruct (behaves_as_the_map ct M ks vs k2p K n D (Ok t) W I G H) as (x & E & L1 & L2 & _ & LN & es & EI & PE & SS & EK & EV). injection E as <-.
  destruct (history_ok ct M ks vs k2p K n W I G D _ H) as (x0 & E0 & TT & Q). injection E0 as <-.
  assert (HT : holds ct (SerProof (b_base M)) (bnode M t)) by (eapply tree_holds; [eassumption..|]; apply (fine_entries ct ks vs D); assumption).
  destruct AT as [A'|(dh & ->)].
  2: { left. unfold right_or. cbn. split; [auto|]. split; [exists es; auto 10|]. split; auto. }
  destruct (hash_same ct M ks vs W T I t t' h HT A' P P') as [BO|C]; [left|right; exact C].
  assert (mbt_silence t' = PrunedError) as ->. { destruct BO as (_ & G' & _). pose proof (good_kind ct M ks vs I _ G') as N. destruct t' as [| | |[] ?]; try reflexivity. cbn in N. congruence. }
  split; [|split; [|split]].
  - destruct (tlen_same ct M ks vs T I _ _ _ BO LN) as [X|X]; [left; exact X|right; eauto].
  - exists es. split; [exact PE|]. split; [exact SS|].
    pose proof (tkeys_same ct M ks vs k2p T I R _ _ _ BO EK) as XK. pose proof (tvalues_same ct M ks vs k2p T I R _ _ _ BO EV) as XV.
    split; [|split; [destruct XK as [X|(l & X & FF)]; [left; exact X|right; eauto using fair_agree]|destruct XV as [X|(l & X & FF)]; [left; exact X|right; eauto using fair_agree]]].
    unfold titems. destruct XK as [-> |(lk & -> & FK)]; [left; reflexivity|]. cbn [bind]. destruct XV as [-> |(lv & -> & FV)]; [left; reflexivity|]. cbn [bind].
    right. eexists. split; [reflexivity|]. assert (Z : es = combine (map fst es) (map snd es)) by (clear; induction es as [|[] ? ?]; cbn; congruence). rewrite Z.
    apply combine_agree; eauto using fair_agree.
  - intros k v Kk HIn. destruct (F k v HIn) as (Hk & _ & Ak & _). assert (FR : MbtSub_Proofs.fair ct ks k k) by (repeat split; auto; apply A_refl).
    destruct (lookup_same ct M ks vs k2p W T I R _ _ _ _ BO FR) as (X & _). destruct (X v (L1 k v Kk HIn)) as [Y|(w & Y & (_ & _ & _ & _ & A))]; [left; exact Y|right; eauto].
  - intros k Kk Hk Ak N. assert (FR : MbtSub_Proofs.fair ct ks k k) by (repeat split; auto; apply A_refl).
    destruct (lookup_same ct M ks vs k2p W T I R _ _ _ _ BO FR) as (_ & X). exact (X (proj1 (L2 k Kk N))).
Qed.
End HonestMap.
