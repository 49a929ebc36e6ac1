(** What the usual scripts mean. *)
From Verif Require Import Base Sha256 Sha1 Ripemd160 Tx_Model Tx_Spec Tx_Proofs Script_Model Script_Spec Script_Proofs Base58_Spec Base58_Proofs
  SigHash_Model SigHash_Spec SigHash_Proofs ScriptEval_Model ScriptEval_Spec ScriptEval_Proofs ScriptEffect_Proofs ScriptSig_Proofs ScriptRun_Proofs
  ScriptVerify_Spec ScriptVerify_Proofs.
From Coq Require Import ZifyBool ZifyNat ZifyN.

Lemma no_checksig st st' : ~ effect 0xac st st'.
Proof.
  intros H. inversion H; subst; try (cbn [unary binary hashing shuffle In] in *; repeat match goal with X : _ \/ _ |- _ => destruct X as [X|X] end; try discriminate; try contradiction; lia).
Qed.

Section Use.
Context (ecdsa : bytes -> bytes -> bytes -> bool) (t : tx) (i : nat).

Lemma runs_cons_iff o rest m m2 : runs ecdsa t i (o :: rest) m m2 <-> exists m1, steps ecdsa t i rest o m m1 /\ runs ecdsa t i rest m1 m2.
Proof. split; [intros H; inversion H; subst; eauto|intros (m1 & S & R); econstructor; eassumption]. Qed.
Lemma runs_nil_iff m m2 : runs ecdsa t i [] m m2 <-> m2 = m.
Proof. split; [intros H; inversion H; reflexivity|intros ->; constructor]. Qed.

Lemma live_nil : live [].
Proof. clear ecdsa t i. intros b []. Qed.

(** One executed operation, outside of blocks. *)
Lemma step_push_iff rest op d x st si co n m' :
  steps ecdsa t i rest (Op op (Some d) x) (Mach st si [] co n) m' <-> (blen d <= 520)%N /\ m' = Mach (d :: st) si [] co n.
Proof.
  split.
  - intros H. inversion H; subst; [auto|]. exfalso. match goal with X : ~ live _ |- _ => apply X, live_nil end.
  - intros [L ->]. apply (step_push ecdsa t i rest op d x (Mach st si [] co n)); [exact L|apply live_nil].
Qed.

Lemma step_stack_iff rest op x st si co n m' r : smalls st -> ~ forbidden op -> stack_op op st = Some r ->
  steps ecdsa t i rest (Op op None x) (Mach st si [] co n) m' <->
  exists st', r = Ok st' /\ (let k := (n + if (0x60 <? op)%N then 1 else 0)%Z in ((0x60 < op)%N -> (k <= 201)%Z) /\ m' = Mach st' si [] co k) /\
    (Z.of_nat (List.length st') + Z.of_nat (List.length si) <= 1000)%Z.
Proof.
  intros SM NF SO. split.
  - intros H. inversion H as [| |op' x' m m1 m'' NF' C LV A R|op' x' m m'' NF' C LV _ R]; subst; [|exfalso; apply LV, live_nil].
    assert (EM : m1 = Mach st si [] co (n + (if (0x60 <? op)%N then 1 else 0))%Z /\ ((0x60 < op)%N -> (n + (if (0x60 <? op)%N then 1 else 0) <= 201)%Z)).
    { unfold counts in C. cbn [spent main side flow code] in C. destruct (96 <? op)%N eqn:E; [destruct C as [L ->]; split; [reflexivity|lia]|subst m1; split; [f_equal; lia|lia]]. }
    destruct EM as [-> LK]. clear C.
    inversion A; subst; cbn [main side] in *; unfold room in R; cbn [main side] in R; try discriminate SO.
    + match goal with X : effect _ _ _ |- _ => apply stack_op_iff in X; [rewrite X in SO|exact SM] end. injection SO as <-. eauto 10.
    + exfalso. match goal with X : ~ live [] |- _ => apply X, live_nil end.
  - intros (st' & -> & (L & ->) & R). apply stack_op_iff in SO; [|exact SM]. eapply step_op; [exact NF| |left; apply live_nil|apply act_effect, SO|exact R].
    unfold counts. cbn [spent main side flow code]. destruct (96 <? op)%N eqn:E; [split; [lia|reflexivity]|f_equal; lia].
Qed.

Lemma step_checksig_iff rest x st si co n m' :
  steps ecdsa t i rest (Op 0xac None x) (Mach st si [] co n) m' <->
  exists pk sig r s v, st = pk :: sig :: r /\ signed_script [sig] co s /\ verdict (signed_by ecdsa t i s pk sig) v /\ (n + 1 <= 201)%Z /\
    m' = Mach (v :: r) si [] co (n + 1) /\ room m'.
Proof.
  split.
  - intros H. inversion H as [| |op' x' m m1 m'' NF' C LV A R|op' x' m m'' NF' C LV _ R]; subst; [|exfalso; apply LV, live_nil].
    unfold counts in C. change (96 <? 172)%N with true in C. cbv iota in C. destruct C as [L ->]. cbn [spent main side flow code] in *.
    inversion A; subst; try (match goal with X : effect 172 _ _ |- _ => exfalso; revert X; apply no_checksig end); [|lia].
    eauto 15.
  - intros (pk & sig & r & s & v & -> & S & V & L & -> & R). eapply (step_op ecdsa t i rest 0xac x _ (Mach (pk :: sig :: r) si [] co (n + 1))); [|split; [exact L|reflexivity]|left; apply live_nil| |exact R].
    + unfold forbidden. cbn [In]. lia.
    + eapply act_checksig; eassumption.
Qed.

Lemma step_constant_iff rest k x st si co n m' : (1 <= k <= 16)%nat ->
  steps ecdsa t i rest (Op (0x50 + N.of_nat k) None x) (Mach st si [] co n) m' <->
  m' = Mach ([Nb (N.of_nat k)] :: st) si [] co n /\ (Z.of_nat (List.length st) + 1 + Z.of_nat (List.length si) <= 1000)%Z.
Proof.
  intros K.
  assert (C : constant (0x50 + N.of_nat k) = Some (Z.of_nat k)).
  { unfold constant. destruct (80 + N.of_nat k =? 79)%N eqn:E1; [lia|]. destruct ((81 <=? 80 + N.of_nat k) && (80 + N.of_nat k <=? 96))%N eqn:E2; [f_equal; lia|lia]. }
  assert (NU : forall b, number (Z.of_nat k) b <-> b = [Nb (N.of_nat k)]).
  { intros b. rewrite number_iff by (apply small_log; lia). assert (bn2vch (Z.of_nat k) = Ok [Nb (N.of_nat k)]) as ->; [|split; intros X; [injection X as <-; reflexivity|subst b; reflexivity]].
    do 17 (destruct k as [|k]; [try lia; reflexivity|]). lia. }
  assert (OP : (0x51 <= 0x50 + N.of_nat k <= 0x60)%N) by lia. set (op := (0x50 + N.of_nat k)%N) in *. clearbody op.
  split.
  - intros H. inversion H as [| |op' x' m m1 m'' NF' CC LV A R|op' x' m m'' NF' CC LV _ R]; subst; [|exfalso; apply LV, live_nil].
    unfold counts in CC. destruct (96 <? op)%N eqn:E; [lia|]. 
    subst m1. unfold room in R.
    inversion A; subst; cbn [main side] in R; try lia.
    match goal with X : effect _ _ _ |- _ => inversion X; subst end;
      try (cbn [unary binary hashing shuffle In] in *; repeat match goal with X : _ \/ _ |- _ => destruct X as [X|X] end; try contradiction; try (match goal with X : (_, _) = (_, _) |- _ => injection X; intros end); lia).
    rewrite C in *. match goal with X : Some _ = Some _ |- _ => injection X as <- end. match goal with X : number _ _ |- _ => apply NU in X; subst end.
    split; [reflexivity|]. cbn [List.length] in R. lia.
  - intros [-> R]. eapply step_op; [| |left; apply live_nil|apply act_effect; eapply ef_constant; [exact C|apply NU; reflexivity]|].
    + unfold forbidden. cbn [In]. lia.
    + unfold counts. destruct (96 <? op)%N eqn:E; [lia|reflexivity].
    + unfold room. cbn [main side List.length]. lia.
Qed.

Lemma no_multisig st st' : ~ effect 0xae st st'.
Proof. clear ecdsa t i.
  intros H. inversion H; subst; try (cbn [unary binary hashing shuffle In] in *; repeat match goal with X : _ \/ _ |- _ => destruct X as [X|X] end; try discriminate; try contradiction; lia).
Qed.

Lemma step_multisig_iff rest x st si co n m' :
  steps ecdsa t i rest (Op 0xae None x) (Mach st si [] co n) m' <->
  exists sigs keys st' s v, multisig_args st sigs keys st' /\ signed_script sigs co s /\ verdict (quorum ecdsa t i s sigs keys) v /\
    (n + 1 + Z.of_nat (List.length keys) <= 201)%Z /\
    m' = Mach (v :: st') si [] co (n + 1 + Z.of_nat (List.length keys)) /\ room m'.
Proof.
  split.
  - intros H. inversion H as [| |op' x' m m1 m'' NF' C LV A R|op' x' m m'' NF' C LV _ R]; subst; [|exfalso; apply LV, live_nil].
    unfold counts in C. change (96 <? 174)%N with true in C. cbv iota in C. destruct C as [L ->]. cbn [spent main side flow code] in *.
    inversion A; subst; try (match goal with X : effect 174 _ _ |- _ => exfalso; revert X; apply no_multisig end); [|lia].
    eauto 15.
  - intros (sigs & keys & st' & s & v & M & S & V & L & -> & R). eapply (step_op ecdsa t i rest 0xae x _ (Mach st si [] co (n + 1))); [|split; [cbn [spent]; lia|reflexivity]|left; apply live_nil| |exact R].
    + unfold forbidden. cbn [In]. lia.
    + eapply act_checkmultisig; eassumption.
Qed.

Lemma evaluates_ops st s ops st' : reads_as s ops -> (blen s <= 10000)%N ->
  evaluates ecdsa t i st s st' <-> exists si co n, runs ecdsa t i ops (Mach st [] [] ops 0) (Mach st' si [] co n).
Proof.
  intros RA L. split.
  - intros (_ & ops' & si & co & n & RA' & R). assert (ops' = ops) as -> by (eapply reads_unique; eassumption). eauto.
  - intros (si & co & n & R). split; [exact L|]. eauto 6.
Qed.

Lemma runs_pushes keys rest st si co n m : Forall (fun k => (blen k <= 520)%N) keys ->
  runs ecdsa t i (map (fun k => Op (blen k) (Some k) (short_push k)) keys ++ rest) (Mach st si [] co n) m <->
  runs ecdsa t i rest (Mach (rev keys ++ st) si [] co n) m.
Proof.
  intros F. revert st. induction F as [|k keys K F IH]; intros st; [reflexivity|]. cbn [map app rev]. rewrite runs_cons_iff. rewrite <- app_assoc. cbn [app]. rewrite <- IH. split.
  - intros (m1 & S & R). apply step_push_iff in S. destruct S as [_ ->]. exact R.
  - intros R. eexists. split; [apply step_push_iff; split; [exact K|reflexivity]|exact R].
Qed.

Lemma short_spelled k : (blen k <= 75)%N -> spelled (Op (blen k) (Some k) (short_push k)).
Proof. clear ecdsa t i.
  intros H. unfold short_push. assert (E : bN (Nb (blen k)) = blen k) by (rewrite bN_Nb; apply N.mod_small; lia). rewrite <- E at 1. apply spelled_push; rewrite E; [lia|reflexivity].
Qed.

Lemma enc_short k : (blen k <= 75)%N -> enc k = short_push k.
Proof. clear ecdsa t i.
  intros H. assert (S : shortest_push k (short_push k)).
  { split; [eexists; apply short_spelled, H|]. intros c p' SP. unfold short_push. cbn [List.length].
    inversion SP; subst; cbn [List.length]; rewrite ?app_length; try lia;
    match goal with X : Grammar_Spec.le _ _ _ |- _ => destruct X end; lia. }
  apply shortest_push_encode in S. rewrite enc_ok in S by lia. congruence.
Qed.

(** ** Pay to public key hash *)

Definition p2pkh_operations (h : bytes) : list operation :=
  [Op 0x76 None [x76]; Op 0xa9 None [xa9]; Op (blen h) (Some h) (short_push h); Op 0x88 None [x88]; Op 0xac None [xac]].

Lemma p2pkh_reads h : List.length h = 20%nat -> reads_as (p2pkh_script h) (p2pkh_operations h).
Proof. clear ecdsa t i.
  intros L. split.
  - unfold p2pkh_operations. assert (BL : (blen h <= 75)%N) by (unfold blen; lia).
    constructor; [apply (spelled_plain x76); cbv; reflexivity|]. constructor; [apply (spelled_plain xa9); cbv; reflexivity|].
    constructor; [apply short_spelled, BL|]. constructor; [apply (spelled_plain x88); cbv; reflexivity|]. constructor; [apply (spelled_plain xac); cbv; reflexivity|]. constructor.
  - unfold p2pkh_operations, text_of, p2pkh_script, short_push. cbn [map concat op_text app]. assert (blen h = 20%N) as -> by (unfold blen; lia).
    change (Nb 20) with x14. reflexivity.
Qed.

Lemma pay_script_text h : List.length h = 20%nat -> text_of (p2pkh_operations h) = p2pkh_script h.
Proof. clear ecdsa t i. intros L. symmetry. apply p2pkh_reads, L. Qed.

Lemma signed_p2pkh h sig s : List.length h = 20%nat -> (blen sig < 2 ^ 32)%N -> signed_script [sig] (p2pkh_operations h) s <-> p2pkh_signed h sig s.
Proof. clear ecdsa t i.
  intros L B. rewrite signed_script_iff by (constructor; [exact B|constructor]).
  assert (N1 : forall x, (0x4e < bN x)%N -> bytes_eqb [x] (enc sig) = false).
  { intros x X. apply bytes_eqb_neq. intros E. destruct (enc_spelled sig B) as [c SP]. rewrite <- E in SP. inversion SP; subst; cbn in X; lia. }
  assert (N2 : bytes_eqb (short_push h) (enc sig) = bytes_eqb sig h).
  { destruct (bytes_eqb sig h) eqn:E.
    - apply bytes_eqb_eq in E. subst sig. rewrite enc_short by (unfold blen; lia). apply bytes_eqb_refl.
    - apply bytes_eqb_neq. intros X. apply bytes_eqb_neq in E. apply E. destruct (enc_spelled sig B) as [c SP].
      rewrite <- X in SP. assert (BL : (blen h <= 75)%N) by (unfold blen; lia). pose proof (short_spelled h BL) as SP'.
      assert (Y : [Op c (Some sig) (short_push h)] = [Op (blen h) (Some h) (short_push h)]).
      { apply (reads_unique (short_push h)); (split; [constructor; [assumption|constructor]|]); unfold text_of; cbn [map concat op_text]; rewrite app_nil_r; reflexivity. }
      congruence. }
  unfold p2pkh_operations. cbn [filter keep forallb op_text]. rewrite !N1 by (cbv; reflexivity). rewrite N2. cbn [negb andb].
  unfold p2pkh_signed. destruct (bytes_eqb sig h) eqn:E.
  - apply bytes_eqb_eq in E. subst sig. unfold text_of. cbn [negb andb map concat op_text app]. split; [intros ->; split; [congruence|reflexivity]|intros [_ X]; apply X; reflexivity].
  - apply bytes_eqb_neq in E. cbn [negb andb]. change (text_of _) with (text_of (p2pkh_operations h)). rewrite pay_script_text by exact L.
    split; [intros ->; split; [reflexivity|congruence]|intros [X _]; apply X, E].
Qed.

Lemma p2pkh_evaluates h st st' : List.length h = 20%nat -> smalls st ->
  evaluates ecdsa t i st (p2pkh_script h) st' <->
  exists pk sig r s v, st = pk :: sig :: r /\ (Z.of_nat (List.length r) <= 997)%Z /\ ripemd160 (sha256 pk) = h /\
    p2pkh_signed h sig s /\ verdict (signed_by ecdsa t i s pk sig) v /\ st' = v :: r.
Proof.
  intros L SM. assert (BL : blen h = 20%N) by (unfold blen; lia).
  assert (E : (blen (p2pkh_script h) <= 10000)%N).
  { unfold p2pkh_script, blen. rewrite !app_length. cbn [List.length]. lia. }
  rewrite (evaluates_ops _ _ _ _ (p2pkh_reads h L) E). unfold p2pkh_operations at 1.
  assert (DUP : forall pk r, stack_op 0x76 (pk :: r) = Some (Ok (pk :: pk :: r))) by reflexivity.
  assert (HASH : forall pk r, stack_op 0xa9 (pk :: r) = Some (Ok (ripemd160 (sha256 pk) :: r))) by reflexivity.
  split.
  - intros (si & co & n & R). apply runs_cons_iff in R. destruct R as (m1 & S1 & R).
    destruct st as [|pk st0].
    { eapply (step_stack_iff _ 0x76) in S1; [|exact SM|unfold forbidden; cbn [In]; lia|reflexivity]. destruct S1 as (? & X & _). discriminate. }
    eapply (step_stack_iff _ 0x76) in S1; [|exact SM|unfold forbidden; cbn [In]; lia|apply DUP]. destruct S1 as (x1 & X1 & (_ & M1) & R1). injection X1 as <-. cbn [List.length] in R1. subst m1.
    assert (SM1 : smalls (pk :: pk :: st0)).
    { destruct SM as [A B]. inversion B; subst. split; [cbn [List.length]; lia|]. repeat (constructor; [assumption|]). assumption. }
    apply runs_cons_iff in R. destruct R as (m2 & S2 & R).
    eapply (step_stack_iff _ 0xa9) in S2; [|exact SM1|unfold forbidden; cbn [In]; lia|apply HASH]. destruct S2 as (x2 & X2 & (_ & M2) & R2). injection X2 as <-. cbn [List.length] in R2. subst m2.
    apply runs_cons_iff in R. destruct R as (m3 & S3 & R). apply step_push_iff in S3. destruct S3 as [_ ->].
    assert (SM2 : smalls (h :: ripemd160 (sha256 pk) :: pk :: st0)).
    { destruct SM1 as [A B]. inversion B as [|? ? B1 B2]; subst. split; [cbn [List.length] in *; lia|]. constructor; [lia|]. constructor; [unfold blen; rewrite ripemd160_length; lia|]. assumption. }
    apply runs_cons_iff in R. destruct R as (m4 & S4 & R).
    destruct (bytes_eqb h (ripemd160 (sha256 pk))) eqn:EH.
    2:{ exfalso. eapply (step_stack_iff _ 0x88) in S4; [|exact SM2|unfold forbidden; cbn [In]; lia|].
        2:{ cbn. rewrite EH. reflexivity. }
        destruct S4 as (? & X & _). discriminate. }
    apply bytes_eqb_eq in EH. symmetry in EH. rewrite EH in *.
    eapply (step_stack_iff _ 0x88) in S4; [|exact SM2|unfold forbidden; cbn [In]; lia|].
    2:{ cbn. rewrite bytes_eqb_refl. reflexivity. }
    destruct S4 as (x4 & X4 & (_ & M4) & R4). injection X4 as <-. subst m4.
    apply runs_cons_iff in R. destruct R as (m5 & S5 & R). apply runs_nil_iff in R. subst m5.
    apply step_checksig_iff in S5. destruct S5 as (pk' & sig & r & s & v & ES & SG & V & _ & M5 & _). injection ES as <- ->. injection M5 as -> _ _ _.
    exists pk, sig, r, s, v. split; [reflexivity|]. split; [cbn [List.length] in R1; lia|]. split; [exact EH|]. split; [|auto].
    apply signed_p2pkh in SG; [exact SG|exact L|]. destruct SM as [_ B]. inversion B as [|? ? _ B1]; subst. inversion B1; subst. assumption.
  - intros (pk & sig & r & s & v & -> & LR & EH & SG & V & ->). exists [], (p2pkh_operations h), 4%Z.
    assert (SM1 : smalls (pk :: pk :: sig :: r)).
    { destruct SM as [A B]. inversion B; subst. split; [cbn [List.length]; lia|]. repeat (constructor; [assumption|]). assumption. }
    assert (SM2 : smalls (h :: h :: pk :: sig :: r)).
    { destruct SM1 as [A B]. inversion B as [|? ? B1 B2]; subst. split; [cbn [List.length] in *; lia|]. constructor; [lia|]. constructor; [lia|]. assumption. }
    apply runs_cons_iff. eexists. split; [eapply (step_stack_iff _ 0x76); [exact SM|unfold forbidden; cbn [In]; lia|apply DUP|]|].
    { eexists. split; [reflexivity|]. split; [split; [intros _; vm_compute; discriminate|reflexivity]|cbn [List.length]; lia]. }
    apply runs_cons_iff. eexists. split; [eapply (step_stack_iff _ 0xa9); [exact SM1|unfold forbidden; cbn [In]; lia|apply HASH|]|].
    { eexists. split; [reflexivity|]. split; [split; [intros _; vm_compute; discriminate|reflexivity]|cbn [List.length]; lia]. }
    apply runs_cons_iff. eexists. split; [apply step_push_iff; split; [lia|reflexivity]|]. rewrite EH.
    apply runs_cons_iff. eexists. split; [eapply (step_stack_iff _ 0x88); [exact SM2|unfold forbidden; cbn [In]; lia|cbn; rewrite bytes_eqb_refl; reflexivity|]|].
    { eexists. split; [reflexivity|]. split; [split; [intros _; vm_compute; discriminate|reflexivity]|cbn [List.length]; lia]. }
    apply runs_cons_iff. eexists. split; [|apply runs_nil_iff; reflexivity].
    apply step_checksig_iff. exists pk, sig, r, s, v. split; [reflexivity|]. split; [|split; [exact V|]].
    + apply signed_p2pkh; [exact L| |exact SG]. destruct SM as [_ B]. inversion B as [|? ? _ B1]; subst. inversion B1; subst. assumption.
    + split; [vm_compute; discriminate|]. split; [reflexivity|]. unfold room. cbn [main side List.length]. lia.
Qed.

Lemma evaluates_smalls ss st : evaluates ecdsa t i [] ss st -> smalls st.
Proof.
  intros E. apply (evaluates_small _ _ _ 520) in E; [|lia|constructor|cbn [List.length]; lia]. destruct E as [F LE]. cbn [List.length] in LE.
  split; [lia|]. eapply Forall_impl; [|exact F]. cbv beta. lia.
Qed.

Lemma accepting_verdict P v r : verdict P v -> accepting (v :: r) <-> P.
Proof. clear ecdsa t i.
  unfold accepting. intros [[H ->]|[H ->]].
  - split; [intros _; exact H|]. intros _. exists [x01], r. split; [reflexivity|]. unfold truthy. cbv. discriminate.
  - split; [|contradiction]. intros (a & q & E & T). injection E as <- _. exfalso. apply T. reflexivity.
Qed.

Lemma p2pkh_unlocks h ss : List.length h = 20%nat ->
  unlocks ecdsa t i ss (p2pkh_script h) <->
  exists pk sig r s, evaluates ecdsa t i [] ss (pk :: sig :: r) /\ (Z.of_nat (List.length r) <= 997)%Z /\ ripemd160 (sha256 pk) = h /\
    p2pkh_signed h sig s /\ signed_by ecdsa t i s pk sig.
Proof.
  intros L. split.
  - intros (st1 & st2 & E1 & E2 & A). apply p2pkh_evaluates in E2; [|exact L|eapply evaluates_smalls, E1].
    destruct E2 as (pk & sig & r & s & v & -> & LR & EH & SG & V & ->). apply (accepting_verdict _ _ _ V) in A. eauto 12.
  - intros (pk & sig & r & s & E1 & LR & EH & SG & S). exists (pk :: sig :: r), ([x01] :: r). split; [exact E1|].
    assert (V : verdict (signed_by ecdsa t i s pk sig) [x01]) by (left; split; [exact S|reflexivity]).
    split; [|apply (accepting_verdict _ _ _ V), S]. apply p2pkh_evaluates; [exact L|eapply evaluates_smalls, E1|]. eauto 15.
Qed.

(** ** Scripts that push a few strings *)

Definition push_ops (l : list bytes) : list operation := map (fun k => Op (blen k) (Some k) (short_push k)) l.

Lemma push_ops_spelled l : Forall (fun k => (blen k <= 75)%N) l -> Forall spelled (push_ops l).
Proof. clear ecdsa t i. intros F. unfold push_ops. induction F; cbn [map]; constructor; [apply short_spelled; assumption|assumption]. Qed.
Lemma push_ops_text l : text_of (push_ops l) = concat (map short_push l).
Proof. clear ecdsa t i. unfold text_of, push_ops. rewrite map_map. reflexivity. Qed.
Lemma pushes_reads l : Forall (fun k => (blen k <= 75)%N) l -> reads_as (concat (map short_push l)) (push_ops l).
Proof. clear ecdsa t i. intros F. split; [apply push_ops_spelled, F|symmetry; apply push_ops_text]. Qed.
Lemma pushes_len l : Forall (fun k => (blen k <= 75)%N) l -> (List.length (concat (map short_push l)) <= 76 * List.length l)%nat.
Proof. clear ecdsa t i. induction 1; [cbn; lia|]. unfold short_push in *. cbn [map concat List.length]. rewrite app_length. cbn [List.length]. unfold blen in *. lia. Qed.

Lemma evaluates_pushes l st : Forall (fun k => (blen k <= 75)%N) l -> (List.length l <= 100)%nat ->
  evaluates ecdsa t i [] (concat (map short_push l)) st <-> st = rev l.
Proof.
  intros F L. pose proof (pushes_len l F) as PL. rewrite (evaluates_ops _ _ _ _ (pushes_reads l F)) by (unfold blen; lia).
  assert (F' : Forall (fun k => (blen k <= 520)%N) l) by (eapply Forall_impl; [|exact F]; cbv beta; lia).
  assert (X : forall si co n, runs ecdsa t i (push_ops l) (Mach [] [] [] (push_ops l) 0) (Mach st si [] co n) <-> (st = rev l /\ si = [] /\ co = push_ops l /\ n = 0%Z)).
  { intros si co n. rewrite <- (app_nil_r (push_ops l)) at 1. unfold push_ops at 1. rewrite runs_pushes by exact F'. rewrite runs_nil_iff, app_nil_r.
    split; [intros E; injection E as <- <- <- <-; auto|intros (-> & -> & -> & ->); reflexivity]. }
  split; [intros (si & co & n & R); apply X in R; apply R|]. intros ->. exists [], (push_ops l), 0%Z. apply X. auto.
Qed.

Lemma p2pkh_standard h sig pk : List.length h = 20%nat -> (blen sig <= 75)%N -> (blen pk <= 75)%N ->
  unlocks ecdsa t i (short_push sig ++ short_push pk) (p2pkh_script h) <->
  ripemd160 (sha256 pk) = h /\ exists s, p2pkh_signed h sig s /\ signed_by ecdsa t i s pk sig.
Proof.
  intros L B1 B2. rewrite p2pkh_unlocks by exact L.
  assert (F : Forall (fun k => (blen k <= 75)%N) [sig; pk]) by (repeat constructor; assumption).
  assert (E : forall st, evaluates ecdsa t i [] (short_push sig ++ short_push pk) st <-> st = [pk; sig]).
  { intros st. rewrite <- (app_nil_r (short_push pk)). apply (evaluates_pushes [sig; pk] st F). cbn [List.length]. lia. }
  split.
  - intros (pk' & sig' & r & s & X & _ & EH & SG & S). apply E in X. injection X as -> -> _. eauto.
  - intros (EH & s & SG & S). exists pk, sig, [], s. split; [apply E; reflexivity|]. cbn [List.length]. split; [lia|]. auto.
Qed.

(** ** Multisignature scripts *)

Lemma picked_app {A} (k1 l1 k2 l2 : list A) : picked k1 l1 -> picked k2 l2 -> picked (k1 ++ k2) (l1 ++ l2).
Proof. clear ecdsa t i. induction 1; intros H2; cbn [app]; [exact H2|constructor; auto|constructor; auto]. Qed.
Lemma picked_rev {A} (k l : list A) : picked k l -> picked (rev k) (rev l).
Proof. clear ecdsa t i.
  induction 1 as [|x k l P IH|x k l P IH]; cbn [rev]; [constructor| |].
  - apply picked_app; [exact IH|]. do 2 constructor.
  - rewrite <- (app_nil_r (rev k)). apply picked_app; [exact IH|]. do 2 constructor.
Qed.
Lemma Forall2_rev {A B} (R : A -> B -> Prop) a b : Forall2 R a b -> Forall2 R (rev a) (rev b).
Proof. clear ecdsa t i. induction 1; cbn [rev]; [constructor|]. apply Forall2_app; [assumption|]. constructor; [assumption|constructor]. Qed.
Lemma quorum_rev s sigs keys : quorum ecdsa t i s (rev sigs) (rev keys) <-> quorum ecdsa t i s sigs keys.
Proof.
  assert (X : forall sigs keys, quorum ecdsa t i s sigs keys -> quorum ecdsa t i s (rev sigs) (rev keys)).
  { intros a b (ks & P & F). exists (rev ks). split; [apply picked_rev, P|apply Forall2_rev, F]. }
  split; [|apply X]. intros H. apply X in H. rewrite !rev_involutive in H. exact H.
Qed.

Definition multisig_ops (m n : nat) (keys : list bytes) : list operation :=
  Op (0x50 + N.of_nat m) None [small_number m] :: push_ops keys ++ [Op (0x50 + N.of_nat n) None [small_number n]; Op 0xae None [xae]].

Lemma small_spelled m : (1 <= m <= 16)%nat -> spelled (Op (0x50 + N.of_nat m) None [small_number m]).
Proof. clear ecdsa t i.
  intros M. unfold small_number. assert (E : bN (Nb (80 + N.of_nat m)) = (80 + N.of_nat m)%N) by (rewrite bN_Nb; apply N.mod_small; lia).
  rewrite <- E at 1. apply spelled_plain. rewrite E. lia.
Qed.

Lemma multisig_reads m n keys : (1 <= m <= 16)%nat -> (1 <= n <= 16)%nat -> Forall (fun k => (blen k <= 75)%N) keys ->
  reads_as (multisig_script m n keys) (multisig_ops m n keys).
Proof. clear ecdsa t i.
  intros M N F. split.
  - unfold multisig_ops. constructor; [apply small_spelled, M|]. apply Forall_app. split; [apply push_ops_spelled, F|].
    constructor; [apply small_spelled, N|]. constructor; [apply (spelled_plain xae); cbv; reflexivity|constructor].
  - unfold multisig_ops, multisig_script, text_of. cbn [map concat op_text]. rewrite map_app, concat_app. fold (text_of (push_ops keys)). rewrite push_ops_text.
    cbn [map concat op_text app]. reflexivity.
Qed.

Lemma plain_not_enc x sig : (0x4e < bN x)%N -> (blen sig < 2 ^ 32)%N -> bytes_eqb [x] (enc sig) = false.
Proof. clear ecdsa t i. intros X B. apply bytes_eqb_neq. intros E. destruct (enc_spelled sig B) as [c SP]. rewrite <- E in SP. inversion SP; subst; cbn in X; lia. Qed.

Lemma short_enc k sig : (blen k <= 75)%N -> (blen sig < 2 ^ 32)%N -> bytes_eqb (short_push k) (enc sig) = bytes_eqb k sig.
Proof. clear ecdsa t i.
  intros BL B. destruct (bytes_eqb k sig) eqn:E.
  - apply bytes_eqb_eq in E. subst sig. rewrite enc_short by exact BL. apply bytes_eqb_refl.
  - apply bytes_eqb_neq. intros X. apply bytes_eqb_neq in E. apply E. destruct (enc_spelled sig B) as [c SP].
    rewrite <- X in SP. pose proof (short_spelled k BL) as SP'.
    assert (Y : [Op c (Some sig) (short_push k)] = [Op (blen k) (Some k) (short_push k)]).
    { apply (reads_unique (short_push k)); (split; [constructor; [assumption|constructor]|]); unfold text_of; cbn [map concat op_text]; rewrite app_nil_r; reflexivity. }
    congruence.
Qed.

Lemma keep_plain sigs op x : (0x4e < bN x)%N -> Forall (fun a => (blen a < 2 ^ 32)%N) sigs -> keep sigs (Op op None [x]) = true.
Proof. clear ecdsa t i. intros X F. unfold keep. cbn [op_text]. induction F; [reflexivity|]. cbn [forallb]. rewrite plain_not_enc by assumption. assumption. Qed.

Lemma keep_short sigs k : (blen k <= 75)%N -> Forall (fun a => (blen a < 2 ^ 32)%N) sigs ->
  keep sigs (Op (blen k) (Some k) (short_push k)) = negb (existsb (bytes_eqb k) sigs).
Proof. clear ecdsa t i. intros X F. unfold keep. cbn [op_text]. induction F; [reflexivity|]. cbn [forallb existsb]. rewrite short_enc by assumption. rewrite IHF, negb_orb. reflexivity. Qed.

Lemma existsb_rev {A} (p : A -> bool) l : existsb p (rev l) = existsb p l.
Proof. clear ecdsa t i. induction l as [|a l IH]; [reflexivity|]. cbn [rev existsb]. rewrite existsb_app. cbn [existsb]. rewrite IH, orb_false_r, orb_comm. reflexivity. Qed.

Lemma signed_multisig m n keys sigs s : (1 <= m <= 16)%nat -> (1 <= n <= 16)%nat -> Forall (fun k => (blen k <= 75)%N) keys ->
  Forall (fun a => (blen a < 2 ^ 32)%N) sigs ->
  signed_script sigs (multisig_ops m n keys) s <-> s = multisig_script m n (filter (fun k => negb (existsb (bytes_eqb k) sigs)) keys).
Proof. clear ecdsa t i.
  intros M N F B. rewrite signed_script_iff by exact B.
  assert (SM : forall m, (1 <= m <= 16)%nat -> (0x4e < bN (small_number m))%N).
  { intros k K. unfold small_number. rewrite bN_Nb, N.mod_small by lia. lia. }
  assert (E : filter (keep sigs) (multisig_ops m n keys) = multisig_ops m n (filter (fun k => negb (existsb (bytes_eqb k) sigs)) keys)).
  { unfold multisig_ops. cbn [filter]. rewrite keep_plain by auto. f_equal. rewrite filter_app. cbn [filter]. rewrite !keep_plain by (auto; cbv; reflexivity). f_equal.
    clear - F B. induction F as [|k keys K F IH]; [reflexivity|]. unfold push_ops in *. cbn [map filter]. rewrite keep_short by assumption.
    destruct (negb (existsb (bytes_eqb k) sigs)); cbn [map]; rewrite IH; reflexivity. }
  rewrite E. assert (X : text_of (multisig_ops m n (filter (fun k => negb (existsb (bytes_eqb k) sigs)) keys)) = multisig_script m n (filter (fun k => negb (existsb (bytes_eqb k) sigs)) keys)).
  { symmetry. apply multisig_reads; [exact M|exact N|]. apply Forall_forall. intros k K. apply filter_In in K. rewrite Forall_forall in F. apply F, K. }
  rewrite X. reflexivity.
Qed.

Lemma smalls_app a b : smalls (a ++ b) -> Forall (fun x => (blen x < 2 ^ 32)%N) a.
Proof. clear ecdsa t i. intros [_ F]. apply Forall_app in F. apply F. Qed.

Lemma operand_small k z : (1 <= k <= 16)%nat -> operand [Nb (N.of_nat k)] z <-> z = Z.of_nat k.
Proof. clear ecdsa t i.
  intros K. unfold operand. assert (scriptnum [Nb (N.of_nat k)] = Z.of_nat k) as ->; [|split; [intros [-> _]; reflexivity|intros ->; split; [reflexivity|unfold blen; cbn [List.length]; lia]]].
  do 17 (destruct k as [|k]; [try lia; reflexivity|]). lia.
Qed.

Lemma multisig_evaluates m keys st st' : (1 <= m <= List.length keys)%nat -> (List.length keys <= 16)%nat -> Forall (fun k => (blen k <= 75)%N) keys ->
  smalls st ->
  evaluates ecdsa t i st (multisig_script m (List.length keys) keys) st' <->
  exists sigs extra r v, st = rev sigs ++ extra :: r /\ List.length sigs = m /\ (List.length st + List.length keys <= 998)%nat /\
    verdict (quorum ecdsa t i (multisig_script m (List.length keys) (filter (fun k => negb (existsb (bytes_eqb k) sigs)) keys)) sigs keys) v /\ st' = v :: r.
Proof.
  intros M N F SM. assert (N1 : (1 <= List.length keys <= 16)%nat) by lia. assert (M1 : (1 <= m <= 16)%nat) by lia. set (n := List.length keys) in *.
  assert (LEN : (blen (multisig_script m n keys) <= 10000)%N).
  { unfold multisig_script, blen. rewrite !app_length. pose proof (pushes_len keys F) as PL. fold n in PL. cbn [List.length]. lia. }
  assert (F' : Forall (fun k => (blen k <= 520)%N) keys) by (eapply Forall_impl; [|exact F]; cbv beta; lia).
  rewrite (evaluates_ops _ _ _ _ (multisig_reads m n keys M1 N1 F) LEN). unfold multisig_ops at 1.
  assert (QV : forall sigs v, Forall (fun x => (blen x < 2 ^ 32)%N) sigs ->
    (exists s, signed_script (rev sigs) (multisig_ops m n keys) s /\ verdict (quorum ecdsa t i s (rev sigs) (rev keys)) v) <->
    verdict (quorum ecdsa t i (multisig_script m n (filter (fun k => negb (existsb (bytes_eqb k) sigs)) keys)) sigs keys) v).
  { intros sigs v B. assert (B' : Forall (fun x => (blen x < 2 ^ 32)%N) (rev sigs)) by (apply Forall_rev, B).
    assert (EQ : filter (fun k => negb (existsb (bytes_eqb k) (rev sigs))) keys = filter (fun k => negb (existsb (bytes_eqb k) sigs)) keys).
    { apply filter_ext. intros k. rewrite existsb_rev. reflexivity. }
    assert (VV : forall P Q, (P <-> Q) -> verdict P v <-> verdict Q v) by (intros P Q PQ; unfold verdict; tauto).
    split.
    - intros (s & SG & V). apply signed_multisig in SG; [|assumption..]. subst s. rewrite EQ in V. eapply VV; [|exact V]. symmetry. apply quorum_rev.
    - intros V. eexists. split; [apply signed_multisig; [assumption..|reflexivity]|]. rewrite EQ. eapply VV; [|exact V]. apply quorum_rev. }
  split.
  - intros (si & co & c & R). apply runs_cons_iff in R. destruct R as (m1 & S1 & R). apply (step_constant_iff _ m) in S1; [|exact M1]. destruct S1 as [-> R1].
    unfold push_ops in R. rewrite runs_pushes in R by exact F'.
    apply runs_cons_iff in R. destruct R as (m2 & S2 & R). apply (step_constant_iff _ n) in S2; [|exact N1]. destruct S2 as [-> R2].
    apply runs_cons_iff in R. destruct R as (m3 & S3 & R). apply runs_nil_iff in R. subst m3.
    apply step_multisig_iff in S3. destruct S3 as (sigs & keys' & st'' & s & v & MA & SG & V & _ & EM & _). injection EM as -> _ _ _.
    destruct MA as (a & b & extra & ES & ON & OK & _). injection ES as <- ES.
    apply operand_small in ON; [|exact N1].
    assert (LK : List.length (rev keys) = List.length keys') by (rewrite rev_length; fold n; lia).
    apply app_inj_len in ES; [|exact LK]. destruct ES as [EK ES]. injection ES as <- ES. subst keys' st.
    apply operand_small in OK; [|exact M1].
    assert (BS : Forall (fun x => (blen x < 2 ^ 32)%N) (rev sigs)) by (apply Forall_rev; eapply smalls_app, SM).
    exists (rev sigs), extra, st'', v. rewrite rev_involutive. split; [reflexivity|]. rewrite rev_length. split; [lia|]. split.
    + rewrite app_length, rev_length in R2. cbn [List.length] in R2. fold n in R2. cbn [List.length] in *. lia.
    + split; [|reflexivity]. apply QV; [exact BS|]. exists s. rewrite rev_involutive. auto.
  - intros (sigs & extra & r & v & -> & LS & LR & V & ->). rewrite app_length, rev_length in LR. cbn [List.length] in LR.
    assert (BS : Forall (fun x => (blen x < 2 ^ 32)%N) sigs) by (rewrite <- (rev_involutive sigs); apply Forall_rev; eapply smalls_app, SM).
    apply QV in V; [|exact BS]. destruct V as (s & SG & V).
    exists [], (multisig_ops m n keys), (0 + 1 + Z.of_nat (List.length (rev keys)))%Z. apply runs_cons_iff. eexists. split.
    { apply (step_constant_iff _ m); [exact M1|]. split; [reflexivity|]. rewrite app_length, rev_length. cbn [List.length]. lia. }
    unfold push_ops. rewrite runs_pushes by exact F'. apply runs_cons_iff. eexists. split.
    { apply (step_constant_iff _ n); [exact N1|]. split; [reflexivity|]. rewrite app_length, rev_length. cbn [List.length]. rewrite app_length, rev_length. cbn [List.length]. fold n. lia. }
    apply runs_cons_iff. eexists. split; [|apply runs_nil_iff; reflexivity].
    apply step_multisig_iff. exists (rev sigs), (rev keys), r, s, v. split.
    { exists [Nb (N.of_nat n)], [Nb (N.of_nat m)], extra. split; [reflexivity|]. rewrite !rev_length. fold n.
      split; [apply operand_small; [exact N1|reflexivity]|]. split; [apply operand_small; [exact M1|lia]|]. lia. }
    split; [exact SG|]. split; [exact V|]. rewrite rev_length. fold n. split; [lia|]. split; [reflexivity|]. unfold room. cbn [main side List.length]. lia.
Qed.

Lemma multisig_unlocks m keys ss : (1 <= m <= List.length keys)%nat -> (List.length keys <= 16)%nat -> Forall (fun k => (blen k <= 75)%N) keys ->
  unlocks ecdsa t i ss (multisig_script m (List.length keys) keys) <->
  exists sigs extra r covered, evaluates ecdsa t i [] ss (rev sigs ++ extra :: r) /\ List.length sigs = m /\ (m + List.length r + List.length keys <= 997)%nat /\
    keys_signed sigs keys covered /\ quorum ecdsa t i (multisig_script m (List.length keys) covered) sigs keys.
Proof.
  intros M N F. split.
  - intros (st1 & st2 & E1 & E2 & A). apply multisig_evaluates in E2; [|assumption..|eapply evaluates_smalls, E1].
    destruct E2 as (sigs & extra & r & v & -> & LS & LR & V & ->). apply (accepting_verdict _ _ _ V) in A.
    rewrite app_length, rev_length in LR. cbn [List.length] in LR. exists sigs, extra, r. eexists. split; [exact E1|]. split; [exact LS|]. split; [lia|]. split; [reflexivity|exact A].
  - intros (sigs & extra & r & cov & E1 & LS & LR & -> & Q). exists (rev sigs ++ extra :: r), ([x01] :: r). split; [exact E1|].
    assert (V : verdict (quorum ecdsa t i (multisig_script m (List.length keys) (filter (fun k => negb (existsb (bytes_eqb k) sigs)) keys)) sigs keys) [x01]) by (left; split; [exact Q|reflexivity]).
    split; [|apply (accepting_verdict _ _ _ V), Q]. apply multisig_evaluates; [assumption..|eapply evaluates_smalls, E1|].
    exists sigs, extra, r, [x01]. rewrite app_length, rev_length. cbn [List.length]. split; [reflexivity|]. split; [exact LS|]. split; [lia|]. auto.
Qed.

Lemma multisig_standard m keys sigs : (1 <= m <= List.length keys)%nat -> (List.length keys <= 16)%nat -> Forall (fun k => (blen k <= 75)%N) keys ->
  Forall (fun k => (blen k <= 75)%N) sigs -> List.length sigs = m ->
  unlocks ecdsa t i (x00 :: concat (map short_push sigs)) (multisig_script m (List.length keys) keys) <->
  exists covered, keys_signed sigs keys covered /\ quorum ecdsa t i (multisig_script m (List.length keys) covered) sigs keys.
Proof.
  intros M N F G LS. rewrite multisig_unlocks by assumption.
  assert (G' : Forall (fun k => (blen k <= 75)%N) ([] :: sigs)) by (constructor; [cbv; discriminate|exact G]).
  assert (E : forall st, evaluates ecdsa t i [] (x00 :: concat (map short_push sigs)) st <-> st = rev sigs ++ [[]]).
  { intros st. change (x00 :: concat (map short_push sigs)) with (concat (map short_push ([] :: sigs))). rewrite (evaluates_pushes ([] :: sigs) st G'); [reflexivity|]. cbn [List.length]. lia. }
  split.
  - intros (sigs' & extra & r & cov & X & LS' & _ & K & Q). apply E in X.
    assert (LK : List.length (rev sigs') = List.length (rev sigs)) by (rewrite !rev_length; lia).
    apply app_inj_len in X; [|exact LK]. destruct X as [X _]. apply (f_equal (@rev bytes)) in X. rewrite !rev_involutive in X. subst sigs'. eauto.
  - intros (cov & K & Q). exists sigs, [], [], cov. split; [apply E; reflexivity|]. split; [exact LS|]. cbn [List.length]. split; [lia|]. auto.
Qed.

(** ** Conditionals *)

Lemma runs_passes A R m m2 : runs ecdsa t i (A ++ R) m m2 <-> exists m1, passes ecdsa t i A R m m1 /\ runs ecdsa t i R m1 m2.
Proof.
  revert m. induction A as [|o A IH]; intros m; cbn [app].
  - split; [intros H; exists m; split; [constructor|exact H]|]. intros (m1 & P & H). inversion P; subst. exact H.
  - rewrite runs_cons_iff. split.
    + intros (m1 & S & H). apply IH in H. destruct H as (m3 & P & H). exists m3. split; [econstructor; eassumption|exact H].
    + intros (m3 & P & H). inversion P as [|? ? ? ? m1 ? S P']; subst. exists m1. split; [exact S|]. apply IH. eauto.
Qed.

Lemma controls_kind op x : ~ forbidden op -> controls op -> is_if (Op op None x) \/ is_else (Op op None x) \/ is_endif (Op op None x).
Proof. clear ecdsa t i. unfold forbidden, controls, is_if, is_else, is_endif. cbn [In op_code op_data]. intros F C. assert (H : (op = 0x63 \/ op = 0x64 \/ op = 0x67 \/ op = 0x68)%N) by lia. intuition. Qed.

Lemma acts_flow rest op m m' : acts ecdsa t i rest op m m' -> ~ forbidden op ->
  (((op = 0x63 \/ op = 0x64)%N /\ exists b, flow m' = b :: flow m) \/ (op = 0x67%N /\ exists b fl, flow m = b :: fl /\ flow m' = negb b :: fl) \/
   (op = 0x68%N /\ exists b, flow m = b :: flow m') \/ (~ controls op /\ flow m' = flow m)).
Proof.
  intros A NF. destruct A; cbn [flow]; try (right; right; right; split; [unfold controls; lia|reflexivity]).
  - right; right; right. split; [|reflexivity]. intros C.
    match goal with X : effect _ _ _ |- _ => inversion X; subst end; unfold controls in C; try lia;
      try (cbn [unary binary hashing shuffle In] in *; repeat match goal with X : _ \/ _ |- _ => destruct X as [X|X] end; try contradiction; try (match goal with X : (_, _) = (_, _) |- _ => injection X; intros end); lia).
    unfold constant in H0. destruct (op =? 79)%N eqn:E1; [lia|]. destruct ((81 <=? op) && (op <=? 96))%N eqn:E2; [lia|discriminate].
  - left. split; [lia|eauto].
  - left. split; [lia|eauto].
  - left. split; [assumption|eauto].
  - right; left. eauto 6.
  - right; right; left. eauto.
Qed.

Lemma step_flow rest o m m' : steps ecdsa t i rest o m m' ->
  (is_if o /\ exists b, flow m' = b :: flow m) \/ (is_else o /\ exists b fl, flow m = b :: fl /\ flow m' = negb b :: fl) \/
  (is_endif o /\ exists b, flow m = b :: flow m') \/ (~ is_if o /\ ~ is_else o /\ ~ is_endif o /\ flow m' = flow m).
Proof.
  assert (PU : forall op d x, ~ is_if (Op op (Some d) x) /\ ~ is_else (Op op (Some d) x) /\ ~ is_endif (Op op (Some d) x)) by (intros; unfold is_if, is_else, is_endif; cbn [op_data]; intuition discriminate).
  assert (CF : forall op m m1, counts op m m1 -> flow m1 = flow m).
  { intros op n n1 C. unfold counts in C. destruct (96 <? op)%N; [destruct C as [_ ->]; reflexivity|subst; reflexivity]. }
  intros S. destruct S as [op d x m L LV|op d x m L LV R|op x m m1 m' NF C LV A R|op x m m' NF C LV NC R].
  - destruct (PU op d x) as (A & B & D). right; right; right. auto.
  - destruct (PU op d x) as (A & B & D). right; right; right. auto.
  - apply CF in C. apply acts_flow in A; [|exact NF]. rewrite C in A. unfold is_if, is_else, is_endif. cbn [op_data op_code].
    destruct A as [(E & X)|[(E & X)|[(E & X)|(E & X)]]]; [left; auto|right; left; auto|right; right; left; auto|].
    right; right; right. unfold controls in E. split; [intros [_ Y]; lia|]. split; [intros [_ Y]; lia|]. split; [intros [_ Y]; lia|exact X].
  - apply CF in C. right; right; right. unfold controls in NC. unfold is_if, is_else, is_endif. cbn [op_data op_code]. split; [intros [_ Y]; lia|]. split; [intros [_ Y]; lia|]. split; [intros [_ Y]; lia|exact C].
Qed.

Lemma kinds_apart o : (is_if o -> ~ is_else o /\ ~ is_endif o) /\ (is_else o -> ~ is_endif o).
Proof. clear ecdsa t i. unfold is_if, is_else, is_endif. split; [intros [_ ?]; split; intros [_ ?]; lia|intros [_ ?] [_ ?]; lia]. Qed.

Lemma passes_flow R m1 A d : nested d A -> forall bs fl m, flow m = bs ++ fl -> List.length bs = d -> passes ecdsa t i A R m m1 -> flow m1 = fl.
Proof.
  induction 1 as [|d o l K H IH|d o l K H IH|d o l K H IH|d o l K1 K2 K3 H IH]; intros bs fl m FL LB P.
  - destruct bs; [|discriminate]. inversion P; subst. exact FL.
  - inversion P as [|? ? ? ? m2 ? S P']; subst. destruct (kinds_apart o) as [KA KB]. apply step_flow in S. destruct S as [(_ & b & E)|[(K' & _)|[(K' & _)|(K' & _)]]]; [|exfalso; tauto..].
    eapply (IH (b :: bs)); [|reflexivity|exact P']. rewrite E, FL. reflexivity.
  - inversion P as [|? ? ? ? m2 ? S P']; subst. destruct (kinds_apart o) as [KA KB]. apply step_flow in S. destruct S as [(K' & _)|[(_ & b & f & E1 & E2)|[(K' & _)|(_ & K' & _)]]]; [exfalso; tauto| |exfalso; tauto..].
    destruct bs as [|b' bs]; [discriminate|]. rewrite FL in E1. injection E1 as -> <-. eapply (IH (negb b :: bs)); [exact E2|exact LB|exact P'].
  - inversion P as [|? ? ? ? m2 ? S P']; subst. destruct (kinds_apart o) as [KA KB]. apply step_flow in S. destruct S as [(K' & _)|[(K' & _)|[(_ & b & E)|(_ & _ & K' & _)]]]; [exfalso; tauto..| |exfalso; tauto].
    destruct bs as [|b' bs]; [discriminate|]. rewrite FL in E. injection E as -> E. eapply (IH bs); [symmetry; exact E|injection LB as LB; exact LB|exact P'].
  - inversion P as [|? ? ? ? m2 ? S P']; subst. apply step_flow in S. destruct S as [(K' & _)|[(K' & _)|[(K' & _)|(_ & _ & _ & E)]]]; [exfalso; tauto..|].
    eapply (IH bs); [rewrite E; exact FL|reflexivity|exact P'].
Qed.

(** A script that does not fail closes its conditionals. *)
Lemma runs_nested ops m m' : runs ecdsa t i ops m m' -> flow m' = [] -> nested (List.length (flow m)) ops.
Proof.
  induction 1 as [m|o rest m m1 m2 S R IH]; intros E; [rewrite E; constructor|]. specialize (IH E). apply step_flow in S.
  destruct S as [(K & b & F)|[(K & b & fl & F1 & F2)|[(K & b & F)|(K1 & K2 & K3 & F)]]].
  - apply nested_if; [exact K|]. rewrite F in IH. exact IH.
  - rewrite F1. cbn [List.length]. apply nested_else; [exact K|]. rewrite F2 in IH. exact IH.
  - rewrite F. cbn [List.length]. apply nested_endif; [exact K|exact IH].
  - apply nested_other; [assumption..|]. rewrite F in IH. exact IH.
Qed.

Lemma dead_cons b fl : ~ live fl -> ~ live (b :: fl).
Proof. clear ecdsa t i. intros H L. apply H. intros c J. apply L. right. exact J. Qed.
Lemma dead_app bs fl : ~ live fl -> ~ live (bs ++ fl).
Proof. clear ecdsa t i. intros H L. apply H. intros c J. apply L. apply in_or_app. right. exact J. Qed.

Lemma counted_nonneg l : (0 <= counted l)%Z.
Proof. clear ecdsa t i. induction l as [|o l IH]; cbn [counted]; [lia|]. destruct (96 <? op_code o)%N; lia. Qed.

(** One operation that is not executed. *)
Lemma dead_step rest o st si fl co n m' : spelled o -> ~ live fl -> (n <= 201)%Z ->
  steps ecdsa t i rest o (Mach st si fl co n) m' <->
  harmless [o] /\ (n + counted [o] <= 201)%Z /\ room (Mach st si fl co n) /\
  exists fl', m' = Mach st si fl' co (n + counted [o]) /\
    ((is_if o /\ fl' = false :: fl) \/ (is_else o /\ exists b f, fl = b :: f /\ fl' = negb b :: f) \/ (is_endif o /\ exists b, fl = b :: fl') \/
     (~ is_if o /\ ~ is_else o /\ ~ is_endif o /\ fl' = fl)).
Proof.
  intros SP D N201. unfold harmless. cbn [counted].
  assert (CF : forall op m m1, counts op m m1 <-> (spent m <= 201)%Z /\ m1 = Mach (main m) (side m) (flow m) (code m) (spent m + ((if (96 <? op)%N then 1 else 0) + 0)) /\ (spent m1 <= 201)%Z \/ (201 < spent m)%Z /\ m1 = m /\ (96 <? op)%N = false).
  { intros op m m1. unfold counts. destruct (96 <? op)%N.
    - split; [intros [L ->]; left; cbn [spent]; repeat split; lia|]. intros [(L & -> & L2)|(_ & _ & X)]; [cbn [spent] in L2; split; [lia|f_equal; lia]|discriminate].
    - split; [intros ->|].
      + destruct (Z.leb_spec (spent m) 201) as [L|L]; [left|right; auto]. split; [exact L|]. split; [|exact L]. destruct m as [q1 q2 q3 q4 q5]; cbn [main side flow code spent]. f_equal. lia.
      + intros [(L & -> & L2)|(_ & -> & _)]; [|reflexivity]. destruct m as [q1 q2 q3 q4 q5]; cbn [main side flow code spent]. f_equal. lia. }
  split.
  - intros S. inversion S as [op d x m L LV|op d x m L LV R|op x m m1 m'' NF C LV A R|op x m m'' NF C LV NC R]; subst; cbn [flow] in *; [contradiction| | |].
    + pose proof (push_code _ _ SP eq_refl) as PC. cbn [op_code op_data] in *. destruct (96 <? op)%N eqn:E; [lia|].
      split; [constructor; [exact L|constructor]|]. split; [lia|]. split; [exact R|]. exists fl. split; [f_equal; lia|]. right; right; right. unfold is_if, is_else, is_endif. cbn [op_data]. intuition discriminate.
    + cbn [op_code op_data]. destruct LV as [LV|LV]; [contradiction|]. apply CF in C. cbn [main side flow code spent] in C. destruct C as [(_ & -> & C)|(X & _)]; [|lia]. cbn [spent] in C.
      split; [constructor; [exact NF|constructor]|]. split; [lia|].
      inversion A; subst; unfold room in *; cbn [main side flow] in *; try (unfold controls in LV; lia).
      * apply acts_flow in A; [|exact NF]. cbn [flow] in A. exfalso.
        match goal with X : effect _ _ _ |- _ => inversion X; subst end; unfold controls in LV; try lia;
        try (cbn [unary binary hashing shuffle In] in *; repeat match goal with X : _ \/ _ |- _ => destruct X as [X|X] end; try contradiction; try (match goal with X : (_, _) = (_, _) |- _ => injection X; intros end); lia).
        match goal with X : constant op = _ |- _ => unfold constant in X; destruct (op =? 79)%N eqn:E1; [lia|]; destruct ((81 <=? op) && (op <=? 96))%N eqn:E2; [lia|discriminate] end.
      * contradiction.
      * contradiction.
      * split; [lia|]. eexists. split; [reflexivity|]. left. split; [|reflexivity]. split; [reflexivity|]. cbn [op_code]. assumption.
      * split; [lia|]. eexists. split; [reflexivity|]. right; left. split; [split; reflexivity|eauto].
      * split; [lia|]. eexists. split; [reflexivity|]. right; right; left. split; [split; reflexivity|eauto].
    + cbn [op_code op_data]. apply CF in C. cbn [main side flow code spent] in C. destruct C as [(_ & -> & C)|(X & _)]; [|lia]. cbn [spent] in C.
      split; [constructor; [exact NF|constructor]|]. split; [lia|]. unfold room in *. cbn [main side] in *. split; [exact R|]. eexists. split; [reflexivity|].
      right; right; right. unfold controls in NC. unfold is_if, is_else, is_endif. cbn [op_data op_code]. split; [intros [_ Y]; lia|]. split; [intros [_ Y]; lia|]. split; [intros [_ Y]; lia|reflexivity].
  - intros (HL & L & R & fl' & -> & K). inversion HL as [|? ? H1 _]; subst. destruct o as [op [d|] x]; cbn [op_code op_data] in *.
    + assert (fl' = fl) as -> by (unfold is_if, is_else, is_endif in K; cbn [op_data] in K; destruct K as [([X _] & _)|[([X _] & _)|[([X _] & _)|(_ & _ & _ & X)]]]; [discriminate..|exact X]).
      pose proof (push_code _ _ SP eq_refl) as PC. cbn [op_code] in PC. destruct (96 <? op)%N eqn:E; [lia|].
      replace (n + (0 + 0))%Z with n by lia. apply (step_push_dead ecdsa t i rest op d x (Mach st si fl co n)); assumption.
    + assert (C : counts op (Mach st si fl co n) (Mach st si fl co (n + ((if (96 <? op)%N then 1 else 0) + 0)))) by (apply CF; left; cbn [spent main side flow code]; auto).
      unfold is_if, is_else, is_endif in K. cbn [op_code op_data] in K. destruct K as [([_ X] & ->)|[([_ X] & b & f & -> & ->)|[([_ X] & b & ->)|(K1 & K2 & K3 & ->)]]].
      * eapply step_op; [exact H1|exact C|right; unfold controls; lia|apply act_if_dead; assumption|exact R].
      * subst op. eapply step_op; [exact H1|exact C|right; unfold controls; lia|apply act_else|exact R].
      * subst op. eapply step_op; [exact H1|exact C|right; unfold controls; lia|apply act_endif|exact R].
      * assert (NC : ~ controls op).
        { intros NC. destruct (controls_kind op x H1 NC) as [[_ X]|[[_ X]|[_ X]]]; cbn [op_code] in X; intuition. }
        eapply step_op_dead; [exact H1|exact C|exact D|exact NC|exact R].
Qed.

Lemma passes_dead R A d : nested d A -> forall bs fl st si co n m1, Forall spelled A -> ~ live fl -> List.length bs = d -> (n <= 201)%Z ->
  passes ecdsa t i A R (Mach st si (bs ++ fl) co n) m1 <->
  harmless A /\ (n + counted A <= 201)%Z /\ (A = [] \/ room (Mach st si fl co n)) /\ m1 = Mach st si fl co (n + counted A).
Proof.
  assert (CE : forall o l, counted (o :: l) = (counted [o] + counted l)%Z) by (intros; cbn [counted]; lia).
  assert (HE : forall o l, harmless (o :: l) <-> harmless [o] /\ harmless l).
  { intros o l. unfold harmless. split; [intros H; inversion H; subst; split; [constructor; [assumption|constructor]|assumption]|intros [H1 H2]; inversion H1; subst; constructor; assumption]. }
  assert (RE : forall st si fl fl' co co' n n', room (Mach st si fl co n) <-> room (Mach st si fl' co' n')) by (intros; reflexivity).
  induction 1 as [|d o l K H IH|d o l K H IH|d o l K H IH|d o l K1 K2 K3 H IH]; intros bs fl st si co n m1 F D LB N201.
  - destruct bs; [|discriminate]. cbn [app counted]. replace (n + 0)%Z with n by lia. split; [intros P; inversion P; subst|intros (_ & _ & _ & ->); constructor].
    split; [constructor|]. split; [exact N201|]. split; [left; reflexivity|reflexivity].
  - inversion F as [|? ? SP F']; subst. rewrite CE, HE. destruct (kinds_apart o) as [KA KB]. pose proof (counted_nonneg l) as CN. split.
    + intros P. inversion P as [|? ? ? ? m2 ? S P']; subst. apply dead_step in S; [|exact SP|apply dead_app, D|exact N201].
      destruct S as (H1 & L & RM & fl' & -> & [(_ & ->)|[(K' & _)|[(K' & _)|(K' & _)]]]); [|exfalso; tauto..].
      change (false :: bs ++ fl) with ((false :: bs) ++ fl) in P'. apply IH in P'; [|exact F'|exact D|reflexivity|exact L]. destruct P' as (H2 & L2 & _ & ->).
      split; [auto|]. split; [lia|]. split; [right; exact RM|]. f_equal. lia.
    + intros ((H1 & H2) & L & [X|RM] & ->); [discriminate|]. econstructor.
      * apply dead_step; [exact SP|apply dead_app, D|exact N201|]. split; [exact H1|]. split; [lia|]. split; [exact RM|]. exists (false :: bs ++ fl). split; [reflexivity|]. left. auto.
      * change (false :: bs ++ fl) with ((false :: bs) ++ fl). apply IH; [exact F'|exact D|reflexivity|lia|]. split; [exact H2|]. split; [lia|]. split; [right; exact RM|f_equal; lia].
  - inversion F as [|? ? SP F']; subst. rewrite CE, HE. destruct (kinds_apart o) as [KA KB]. pose proof (counted_nonneg l) as CN. destruct bs as [|b bs]; [discriminate|]. split.
    + intros P. inversion P as [|? ? ? ? m2 ? S P']; subst. apply dead_step in S; [|exact SP|apply dead_app, D|exact N201].
      destruct S as (H1 & L & RM & fl' & -> & [(K' & _)|[(_ & b' & f & E1 & ->)|[(K' & _)|(_ & K' & _)]]]); [exfalso; tauto| |exfalso; tauto..].
      injection E1 as <- <-. change (negb b :: bs ++ fl) with ((negb b :: bs) ++ fl) in P'. apply IH in P'; [|exact F'|exact D|first [reflexivity|assumption]|exact L]. destruct P' as (H2 & L2 & _ & ->).
      split; [auto|]. split; [lia|]. split; [right; exact RM|]. f_equal. lia.
    + intros ((H1 & H2) & L & [X|RM] & ->); [discriminate|]. econstructor.
      * apply dead_step; [exact SP|apply dead_app, D|exact N201|]. split; [exact H1|]. split; [lia|]. split; [exact RM|]. exists (negb b :: bs ++ fl). split; [reflexivity|]. right; left. split; [exact K|]. eexists; eexists. split; reflexivity.
      * change (negb b :: bs ++ fl) with ((negb b :: bs) ++ fl). apply IH; [exact F'|exact D|first [reflexivity|assumption]|lia|]. split; [exact H2|]. split; [lia|]. split; [right; exact RM|f_equal; lia].
  - inversion F as [|? ? SP F']; subst. rewrite CE, HE. destruct (kinds_apart o) as [KA KB]. pose proof (counted_nonneg l) as CN. destruct bs as [|b bs]; [discriminate|]. injection LB as LB. split.
    + intros P. inversion P as [|? ? ? ? m2 ? S P']; subst. apply dead_step in S; [|exact SP|apply dead_app, D|exact N201].
      destruct S as (H1 & L & RM & fl' & -> & [(K' & _)|[(K' & _)|[(_ & b' & E1)|(_ & _ & K' & _)]]]); [exfalso; tauto..| |exfalso; tauto].
      injection E1 as _ <-. apply IH in P'; [|exact F'|exact D|first [reflexivity|assumption]|exact L]. destruct P' as (H2 & L2 & _ & ->).
      split; [auto|]. split; [lia|]. split; [right; exact RM|]. f_equal. lia.
    + intros ((H1 & H2) & L & [X|RM] & ->); [discriminate|]. econstructor.
      * apply dead_step; [exact SP|apply dead_app, D|exact N201|]. split; [exact H1|]. split; [lia|]. split; [exact RM|]. exists (bs ++ fl). split; [reflexivity|]. right; right; left. split; [exact K|]. exists b. reflexivity.
      * apply IH; [exact F'|exact D|first [reflexivity|assumption]|lia|]. split; [exact H2|]. split; [lia|]. split; [right; exact RM|f_equal; lia].
  - inversion F as [|? ? SP F']; subst. rewrite CE, HE. pose proof (counted_nonneg l) as CN. split.
    + intros P. inversion P as [|? ? ? ? m2 ? S P']; subst. apply dead_step in S; [|exact SP|apply dead_app, D|exact N201].
      destruct S as (H1 & L & RM & fl' & -> & [(K' & _)|[(K' & _)|[(K' & _)|(_ & _ & _ & ->)]]]); [exfalso; tauto..|].
      apply IH in P'; [|exact F'|exact D|reflexivity|exact L]. destruct P' as (H2 & L2 & _ & ->).
      split; [auto|]. split; [lia|]. split; [right; exact RM|]. f_equal. lia.
    + intros ((H1 & H2) & L & [X|RM] & ->); [discriminate|]. econstructor.
      * apply dead_step; [exact SP|apply dead_app, D|exact N201|]. split; [exact H1|]. split; [lia|]. split; [exact RM|]. exists (bs ++ fl). split; [reflexivity|]. right; right; right. auto.
      * apply IH; [exact F'|exact D|reflexivity|lia|]. split; [exact H2|]. split; [lia|]. split; [right; exact RM|f_equal; lia].
Qed.

Lemma live_true fl : live fl -> live (true :: fl).
Proof. clear ecdsa t i. intros L b [<-|J]; [reflexivity|apply L, J]. Qed.
Lemma dead_false fl : ~ live (false :: fl).
Proof. clear ecdsa t i. intros L. specialize (L false (or_introl eq_refl)). discriminate. Qed.

Lemma step_if_iff rest o a st si fl co n m' : is_if o -> live fl -> steps ecdsa t i rest o (Mach (a :: st) si fl co n) m' <->
  (n + 1 <= 201)%Z /\ room (Mach st si fl co n) /\ exists b, (b = true <-> taken o a) /\ m' = Mach st si (b :: fl) co (n + 1).
Proof.
  intros [OD OC] LV. destruct o as [op dd x]. cbn [op_data op_code] in *. subst dd. unfold taken. cbn [op_code].
  assert (CT : forall m m1, counts op m m1 <-> (spent m + 1 <= 201)%Z /\ m1 = Mach (main m) (side m) (flow m) (code m) (spent m + 1)).
  { intros m m1. unfold counts. destruct (96 <? op)%N eqn:E; [reflexivity|lia]. }
  split.
  - intros H. inversion H as [| |op' x' m m1 m'' NF C _ A R|op' x' m m'' NF C LV' _ R]; subst; [|cbn [flow] in LV'; contradiction].
    apply CT in C. cbn [main side flow code spent] in C. destruct C as [L ->]. split; [exact L|].
    inversion A; subst; unfold room in *; cbn [main side] in *; try lia.
    + exfalso. match goal with X : effect _ _ _ |- _ => inversion X; subst end; try lia;
        try (cbn [unary binary hashing shuffle In] in *; repeat match goal with X : _ \/ _ |- _ => destruct X as [X|X] end; try contradiction; try (match goal with X : (_, _) = (_, _) |- _ => injection X; intros end); lia).
      match goal with X : constant op = _ |- _ => unfold constant in X; destruct (op =? 79)%N eqn:E1; [lia|]; destruct ((81 <=? op) && (op <=? 96))%N eqn:E2; [lia|discriminate] end.
    + split; [exact R|]. eexists. split; [|reflexivity]. cbn. assumption.
    + split; [exact R|]. eexists. split; [|reflexivity]. cbn. assumption.
    + contradiction.
  - intros (L & R & b & B & ->). eapply (step_op ecdsa t i rest op x _ (Mach (a :: st) si fl co (n + 1))); [|apply CT; split; [exact L|reflexivity]|right; unfold controls; lia| |exact R].
    + unfold forbidden. cbn [In]. lia.
    + destruct OC as [-> | ->]; [apply act_if|apply act_notif]; assumption.
Qed.

Lemma step_else_iff rest o st si b fl co n m' : is_else o -> steps ecdsa t i rest o (Mach st si (b :: fl) co n) m' <->
  (n + 1 <= 201)%Z /\ room (Mach st si fl co n) /\ m' = Mach st si (negb b :: fl) co (n + 1).
Proof.
  intros [OD OC]. destruct o as [op dd x]. cbn [op_data op_code] in *. subst dd op. split.
  - intros H. inversion H as [| |op' x' m m1 m'' NF C _ A R|op' x' m m'' NF C LV' NC R]; subst; [|exfalso; apply NC; unfold controls; lia].
    unfold counts in C. change (96 <? 103)%N with true in C. cbv iota in C. destruct C as [L ->]. cbn [spent main side flow code] in *.
    apply acts_flow in A as AF; [|exact NF]. inversion A; subst; unfold room in *; cbn [main side flow] in *; try lia.
    + exfalso. destruct AF as [(X & _)|[(X & b' & f & E1 & E2)|[(X & _)|(X & _)]]]; [lia| |lia|apply X; unfold controls; lia].
      injection E1 as <- <-. injection E2 as E2. destruct b; discriminate.
    + auto.
  - intros (L & R & ->). eapply (step_op ecdsa t i rest 0x67 x _ (Mach st si (b :: fl) co (n + 1))); [unfold forbidden; cbn [In]; lia|split; [exact L|reflexivity]|right; unfold controls; lia|apply act_else|exact R].
Qed.

Lemma step_endif_iff rest o st si b fl co n m' : is_endif o -> steps ecdsa t i rest o (Mach st si (b :: fl) co n) m' <->
  (n + 1 <= 201)%Z /\ room (Mach st si fl co n) /\ m' = Mach st si fl co (n + 1).
Proof.
  intros [OD OC]. destruct o as [op dd x]. cbn [op_data op_code] in *. subst dd op. split.
  - intros H. inversion H as [| |op' x' m m1 m'' NF C _ A R|op' x' m m'' NF C LV' NC R]; subst; [|exfalso; apply NC; unfold controls; lia].
    unfold counts in C. change (96 <? 104)%N with true in C. cbv iota in C. destruct C as [L ->]. cbn [spent main side flow code] in *.
    apply acts_flow in A as AF; [|exact NF]. inversion A; subst; unfold room in *; cbn [main side flow] in *; try lia.
    + exfalso. destruct AF as [(X & _)|[(X & _)|[(X & b' & E1)|(X & _)]]]; [lia|lia| |apply X; unfold controls; lia].
      apply (f_equal (@List.length bool)) in E1. cbn [List.length] in E1. lia.
    + auto.
  - intros (L & R & ->). eapply (step_op ecdsa t i rest 0x68 x _ (Mach st si (b :: fl) co (n + 1))); [unfold forbidden; cbn [In]; lia|split; [exact L|reflexivity]|right; unfold controls; lia|apply act_endif|exact R].
Qed.

Lemma passes_cost A R m m' : passes ecdsa t i A R m m' -> Forall spelled A -> (spent m <= spent m')%Z /\ ((spent m <= 201)%Z -> (spent m' <= 201)%Z).
Proof.
  induction 1 as [|o l rest m m1 m2 S P IH]; intros F; [lia|]. inversion F; subst. specialize (IH ltac:(assumption)). apply steps_cost in S; [|assumption].
  unfold costs in S. destruct (96 <? op_code o)%N; lia.
Qed.

(** IF ... ELSE ... ENDIF executes one of its branches. *)
Lemma conditional o1 A o2 B o3 R a b st si fl co n m2 : is_if o1 -> is_else o2 -> is_endif o3 -> nested 0 A -> nested 0 B ->
  Forall spelled (A ++ B) -> live fl -> (n <= 201)%Z -> (b = true <-> taken o1 a) ->
  runs ecdsa t i (o1 :: A ++ o2 :: B ++ o3 :: R) (Mach (a :: st) si fl co n) m2 <->
  room (Mach st si fl co n) /\ harmless (if b then B else A) /\
  exists m1, passes ecdsa t i (if b then A else B) ((if b then o2 :: B else []) ++ o3 :: R) (Mach st si (true :: fl) co (if b then n + 1 else n + 2 + counted A)) m1 /\
    room m1 /\ (spent m1 + (if b then counted B + 2 else 1) <= 201)%Z /\
    runs ecdsa t i R (Mach (main m1) (side m1) fl (code m1) (spent m1 + (if b then counted B + 2 else 1))) m2.
Proof.
  intros K1 K2 K3 NA NB FS LV N201 TB. apply Forall_app in FS. destruct FS as [FA FB]. pose proof (counted_nonneg A) as CA. pose proof (counted_nonneg B) as CB.
  rewrite runs_cons_iff. destruct b.
  - split.
    + intros (m0 & S & H). apply (step_if_iff _ _ a) in S; [|assumption..]. destruct S as (L1 & R1 & b & TB' & ->). assert (b = true) as -> by (apply TB', TB; reflexivity).
      split; [exact R1|]. apply runs_passes in H. destruct H as (m1 & PA & H).
      assert (FL : flow m1 = true :: fl) by (refine (passes_flow _ _ A 0 NA [] (true :: fl) _ _ eq_refl PA); reflexivity).
      pose proof (passes_cost _ _ _ _ PA FA) as PC. cbn [spent] in PC. destruct PC as [PC1 PC2]. specialize (PC2 L1).
      destruct m1 as [st1 si1 fl1 co1 n1]. cbn [flow spent] in *. subst fl1.
      apply runs_cons_iff in H. destruct H as (m3 & S & H). apply step_else_iff in S; [|exact K2]. destruct S as (L2 & R2 & ->).
      apply runs_passes in H. destruct H as (m4 & PB & H).
      apply (passes_dead _ B 0 NB []) in PB; [|exact FB|apply dead_false|reflexivity|exact L2]. destruct PB as (HB & L3 & _ & ->).
      apply runs_cons_iff in H. destruct H as (m5 & S & H). apply step_endif_iff in S; [|exact K3]. destruct S as (L4 & R4 & ->).
      split; [exact HB|]. eexists. split; [exact PA|]. cbn [main side code spent]. split; [exact R2|]. split; [lia|].
      replace (n1 + (counted B + 2))%Z with (n1 + 1 + counted B + 1)%Z by lia. exact H.
    + intros (R1 & HB & m1 & PA & R2 & L & H).
      assert (FL : flow m1 = true :: fl) by (refine (passes_flow _ _ A 0 NA [] (true :: fl) _ _ eq_refl PA); reflexivity).
      pose proof (passes_cost _ _ _ _ PA FA) as PC. cbn [spent] in PC. destruct PC as [PC1 PC2].
      destruct m1 as [st1 si1 fl1 co1 n1]. cbn [flow spent main side code] in *. subst fl1.
      eexists. split; [apply step_if_iff; [assumption..|]|].
      { split; [lia|]. split; [exact R1|]. exists true. split; [exact TB|reflexivity]. }
      apply runs_passes. eexists. split; [exact PA|]. apply runs_cons_iff. eexists. split; [apply step_else_iff; [exact K2|]; split; [lia|]; split; [exact R2|reflexivity]|].
      apply runs_passes. eexists. split.
      { apply (passes_dead _ B 0 NB []); [exact FB|apply dead_false|reflexivity|lia|]. split; [exact HB|]. split; [lia|]. split; [right; exact R2|reflexivity]. }
      apply runs_cons_iff. eexists. split; [apply step_endif_iff; [exact K3|]; split; [lia|]; split; [exact R2|reflexivity]|].
      replace (n1 + 1 + counted B + 1)%Z with (n1 + (counted B + 2))%Z by lia. exact H.
  - split.
    + intros (m0 & S & H). apply (step_if_iff _ _ a) in S; [|assumption..]. destruct S as (L1 & R1 & b & TB' & ->).
      assert (b = false) as -> by (destruct b; [|reflexivity]; symmetry; apply TB, TB'; reflexivity).
      split; [exact R1|]. apply runs_passes in H. destruct H as (m1 & PA & H).
      apply (passes_dead _ A 0 NA []) in PA; [|exact FA|apply dead_false|reflexivity|exact L1]. destruct PA as (HA & L2 & _ & ->). split; [exact HA|].
      apply runs_cons_iff in H. destruct H as (m3 & S & H). apply step_else_iff in S; [|exact K2]. destruct S as (L3 & R3 & ->). cbn [negb] in H.
      apply runs_passes in H. destruct H as (m1 & PB & H).
      assert (FL : flow m1 = true :: fl) by (refine (passes_flow _ _ B 0 NB [] (true :: fl) _ _ eq_refl PB); reflexivity).
      destruct m1 as [st1 si1 fl1 co1 n1]. cbn [flow spent] in *. subst fl1.
      apply runs_cons_iff in H. destruct H as (m5 & S & H). apply step_endif_iff in S; [|exact K3]. destruct S as (L4 & R4 & ->).
      exists (Mach st1 si1 (true :: fl) co1 n1). cbn [app main side code spent]. replace (n + 2 + counted A)%Z with (n + 1 + counted A + 1)%Z by lia. split; [exact PB|].
      split; [exact R4|]. split; [lia|]. exact H.
    + intros (R1 & HA & m1 & PB & R2 & L & H).
      assert (FL : flow m1 = true :: fl) by (refine (passes_flow _ _ B 0 NB [] (true :: fl) _ _ eq_refl PB); reflexivity).
      pose proof (passes_cost _ _ _ _ PB FB) as PC. cbn [spent] in PC. destruct PC as [PC1 PC2].
      destruct m1 as [st1 si1 fl1 co1 n1]. cbn [flow spent main side code app] in *. subst fl1.
      eexists. split; [apply step_if_iff; [assumption..|]|].
      { split; [lia|]. split; [exact R1|]. exists false. split; [exact TB|reflexivity]. }
      apply runs_passes. eexists. split.
      { apply (passes_dead _ A 0 NA []); [exact FA|apply dead_false|reflexivity|lia|]. split; [exact HA|]. split; [lia|]. split; [right; exact R1|reflexivity]. }
      apply runs_cons_iff. eexists. split; [apply step_else_iff; [exact K2|]; split; [lia|]; split; [exact R1|reflexivity]|].
      cbn [negb]. apply runs_passes. eexists. split; [replace (n + 1 + counted A + 1)%Z with (n + 2 + counted A)%Z by lia; exact PB|].
      apply runs_cons_iff. eexists. split; [apply step_endif_iff; [exact K3|]; split; [lia|]; split; [exact R2|reflexivity]|]. exact H.
Qed.

Lemma conditional_evaluates o1 A o2 B o3 s a b st st' : reads_as s (o1 :: A ++ o2 :: B ++ [o3]) -> is_if o1 -> is_else o2 -> is_endif o3 -> nested 0 A -> nested 0 B ->
  (b = true <-> taken o1 a) ->
  evaluates ecdsa t i (a :: st) s st' <->
  (blen s <= 10000)%N /\ (List.length st <= 1000)%nat /\ harmless (if b then B else A) /\
  exists m1, passes ecdsa t i (if b then A else B) (if b then o2 :: B ++ [o3] else [o3]) (Mach st [] [true] (o1 :: A ++ o2 :: B ++ [o3]) (if b then 1 else 2 + counted A)) m1 /\
    main m1 = st' /\ room m1 /\ (spent m1 + (if b then counted B + 2 else 1) <= 201)%Z.
Proof.
  intros RA K1 K2 K3 NA NB TB.
  assert (FS : Forall spelled (A ++ B)).
  { destruct RA as [F _]. inversion F as [|? ? _ F1]; subst. apply Forall_app in F1. destruct F1 as [FA F1]. inversion F1 as [|? ? _ F2]; subst. apply Forall_app in F2. destruct F2 as [FB _]. apply Forall_app. auto. }
  assert (X : forall m2, runs ecdsa t i (o1 :: A ++ o2 :: B ++ [o3]) (Mach (a :: st) [] [] (o1 :: A ++ o2 :: B ++ [o3]) 0) m2 <-> _) by (intros m2; apply (conditional o1 A o2 B o3 [] a b); try assumption; [apply live_nil|lia]).
  assert (RS : (if b then o2 :: B ++ [o3] else [o3]) = ((if b then o2 :: B else []) ++ [o3])) by (destruct b; reflexivity). rewrite RS. clear RS.
  split.
  - intros E. pose proof E as (L & _). split; [exact L|]. apply (evaluates_ops _ _ _ _ RA L) in E. destruct E as (si & co & n & E). apply X in E.
    destruct E as (R1 & H & m1 & P & R2 & L2 & E). unfold room in R1. cbn [main side List.length] in R1. split; [lia|]. split; [exact H|].
    exists m1. split; [exact P|]. apply runs_nil_iff in E. injection E as E _ _ _. auto.
  - intros (L & L1 & H & m1 & P & <- & R2 & L2). apply (evaluates_ops _ _ _ _ RA L). do 3 eexists. apply X. split; [unfold room; cbn [main side List.length]; lia|]. split; [exact H|].
    exists m1. split; [exact P|]. split; [exact R2|]. split; [exact L2|]. apply runs_nil_iff. reflexivity.
Qed.

Lemma evaluates_nested st s st' ops : evaluates ecdsa t i st s st' -> reads_as s ops -> nested 0 ops.
Proof.
  intros E RA. pose proof E as (L & _). apply (evaluates_ops _ _ _ _ RA L) in E. destruct E as (si & co & n & E). apply runs_nested in E; [exact E|reflexivity].
Qed.

(** ** Pay to script hash *)

Definition p2sh_operations (h : bytes) : list operation := [Op 0xa9 None [xa9]; Op (blen h) (Some h) (short_push h); Op 0x87 None [x87]].
Lemma p2sh_reads h : List.length h = 20%nat -> reads_as (p2sh_script h) (p2sh_operations h).
Proof. clear ecdsa t i.
  intros L. split.
  - unfold p2sh_operations. assert (BL : (blen h <= 75)%N) by (unfold blen; lia).
    constructor; [apply (spelled_plain xa9); cbv; reflexivity|]. constructor; [apply short_spelled, BL|]. constructor; [apply (spelled_plain x87); cbv; reflexivity|]. constructor.
  - unfold p2sh_operations, text_of, p2sh_script, short_push. cbn [map concat op_text app]. assert (blen h = 20%N) as -> by (unfold blen; lia).
    change (Nb 20) with x14. reflexivity.
Qed.

Lemma p2sh_evaluates h st st' : List.length h = 20%nat -> smalls st -> (Z.of_nat (List.length st) < 2 ^ 31)%Z ->
  evaluates ecdsa t i st (p2sh_script h) st' <->
  exists a r v, st = a :: r /\ (Z.of_nat (List.length r) <= 999)%Z /\ verdict (ripemd160 (sha256 a) = h) v /\ st' = v :: r.
Proof.
  intros L SM L31. assert (BL : blen h = 20%N) by (unfold blen; lia).
  assert (E : (blen (p2sh_script h) <= 10000)%N) by (unfold p2sh_script, blen; rewrite !app_length; cbn [List.length]; lia).
  rewrite (evaluates_ops _ _ _ _ (p2sh_reads h L) E). unfold p2sh_operations at 1.
  assert (HASH : forall pk r, stack_op 0xa9 (pk :: r) = Some (Ok (ripemd160 (sha256 pk) :: r))) by reflexivity.
  assert (SM2 : forall a r, st = a :: r -> smalls (h :: ripemd160 (sha256 a) :: r)).
  { intros a r ->. destruct SM as [A B]. inversion B as [|? ? B1 B2]; subst. split; [cbn [List.length] in *; lia|]. constructor; [lia|]. constructor; [unfold blen; rewrite ripemd160_length; lia|]. assumption. }
  assert (EQ : forall a b r, stack_op 0x87 (b :: a :: r) = Some (Ok (of_bool (bytes_eqb b a) :: r))) by reflexivity.
  assert (VB : forall a, verdict (ripemd160 (sha256 a) = h) (of_bool (bytes_eqb h (ripemd160 (sha256 a))))).
  { intros a. unfold verdict. destruct (bytes_eqb h (ripemd160 (sha256 a))) eqn:X; [left; apply bytes_eqb_eq in X; auto|right; apply bytes_eqb_neq in X; auto]. }
  assert (VU : forall P v w, verdict P v -> verdict P w -> v = w).
  { unfold verdict. intros P v w [[A ->]|[A ->]] [[B ->]|[B ->]]; try reflexivity; contradiction. }
  split.
  - intros (si & co & n & R). apply runs_cons_iff in R. destruct R as (m2 & S2 & R).
    destruct st as [|a r].
    { eapply (step_stack_iff _ 0xa9) in S2; [|exact SM|unfold forbidden; cbn [In]; lia|reflexivity]. destruct S2 as (? & X & _). discriminate. }
    eapply (step_stack_iff _ 0xa9) in S2; [|exact SM|unfold forbidden; cbn [In]; lia|apply HASH]. destruct S2 as (x2 & X2 & (_ & M2) & R2). injection X2 as <-. cbn [List.length] in R2. subst m2.
    apply runs_cons_iff in R. destruct R as (m3 & S3 & R). apply step_push_iff in S3. destruct S3 as [_ ->].
    apply runs_cons_iff in R. destruct R as (m4 & S4 & R). apply runs_nil_iff in R. subst m4.
    eapply (step_stack_iff _ 0x87) in S4; [|apply SM2; reflexivity|unfold forbidden; cbn [In]; lia|apply EQ]. destruct S4 as (x4 & X4 & (_ & M4) & R4). injection X4 as <-. injection M4 as -> _ _ _.
    exists a, r. eexists. split; [reflexivity|]. split; [lia|]. split; [apply VB|reflexivity].
  - intros (a & r & v & -> & LR & V & ->). rewrite (VU _ _ _ V (VB a)). exists [], (p2sh_operations h), 2%Z.
    apply runs_cons_iff. eexists. split; [eapply (step_stack_iff _ 0xa9); [exact SM|unfold forbidden; cbn [In]; lia|apply HASH|]|].
    { eexists. split; [reflexivity|]. split; [split; [intros _; vm_compute; discriminate|reflexivity]|cbn [List.length]; lia]. }
    apply runs_cons_iff. eexists. split; [apply step_push_iff; split; [lia|reflexivity]|].
    apply runs_cons_iff. eexists. split; [|apply runs_nil_iff; reflexivity].
    eapply (step_stack_iff _ 0x87); [apply SM2; reflexivity|unfold forbidden; cbn [In]; lia|apply EQ|].
    eexists. split; [reflexivity|]. split; [split; [intros _; vm_compute; discriminate|reflexivity]|cbn [List.length]; lia].
Qed.

Lemma p2sh_unlocks h ss : List.length h = 20%nat ->
  unlocks ecdsa t i ss (p2sh_script h) <->
  exists inner r, evaluates ecdsa t i [] ss (inner :: r) /\ (Z.of_nat (List.length r) <= 999)%Z /\ ripemd160 (sha256 inner) = h.
Proof.
  intros L. assert (L31 : forall st, evaluates ecdsa t i [] ss st -> (Z.of_nat (List.length st) < 2 ^ 31)%Z).
  { intros st E. apply (evaluates_small _ _ _ 520) in E; [|lia|constructor|cbn [List.length]; lia]. destruct E as [F LE]. cbn [List.length] in LE. lia. }
  split.
  - intros (st1 & st2 & E1 & E2 & A). apply p2sh_evaluates in E2; [|exact L|eapply evaluates_smalls, E1|apply L31, E1].
    destruct E2 as (a & r & v & -> & LR & V & ->). apply (accepting_verdict _ _ _ V) in A. eauto.
  - intros (a & r & E1 & LR & EH). exists (a :: r), ([x01] :: r). split; [exact E1|].
    assert (V : verdict (ripemd160 (sha256 a) = h) [x01]) by (left; split; [exact EH|reflexivity]).
    split; [|apply (accepting_verdict _ _ _ V), EH]. apply p2sh_evaluates; [exact L|eapply evaluates_smalls, E1|apply L31, E1|]. eauto 10.
Qed.

Lemma p2sh_other a b h : a <> xa9 -> (a :: b) <> p2sh_script h.
Proof. clear ecdsa t i. unfold p2sh_script. cbn [app]. congruence. Qed.

Lemma short_pushes_only l : Forall (fun k => (blen k <= 75)%N) l -> pushes_only (concat (map short_push l)).
Proof. clear ecdsa t i.
  intros F. exists (push_ops l). split; [apply pushes_reads, F|]. unfold push_ops. apply Forall_forall. intros o O. apply in_map_iff in O. destruct O as (k & <- & K).
  cbn [op_code]. rewrite Forall_forall in F. specialize (F k K). cbv beta in F. lia.
Qed.
End Use.

Section Verify.
Context (ecdsa : bytes -> bytes -> bytes -> bool) (t : tx) (i : nat) (W : wf_tx t) (I : (i < List.length (t_vin t))%nat).

Lemma Verify_plain ss sc flags : (forall h, sc <> p2sh_script h) -> VerifyScript ecdsa ss sc t (Z.of_nat i) flags = Ok tt <-> unlocks ecdsa t i ss sc.
Proof.
  intros N. rewrite VerifyScript_iff by assumption. split; [tauto|]. intros U. split; [exact U|]. intros _ h _ E. contradiction (N h E).
Qed.

Lemma small_not_a9 m : (1 <= m <= 16)%nat -> small_number m <> xa9.
Proof. intros M E. apply (f_equal bN) in E. unfold small_number in E. rewrite bN_Nb, N.mod_small in E by lia. change (bN xa9) with 169%N in E. lia. Qed.

Lemma Verify_p2sh ss h flags : List.length h = 20%nat -> In EvalP2SH flags ->
  VerifyScript ecdsa ss (p2sh_script h) t (Z.of_nat i) flags = Ok tt <->
  pushes_only ss /\ exists inner rest st, evaluates ecdsa t i [] ss (inner :: rest) /\ (Z.of_nat (List.length rest) <= 999)%Z /\
    ripemd160 (sha256 inner) = h /\ evaluates ecdsa t i rest inner st /\ accepting st.
Proof.
  intros L F. rewrite VerifyScript_iff by assumption. rewrite p2sh_unlocks by exact L. split.
  - intros ((inner & r & E & LR & EH) & RD). destruct (RD F h L eq_refl) as (P & inner' & r' & st & E' & EV & A). split; [exact P|].
    pose proof (evaluates_fun0 ecdsa t i W I _ _ _ E E') as X. injection X as <- <-. eauto 10.
  - intros (P & inner & r & st & E & LR & EH & EV & A). split; [eauto|]. intros _ h' _ _. split; [exact P|]. eauto 8.
Qed.

Lemma evaluates_push_last l c d p st : Forall (fun k => (blen k <= 75)%N) l -> (List.length l <= 100)%nat -> spelled (Op c (Some d) p) -> (blen d <= 520)%N ->
  evaluates ecdsa t i [] (concat (map short_push l) ++ p) st <-> st = d :: rev l.
Proof.
  clear W I. intros F L SP D. pose proof (pushes_len l F) as PL.
  assert (PB : (List.length p <= 525)%nat).
  { unfold blen in D. inversion SP; subst; cbn [List.length]; rewrite ?app_length; try match goal with X : Grammar_Spec.le _ _ _ |- _ => destruct X end; lia. }
  assert (RA : reads_as (concat (map short_push l) ++ p) (push_ops l ++ [Op c (Some d) p])).
  { split; [apply Forall_app; split; [apply push_ops_spelled, F|constructor; [exact SP|constructor]]|]. unfold text_of. rewrite map_app, concat_app. fold (text_of (push_ops l)). rewrite push_ops_text. cbn [map concat op_text]. rewrite app_nil_r. reflexivity. }
  rewrite (evaluates_ops _ _ _ _ _ _ _ RA) by (unfold blen; rewrite app_length; lia).
  assert (F' : Forall (fun k => (blen k <= 520)%N) l) by (eapply Forall_impl; [|exact F]; cbv beta; lia).
  assert (X : forall co0 m, runs ecdsa t i (push_ops l ++ [Op c (Some d) p]) (Mach [] [] [] co0 0) m <-> m = Mach (d :: rev l) [] [] co0 0).
  { intros co0 m. unfold push_ops. rewrite runs_pushes by exact F'. rewrite app_nil_r, runs_cons_iff. split.
    - intros (m1 & S & R). apply step_push_iff in S. destruct S as [_ ->]. apply runs_nil_iff in R. exact R.
    - intros ->. eexists. split; [apply step_push_iff; split; [exact D|reflexivity]|apply runs_nil_iff; reflexivity]. }
  split; [intros (si & co & n & R); apply X in R; injection R as -> _ _ _; reflexivity|]. intros ->. do 3 eexists. apply X. reflexivity.
Qed.

Lemma Verify_p2sh_multisig m keys sigs h p flags : (1 <= m <= List.length keys)%nat -> (List.length keys <= 16)%nat -> Forall (fun k => (blen k <= 75)%N) keys ->
  Forall (fun k => (blen k <= 75)%N) sigs -> List.length sigs = m -> List.length h = 20%nat -> In EvalP2SH flags ->
  (blen (multisig_script m (List.length keys) keys) <= 520)%N -> shortest_push (multisig_script m (List.length keys) keys) p ->
  VerifyScript ecdsa (x00 :: concat (map short_push sigs) ++ p) (p2sh_script h) t (Z.of_nat i) flags = Ok tt <->
  ripemd160 (sha256 (multisig_script m (List.length keys) keys)) = h /\
  exists covered, keys_signed sigs keys covered /\ quorum ecdsa t i (multisig_script m (List.length keys) covered) sigs keys.
Proof.
  intros M N F G LS LH FL LR [(c & SP) _]. set (redeem := multisig_script m (List.length keys) keys) in *.
  assert (G' : Forall (fun k => (blen k <= 75)%N) ([] :: sigs)) by (constructor; [cbv; discriminate|exact G]).
  change (x00 :: concat (map short_push sigs) ++ p) with (concat (map short_push ([] :: sigs)) ++ p).
  assert (E : forall st, evaluates ecdsa t i [] (concat (map short_push ([] :: sigs)) ++ p) st <-> st = redeem :: rev sigs ++ [[]]).
  { intros st. apply (evaluates_push_last ([] :: sigs) c redeem p st G'); [cbn [List.length]; lia|exact SP|exact LR]. }
  rewrite Verify_p2sh by assumption.
  assert (SM : smalls (rev sigs ++ [[]])).
  { split; [rewrite app_length, rev_length; cbn [List.length]; lia|]. apply Forall_app. split; [apply Forall_rev; eapply Forall_impl; [|exact G]; cbv beta; lia|]. constructor; [cbv; reflexivity|constructor]. }
  split.
  - intros (_ & inner & rest & st & X & _ & EH & EV & A). apply E in X. injection X as -> ->. split; [exact EH|].
    apply multisig_evaluates in EV; [|assumption..]. destruct EV as (sigs' & extra & r & v & ES & LS' & _ & V & ->).
    apply app_inj_len in ES; [|rewrite !rev_length; lia]. destruct ES as [ES _]. apply (f_equal (@rev bytes)) in ES. rewrite !rev_involutive in ES. subst sigs'.
    apply (accepting_verdict _ _ _ V) in A. eexists. split; [reflexivity|exact A].
  - intros (EH & cov & -> & Q). split.
    + exists (push_ops ([] :: sigs) ++ [Op c (Some redeem) p]). split.
      * split; [apply Forall_app; split; [apply push_ops_spelled, G'|constructor; [exact SP|constructor]]|]. unfold text_of. rewrite map_app, concat_app. fold (text_of (push_ops ([] :: sigs))). rewrite push_ops_text. cbn [map concat op_text]. rewrite app_nil_r. reflexivity.
      * apply Forall_app. split; [|constructor; [|constructor]].
        -- apply Forall_forall. intros o O. apply in_map_iff in O. destruct O as (k & <- & K). cbn [op_code]. rewrite Forall_forall in G'. specialize (G' k K). cbv beta in G'. lia.
        -- pose proof (push_code _ _ SP eq_refl) as PC. cbn [op_code] in *. lia.
    + exists redeem, (rev sigs ++ [[]]), ([x01] :: []). split; [apply E; reflexivity|]. rewrite app_length, rev_length. cbn [List.length]. split; [lia|]. split; [exact EH|].
      match type of Q with quorum _ _ _ ?q _ _ => assert (V : verdict (quorum ecdsa t i q sigs keys) [x01]) by (left; split; [exact Q|reflexivity]) end.
      split; [|apply (accepting_verdict _ _ _ V), Q]. apply multisig_evaluates; [assumption..|].
      exists sigs, [], [], [x01]. rewrite app_length, rev_length. cbn [List.length]. split; [reflexivity|]. split; [exact LS|]. split; [lia|]. auto.
Qed.

Lemma Verify_p2pkh h sig pk flags : List.length h = 20%nat -> (blen sig <= 75)%N -> (blen pk <= 75)%N ->
  VerifyScript ecdsa (short_push sig ++ short_push pk) (p2pkh_script h) t (Z.of_nat i) flags = Ok tt <->
  ripemd160 (sha256 pk) = h /\ exists s, p2pkh_signed h sig s /\ signed_by ecdsa t i s pk sig.
Proof. intros L B1 B2. rewrite Verify_plain; [apply p2pkh_standard; assumption|]. intros h'. apply p2sh_other. discriminate. Qed.

Lemma Verify_p2pkh_any h ss flags : List.length h = 20%nat ->
  VerifyScript ecdsa ss (p2pkh_script h) t (Z.of_nat i) flags = Ok tt <->
  exists pk sig r s, evaluates ecdsa t i [] ss (pk :: sig :: r) /\ (Z.of_nat (List.length r) <= 997)%Z /\ ripemd160 (sha256 pk) = h /\
    p2pkh_signed h sig s /\ signed_by ecdsa t i s pk sig.
Proof. intros L. rewrite Verify_plain; [apply p2pkh_unlocks; assumption|]. intros h'. apply p2sh_other. discriminate. Qed.

Lemma Verify_multisig m keys sigs flags : (1 <= m <= List.length keys)%nat -> (List.length keys <= 16)%nat -> Forall (fun k => (blen k <= 75)%N) keys ->
  Forall (fun k => (blen k <= 75)%N) sigs -> List.length sigs = m ->
  VerifyScript ecdsa (x00 :: concat (map short_push sigs)) (multisig_script m (List.length keys) keys) t (Z.of_nat i) flags = Ok tt <->
  exists covered, keys_signed sigs keys covered /\ quorum ecdsa t i (multisig_script m (List.length keys) covered) sigs keys.
Proof. intros M N F G LS. rewrite Verify_plain; [apply multisig_standard; assumption|]. intros h'. apply p2sh_other, small_not_a9. lia. Qed.

Lemma Verify_multisig_any m keys ss flags : (1 <= m <= List.length keys)%nat -> (List.length keys <= 16)%nat -> Forall (fun k => (blen k <= 75)%N) keys ->
  VerifyScript ecdsa ss (multisig_script m (List.length keys) keys) t (Z.of_nat i) flags = Ok tt <->
  exists sigs extra r covered, evaluates ecdsa t i [] ss (rev sigs ++ extra :: r) /\ List.length sigs = m /\ (m + List.length r + List.length keys <= 997)%nat /\
    keys_signed sigs keys covered /\ quorum ecdsa t i (multisig_script m (List.length keys) covered) sigs keys.
Proof. intros M N F. rewrite Verify_plain; [apply multisig_unlocks; assumption|]. intros h'. apply p2sh_other, small_not_a9. lia. Qed.

End Verify.

Lemma counted_cost l : counted l = total_cost l.
Proof. induction l as [|o l IH]; [reflexivity|]. unfold total_cost in *. cbn [counted fold_right]. rewrite IH. reflexivity. Qed.

Lemma runs_harmless ecdsa t i ops m m' : runs ecdsa t i ops m m' -> harmless ops.
Proof.
  unfold harmless. induction 1 as [m|o rest m m1 m2 S R IH]; constructor; [|exact IH]. destruct S; cbn [op_data op_code]; assumption.
Qed.

Lemma evaluates_limits ecdsa t i B st s st' ops : (520 <= B < 2 ^ 32)%N -> small_els B st -> (Z.of_nat (List.length st) < 2 ^ 31)%Z ->
  evaluates ecdsa t i st s st' -> reads_as s ops ->
  (blen s <= 10000)%N /\ (counted ops <= 201)%Z /\ harmless ops /\ small_els B st'.
Proof.
  intros HB SM L E RA. pose proof E as (LS & _). split; [exact LS|]. split; [rewrite counted_cost; eapply evaluates_cost; eassumption|].
  split; [|eapply evaluates_small; eassumption]. apply (evaluates_ops _ _ _ _ _ _ _ RA LS) in E. destruct E as (si & co & n & E). eapply runs_harmless, E.
Qed.

Lemma VerifySignature_index ecdsa txFrom t i : VerifySignature ecdsa txFrom t i = Ok tt -> (0 <= i < Z.of_nat (List.length (t_vin t)))%Z.
Proof.
  unfold VerifySignature. destruct (i <? 0)%Z eqn:E0; cbn [bind]; [discriminate|]. destruct (Z.of_nat (List.length (t_vin t)) <=? i)%Z eqn:E1; cbn [bind]; [discriminate|]. lia.
Qed.

Lemma evaluates_any ecdsa t i st s st' : wf_tx t -> (i < List.length (t_vin t))%nat -> Forall (fun a => (blen a < 2 ^ 32)%N) st -> (Z.of_nat (List.length st) < 2 ^ 31)%Z ->
  EvalScript ecdsa st s t (Z.of_nat i) = Ok st' <-> evaluates ecdsa t i st s st'.
Proof. intros W I F L. apply (EvalScript_iff _ _ _ (2 ^ 32 - 1)); [exact W|exact I|lia| |exact L]. eapply Forall_impl; [|exact F]. cbv beta. lia. Qed.
