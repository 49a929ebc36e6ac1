From Verif Require Import Base Sha256 Tx_Model Tx_Spec.
From Verif Require Import Serialize_Spec.
From Coq Require Import ZifyBool ZifyNat ZifyN.
Ltac Zify.zify_post_hook ::= Z.div_mod_to_equations.

Lemma le_enc_length k n : List.length (le_enc k n) = k.
Proof. revert n; induction k as [|k IH]; intros n; cbn; [reflexivity|]. rewrite IH. reflexivity. Qed.

Lemma le_dec_enc k n : (n < 256 ^ N.of_nat k)%N -> le_dec (le_enc k n) = n.
Proof.
  revert n; induction k as [|k IH]; intros n H; cbn [le_enc le_dec]; [cbn in H; lia|].
  rewrite Nat2N.inj_succ, N.pow_succ_r' in H. rewrite IH by (apply N.div_lt_upper_bound; lia).
  rewrite bN_Nb_small by lia. lia.
Qed.

Lemma le_enc_dec b : le_enc (List.length b) (le_dec b) = b.
Proof.
  induction b as [|x b IH]; cbn [List.length le_enc le_dec]; [reflexivity|]. pose proof (bN_lt x).
  f_equal.
  - replace ((bN x + 256 * le_dec b) mod 256)%N with (bN x) by lia. apply Nb_bN.
  - replace ((bN x + 256 * le_dec b) / 256)%N with (le_dec b) by lia. exact IH.
Qed.

Lemma le_dec_lt b : (le_dec b < 256 ^ blen b)%N.
Proof.
  induction b as [|x b IH]; cbn [le_dec]; [reflexivity|]. rewrite blen_cons, N.pow_succ_r'.
  pose proof (bN_lt x). lia.
Qed.

Lemma pow_256 k : (256 ^ N.of_nat k)%N = Z.to_N (2 ^ (8 * Z.of_nat k)).
Proof.
  change 256%N with (2 ^ 8)%N. rewrite <- N.pow_mul_r. apply N2Z.inj. rewrite N2Z.inj_pow, Z2N.id by (apply Z.pow_nonneg; lia).
  f_equal. lia.
Qed.

Lemma pack_u_ok k v : (0 <= v < 2 ^ (8 * Z.of_nat k))%Z -> pack_u k v = Ok (le_enc k (Z.to_N v)) /\
  le_dec (le_enc k (Z.to_N v)) = Z.to_N v.
Proof.
  intros H. unfold pack_u. destruct (_ && _)%Z eqn:E; [|lia]. split; [reflexivity|].
  apply le_dec_enc. rewrite pow_256. lia.
Qed.

Lemma pack_u_inv k v b : pack_u k v = Ok b -> (0 <= v < 2 ^ (8 * Z.of_nat k))%Z /\ b = le_enc k (Z.to_N v).
Proof. unfold pack_u. destruct (_ && _)%Z eqn:E; [|discriminate]. intros H; inversion H. split; [lia|reflexivity]. Qed.

Lemma pack_s_ok k v : 0 < k -> (- 2 ^ (8 * Z.of_nat k - 1) <= v < 2 ^ (8 * Z.of_nat k - 1))%Z ->
  exists b, pack_s k v = Ok b /\ List.length b = k /\ unpack_s k b = v.
Proof.
  intros Hk H. unfold pack_s, unpack_s. set (h := (2 ^ (8 * Z.of_nat k - 1))%Z) in *.
  assert (Hh : (2 ^ (8 * Z.of_nat k) = 2 * h)%Z).
  { unfold h. replace (8 * Z.of_nat k)%Z with (Z.succ (8 * Z.of_nat k - 1)) at 1 by lia. rewrite Z.pow_succ_r by lia. reflexivity. }
  destruct (_ && _)%Z eqn:E; [|lia]. eexists. split; [reflexivity|]. split; [apply le_enc_length|].
  rewrite le_dec_enc by (rewrite pow_256, Hh; destruct (v <? 0)%Z eqn:E2; lia).
  destruct (v <? 0)%Z eqn:E2; rewrite Z2N.id by lia; destruct (h <=? _)%Z eqn:E3; lia.
Qed.

Lemma pack_s_inv k v b : pack_s k v = Ok b -> (- 2 ^ (8 * Z.of_nat k - 1) <= v < 2 ^ (8 * Z.of_nat k - 1))%Z.
Proof. unfold pack_s. destruct (_ && _)%Z eqn:E; [lia|discriminate]. Qed.

(** ** Readers *)

Lemma ser_read_app n a rest : n = blen a -> (n <= MAX_SIZE)%N -> ser_read n (a ++ rest) = Ok (a, rest).
Proof.
  intros -> H. unfold ser_read. destruct (MAX_SIZE <? _)%N eqn:E0; [lia|]. rewrite blen_app. destruct (blen a + _ <? _)%N eqn:E; [lia|].
  unfold blen. rewrite Nat2N.id, firstn_app, Nat.sub_diag, firstn_all, skipn_app, Nat.sub_diag, skipn_all.
  cbn. rewrite app_nil_r. reflexivity.
Qed.

Lemma ser_read_small n a rest : blen a = n -> (n <= 64)%N -> ser_read n (a ++ rest) = Ok (a, rest).
Proof. intros H1 H2. apply ser_read_app; [congruence|]. unfold MAX_SIZE. lia. Qed.
Ltac srd a := rewrite (ser_read_small _ a) by (unfold blen; rewrite ?le_enc_length; cbn; lia).

Lemma ser_read_inv n s a rest : ser_read n s = Ok (a, rest) -> s = a ++ rest /\ blen a = n /\ (n <= MAX_SIZE)%N.
Proof.
  unfold ser_read. destruct (MAX_SIZE <? n)%N eqn:E0; [discriminate|]. destruct (blen s <? _)%N eqn:E; [discriminate|].
  intros H; inversion H; subst. split; [symmetry; apply firstn_skipn|]. split; [|lia].
  unfold blen in *. rewrite firstn_length. lia.
Qed.

Lemma ser_read_trunc n s : (n <= MAX_SIZE)%N -> (blen s < n)%N -> ser_read n s = Err SerializationTruncationError.
Proof. intros H1 H2. unfold ser_read. destruct (MAX_SIZE <? n)%N eqn:E0; [lia|]. destruct (blen s <? _)%N eqn:E; [reflexivity|lia]. Qed.

(** A codec: what is written reads back, followed by anything. *)
Definition codec {A} (ser : A -> result bytes) (de : bytes -> result (A * bytes)) (wf : A -> Prop) : Prop :=
  forall a, wf a -> exists enc, ser a = Ok enc /\ forall rest, de (enc ++ rest) = Ok (a, rest).

(** A reader that consumes at least one byte. *)
Definition consumes {A} (de : bytes -> result (A * bytes)) : Prop :=
  forall s a rest, de s = Ok (a, rest) -> List.length rest < List.length s.

Lemma varint_codec i rest : (0 <= i < 2 ^ 64)%Z ->
  exists enc, varint_ser i = Ok enc /\ varint_de (enc ++ rest) = Ok (Z.to_N i, rest).
Proof.
  intros H. unfold varint_ser. destruct (i <? 0)%Z eqn:E0; [lia|].
  destruct (i <? 253)%Z eqn:E1.
  { eexists. split; [reflexivity|]. unfold varint_de. cbn [app].
    change (Nb (Z.to_N i) :: rest) with ([Nb (Z.to_N i)] ++ rest). srd [Nb (Z.to_N i)]. cbn [bind le_dec].
    rewrite bN_Nb_small by lia. replace (Z.to_N i + 256 * 0)%N with (Z.to_N i) by lia.
    destruct (Z.to_N i <? 253)%N eqn:E; [reflexivity|lia]. }
  destruct (i <=? 65535)%Z eqn:E2; [|destruct (i <=? 4294967295)%Z eqn:E3].
  - destruct (pack_u_ok 2 i) as [P D]; [change (2 ^ (8 * Z.of_nat 2))%Z with 65536%Z; lia|].
    rewrite P. cbn [bind]. eexists. split; [reflexivity|]. unfold varint_de. cbn [app].
    change (xfd :: le_enc 2 (Z.to_N i) ++ rest) with ([xfd] ++ (le_enc 2 (Z.to_N i) ++ rest)).
    srd [xfd]. cbn [bind]. change (le_dec [xfd]) with 253%N. cbn [N.ltb N.eqb N.compare Pos.compare Pos.compare_cont Pos.eqb].
    rewrite (ser_read_small 2) by (unfold blen; rewrite ?le_enc_length; cbn; lia). cbn [bind]. rewrite D. reflexivity.
  - destruct (pack_u_ok 4 i) as [P D]; [change (2 ^ (8 * Z.of_nat 4))%Z with 4294967296%Z; lia|].
    rewrite P. cbn [bind]. eexists. split; [reflexivity|]. unfold varint_de. cbn [app].
    change (xfe :: le_enc 4 (Z.to_N i) ++ rest) with ([xfe] ++ (le_enc 4 (Z.to_N i) ++ rest)).
    srd [xfe]. cbn [bind]. change (le_dec [xfe]) with 254%N. cbn [N.ltb N.eqb N.compare Pos.compare Pos.compare_cont Pos.eqb].
    rewrite (ser_read_small 4) by (unfold blen; rewrite ?le_enc_length; cbn; lia). cbn [bind]. rewrite D. reflexivity.
  - destruct (pack_u_ok 8 i) as [P D]; [change (2 ^ (8 * Z.of_nat 8))%Z with (2 ^ 64)%Z; lia|].
    rewrite P. cbn [bind]. eexists. split; [reflexivity|]. unfold varint_de. cbn [app].
    change (xff :: le_enc 8 (Z.to_N i) ++ rest) with ([xff] ++ (le_enc 8 (Z.to_N i) ++ rest)).
    srd [xff]. cbn [bind]. change (le_dec [xff]) with 255%N. cbn [N.ltb N.eqb N.compare Pos.compare Pos.compare_cont Pos.eqb].
    rewrite (ser_read_small 8) by (unfold blen; rewrite ?le_enc_length; cbn; lia). cbn [bind]. rewrite D. reflexivity.
Qed.

Lemma varint_ser_err i : varint_ser i = Err (if (i <? 0)%Z then ValueError else StructError) \/ (0 <= i < 2 ^ 64)%Z.
Proof.
  unfold varint_ser. destruct (i <? 0)%Z eqn:E0; [left; reflexivity|].
  destruct (Z_lt_le_dec i (2 ^ 64)); [right; lia|left].
  destruct (i <? 253)%Z eqn:E1; [lia|]. destruct (i <=? 65535)%Z eqn:E2; [lia|]. destruct (i <=? 4294967295)%Z eqn:E3; [lia|].
  unfold pack_u. destruct (_ && _)%Z eqn:E4; [|reflexivity]. change (2 ^ (8 * Z.of_nat 8))%Z with (2 ^ 64)%Z in E4. lia.
Qed.

Lemma bytes_codec : codec bytes_ser bytes_de wf_script.
Proof.
  intros b H. unfold wf_script, MAX_SIZE in H. unfold bytes_ser.
  destruct (varint_codec (Z.of_N (blen b)) []) as (enc & E & _); [lia|]. rewrite E. cbn [bind]. eexists. split; [reflexivity|].
  intros rest. unfold bytes_de. rewrite <- app_assoc.
  destruct (varint_codec (Z.of_N (blen b)) (b ++ rest)) as (enc' & E' & D); [lia|]. rewrite E in E'. inversion E'; subst enc'.
  rewrite D. cbn [bind]. apply ser_read_app; [lia|]. unfold MAX_SIZE. lia.
Qed.

Lemma objs_codec {A} (ser : A -> result bytes) de wf : codec ser de wf -> forall l, Forall wf l ->
  exists enc, objs_ser ser l = Ok enc /\ forall fuel rest, List.length l <= fuel ->
    objs_de de fuel (N.of_nat (List.length l)) (enc ++ rest) = Ok (l, rest).
Proof.
  intros HC l. induction l as [|a l IH]; intros HF.
  - exists []. split; [reflexivity|]. intros [|fuel] rest _; reflexivity.
  - inversion HF; subst. destruct (IH H2) as (r & R1 & R2). destruct (HC a H1) as (x & X1 & X2).
    exists (x ++ r). cbn [objs_ser]. rewrite X1. cbn [bind]. rewrite R1. cbn [bind]. split; [reflexivity|].
    intros fuel rest Hf. destruct fuel as [|fuel]; [cbn in Hf; lia|]. cbn [objs_de List.length].
    destruct (N.of_nat (S (List.length l)) =? 0)%N eqn:E; [lia|]. rewrite <- app_assoc, X2. cbn [bind].
    replace (N.of_nat (S (List.length l)) - 1)%N with (N.of_nat (List.length l)) by lia.
    rewrite R2 by (cbn in Hf; lia). reflexivity.
Qed.

Lemma codec_nonempty {A} (ser : A -> result bytes) de wf a enc : codec ser de wf -> consumes de -> wf a ->
  ser a = Ok enc -> enc <> [].
Proof.
  intros HC Hc Hw E ->. destruct (HC a Hw) as (enc & E' & D). rewrite E in E'. inversion E'; subst.
  specialize (D []). apply Hc in D. cbn in D. lia.
Qed.

Lemma objs_ser_len {A} (ser : A -> result bytes) de wf : codec ser de wf -> consumes de -> forall l enc, Forall wf l ->
  objs_ser ser l = Ok enc -> List.length l <= List.length enc.
Proof.
  intros HC Hc l. induction l as [|a l IH]; intros enc HF H; [cbn; lia|]. inversion HF; subst.
  cbn [objs_ser] in H. destruct (ser a) as [x|] eqn:E; [|discriminate]. cbn [bind] in H.
  destruct (objs_ser ser l) as [r|] eqn:E2; [|discriminate]. inversion H; subst. rewrite app_length.
  specialize (IH r H3 eq_refl). pose proof (codec_nonempty _ _ _ _ _ HC Hc H2 E) as Hn. destruct x; [congruence|]. cbn. lia.
Qed.

Lemma vector_codec {A} (ser : A -> result bytes) de wf : codec ser de wf -> consumes de ->
  codec (vector_ser ser) (vector_de de) (fun l => Forall wf l /\ (Z.of_nat (List.length l) < 2 ^ 64)%Z).
Proof.
  intros HC Hc l [HF HL]. unfold vector_ser, vector_de.
  destruct (varint_codec (Z.of_nat (List.length l)) []) as (n & N1 & _); [lia|]. rewrite N1. cbn [bind].
  destruct (objs_codec ser de wf HC l HF) as (enc & E1 & E2). rewrite E1. cbn [bind]. eexists. split; [reflexivity|].
  intros rest. rewrite <- app_assoc.
  destruct (varint_codec (Z.of_nat (List.length l)) (enc ++ rest)) as (n' & N1' & N2); [lia|]. rewrite N1 in N1'. inversion N1'; subst n'.
  rewrite N2. cbn [bind]. replace (Z.to_N (Z.of_nat (List.length l))) with (N.of_nat (List.length l)) by lia. apply E2.
  pose proof (objs_ser_len ser de wf HC Hc l enc HF E1). rewrite app_length. lia.
Qed.

(** ** Consumption, used for the fuel bound *)

Lemma ser_read_le n s a rest : ser_read n s = Ok (a, rest) -> List.length rest + N.to_nat n = List.length s.
Proof. intros H. apply ser_read_inv in H. destruct H as (-> & H & _). rewrite app_length. unfold blen in H. lia. Qed.

Ltac inv_bind H := match type of H with
  | bind ?r _ = Ok _ => let E := fresh "E" in destruct r as [[? ?]|] eqn:E; cbn [bind] in H; [|discriminate H]
  end.

Lemma varint_de_le s a rest : varint_de s = Ok (a, rest) -> List.length rest < List.length s.
Proof.
  unfold varint_de. intros H. inv_bind H. apply ser_read_le in E.
  destruct (_ <? _)%N; [inversion H; subst; lia|]. destruct (_ =? _)%N; [|destruct (_ =? _)%N]; inv_bind H; apply ser_read_le in E0; inversion H; subst; lia.
Qed.

Lemma bytes_de_le s a rest : bytes_de s = Ok (a, rest) -> List.length rest < List.length s.
Proof. unfold bytes_de. intros H. inv_bind H. apply varint_de_le in E. apply ser_read_le in H. lia. Qed.

Lemma outpoint_de_le s a rest : outpoint_de s = Ok (a, rest) -> List.length rest < List.length s.
Proof.
  unfold outpoint_de. intros H. inv_bind H. inv_bind H. apply ser_read_le in E, E0.
  destruct (outpoint_new _ _); [|discriminate]. inversion H; subst. lia.
Qed.

Lemma txin_consumes : consumes txin_de.
Proof.
  intros s a rest H. unfold txin_de in H. inv_bind H. inv_bind H. inv_bind H.
  apply outpoint_de_le in E. apply bytes_de_le in E0. apply ser_read_le in E1.
  destruct (txin_new _ _ _); [|discriminate]. inversion H; subst. lia.
Qed.

Lemma txout_consumes : consumes txout_de.
Proof.
  intros s a rest H. unfold txout_de in H. inv_bind H. inv_bind H.
  apply ser_read_le in E. apply bytes_de_le in E0. inversion H; subst. lia.
Qed.

Lemma objs_de_no_fuel {A} (de : bytes -> result (A * bytes)) : consumes de ->
  (forall s, de s <> Err OutOfFuel) -> forall fuel n s, List.length s < fuel -> objs_de de fuel n s <> Err OutOfFuel.
Proof.
  intros Hc Hd fuel. induction fuel as [|fuel IH]; intros n s Hf; [lia|]. cbn [objs_de].
  destruct (n =? 0)%N; [discriminate|]. destruct (de s) as [[a s']|e] eqn:E; cbn [bind].
  - apply Hc in E. specialize (IH (n - 1)%N s' ltac:(lia)). destruct (objs_de de fuel (n - 1) s') as [[? ?]|e]; cbn [bind]; congruence.
  - intros H. inversion H; subst. apply (Hd s). exact E.
Qed.

(** ** Transactions *)

Lemma outpoint_codec : codec outpoint_ser outpoint_de wf_outpoint.
Proof.
  intros [h n] [H1 H2]. cbn [o_hash o_n] in *. unfold outpoint_ser. cbn [o_hash o_n].
  destruct (blen h =? 32)%N eqn:E; [|unfold blen in E; lia]. cbn [assert bind].
  destruct (pack_u_ok 4 n) as [P D]; [change (2 ^ (8 * Z.of_nat 4))%Z with (2 ^ 32)%Z; lia|]. rewrite P. cbn [bind].
  eexists. split; [reflexivity|]. intros rest. unfold outpoint_de. rewrite <- app_assoc.
  rewrite (ser_read_small 32) by (unfold blen; lia). cbn [bind].
  rewrite (ser_read_small 4) by (unfold blen; rewrite ?le_enc_length; cbn; lia). cbn [bind]. rewrite D, Z2N.id by lia.
  unfold outpoint_new. rewrite E. cbn [negb]. destruct (_ && _)%Z eqn:E2; [reflexivity|lia].
Qed.

Lemma txin_codec : codec txin_ser txin_de wf_txin.
Proof.
  intros [p sc q] (H1 & H2 & H3). cbn [i_prevout i_scriptSig i_nSequence] in *. unfold txin_ser. cbn [i_prevout i_scriptSig i_nSequence].
  destruct (outpoint_codec p H1) as (e1 & S1 & D1). rewrite S1. cbn [bind].
  destruct (bytes_codec sc H2) as (e2 & S2 & D2). rewrite S2. cbn [bind].
  destruct (pack_u_ok 4 q) as [P D]; [change (2 ^ (8 * Z.of_nat 4))%Z with (2 ^ 32)%Z; lia|]. rewrite P. cbn [bind].
  eexists. split; [reflexivity|]. intros rest. unfold txin_de. rewrite <- !app_assoc, D1. cbn [bind]. rewrite D2. cbn [bind].
  rewrite (ser_read_small 4) by (unfold blen; rewrite ?le_enc_length; cbn; lia). cbn [bind]. rewrite D, Z2N.id by lia.
  unfold txin_new. destruct (_ && _)%Z eqn:E2; [reflexivity|lia].
Qed.

Lemma txout_codec : codec txout_ser txout_de wf_txout.
Proof.
  intros [v sc] (H1 & H2). cbn [o_nValue o_scriptPubKey] in *. unfold txout_ser. cbn [o_nValue o_scriptPubKey].
  destruct (pack_s_ok 8 v) as (b & P & L & D); [lia|change (2 ^ (8 * Z.of_nat 8 - 1))%Z with (2 ^ 63)%Z; lia|]. rewrite P. cbn [bind].
  destruct (bytes_codec sc H2) as (e2 & S2 & D2). rewrite S2. cbn [bind].
  eexists. split; [reflexivity|]. intros rest. unfold txout_de. rewrite <- !app_assoc.
  rewrite (ser_read_small 8) by (unfold blen; lia). cbn [bind]. rewrite D2. cbn [bind]. rewrite D. reflexivity.
Qed.

Lemma tx_codec : codec tx_ser tx_de wf_tx.
Proof.
  intros [vin vout l v] (H1 & H2 & H3 & H4 & H5 & H6). cbn [t_vin t_vout t_nLockTime t_nVersion] in *.
  unfold tx_ser. cbn [t_vin t_vout t_nLockTime t_nVersion].
  destruct (pack_s_ok 4 v) as (b & P & L & D); [lia|change (2 ^ (8 * Z.of_nat 4 - 1))%Z with (2 ^ 31)%Z; lia|]. rewrite P. cbn [bind].
  destruct (vector_codec _ _ _ txin_codec txin_consumes vin (conj H1 H3)) as (e1 & S1 & D1). rewrite S1. cbn [bind].
  destruct (vector_codec _ _ _ txout_codec txout_consumes vout (conj H2 H4)) as (e2 & S2 & D2). rewrite S2. cbn [bind].
  destruct (pack_u_ok 4 l) as [PL DL]; [change (2 ^ (8 * Z.of_nat 4))%Z with (2 ^ 32)%Z; lia|]. rewrite PL. cbn [bind].
  eexists. split; [reflexivity|]. intros rest. unfold tx_de. rewrite <- !app_assoc.
  rewrite (ser_read_small 4) by (unfold blen; lia). cbn [bind]. rewrite D1. cbn [bind]. rewrite D2. cbn [bind].
  rewrite (ser_read_small 4) by (unfold blen; rewrite ?le_enc_length; cbn; lia). cbn [bind]. rewrite DL, Z2N.id by lia. rewrite D.
  unfold tx_new. destruct (_ && _)%Z eqn:E2; [reflexivity|lia].
Qed.

Lemma codec_prefix_free {A} (ser : A -> result bytes) de wf a b ea eb r1 r2 : codec ser de wf -> wf a -> wf b ->
  ser a = Ok ea -> ser b = Ok eb -> ea ++ r1 = eb ++ r2 -> a = b /\ r1 = r2.
Proof.
  intros HC Ha Hb Ea Eb E. destruct (HC a Ha) as (ea' & Ea' & Da), (HC b Hb) as (eb' & Eb' & Db).
  rewrite Ea in Ea'. rewrite Eb in Eb'. inversion Ea'; inversion Eb'; subst ea' eb'.
  specialize (Da r1). specialize (Db r2). rewrite E in Da. rewrite Da in Db. inversion Db. auto.
Qed.

Lemma codec_injective {A} (ser : A -> result bytes) de wf a b enc : codec ser de wf -> wf a -> wf b ->
  ser a = Ok enc -> ser b = Ok enc -> a = b.
Proof. intros HC Ha Hb Ea Eb. eapply (codec_prefix_free ser de wf a b enc enc [] []); eauto. Qed.

(** ** Readers do not look beyond what they consume *)

Definition extends {A} (de : bytes -> result (A * bytes)) : Prop :=
  forall s a r t, de s = Ok (a, r) -> de (s ++ t) = Ok (a, r ++ t).

Lemma ser_read_extends n : extends (ser_read n).
Proof.
  intros s a r t H. apply ser_read_inv in H. destruct H as (-> & L & M). rewrite <- app_assoc. apply ser_read_app; [congruence|exact M].
Qed.

Ltac ext_step H := match type of H with
  | bind ?r _ = Ok _ => let E := fresh "E" in destruct r as [[? ?]|] eqn:E; cbn [bind] in H; [|discriminate H]
  end.

Lemma varint_extends : extends varint_de.
Proof.
  intros s a r t H. unfold varint_de in *. ext_step H. rewrite (ser_read_extends _ _ _ _ t E). cbn [bind].
  destruct (_ <? _)%N; [inversion H; subst; reflexivity|].
  destruct (_ =? _)%N; [|destruct (_ =? _)%N]; ext_step H; rewrite (ser_read_extends _ _ _ _ t E0); cbn [bind]; inversion H; subst; reflexivity.
Qed.

Lemma bytes_extends : extends bytes_de.
Proof. intros s a r t H. unfold bytes_de in *. ext_step H. rewrite (varint_extends _ _ _ t E). cbn [bind]. apply ser_read_extends, H. Qed.

Lemma objs_extends {A} (de : bytes -> result (A * bytes)) fuel fuel' n : extends de -> fuel <= fuel' ->
  forall s a r t, objs_de de fuel n s = Ok (a, r) -> objs_de de fuel' n (s ++ t) = Ok (a, r ++ t).
Proof.
  intros He. revert fuel' n. induction fuel as [|fuel IH]; intros fuel' n Hf s a r t H.
  - cbn [objs_de] in H. destruct (n =? 0)%N eqn:E; [|discriminate]. destruct fuel'; cbn [objs_de]; rewrite E; inversion H; subst; reflexivity.
  - destruct fuel' as [|fuel']; [lia|]. cbn [objs_de] in *. destruct (n =? 0)%N eqn:E; [inversion H; subst; reflexivity|].
    ext_step H. rewrite (He _ _ _ t E0). cbn [bind]. ext_step H. rewrite (IH fuel' (n - 1)%N ltac:(lia) _ _ _ t E1). cbn [bind].
    inversion H; subst; reflexivity.
Qed.

Lemma vector_extends {A} (de : bytes -> result (A * bytes)) : extends de -> extends (vector_de de).
Proof.
  intros He s a r t H. unfold vector_de in *. ext_step H. rewrite (varint_extends _ _ _ t E). cbn [bind].
  eapply objs_extends; [exact He| |exact H]. rewrite app_length. lia.
Qed.

Lemma outpoint_extends : extends outpoint_de.
Proof.
  intros s a r t H. unfold outpoint_de in *. ext_step H. rewrite (ser_read_extends _ _ _ _ t E). cbn [bind].
  ext_step H. rewrite (ser_read_extends _ _ _ _ t E0). cbn [bind]. destruct (outpoint_new _ _); [|discriminate]. inversion H; subst; reflexivity.
Qed.

Lemma txin_extends : extends txin_de.
Proof.
  intros s a r t H. unfold txin_de in *. ext_step H. rewrite (outpoint_extends _ _ _ t E). cbn [bind].
  ext_step H. rewrite (bytes_extends _ _ _ t E0). cbn [bind].
  ext_step H. rewrite (ser_read_extends _ _ _ _ t E1). cbn [bind]. destruct (txin_new _ _ _); [|discriminate]. inversion H; subst; reflexivity.
Qed.

Lemma txout_extends : extends txout_de.
Proof.
  intros s a r t H. unfold txout_de in *. ext_step H. rewrite (ser_read_extends _ _ _ _ t E). cbn [bind].
  ext_step H. rewrite (bytes_extends _ _ _ t E0). cbn [bind]. inversion H; subst; reflexivity.
Qed.

Lemma tx_extends : extends tx_de.
Proof.
  intros s a r t H. unfold tx_de in *. ext_step H. rewrite (ser_read_extends _ _ _ _ t E). cbn [bind].
  ext_step H. rewrite (vector_extends _ txin_extends _ _ _ t E0). cbn [bind].
  ext_step H. rewrite (vector_extends _ txout_extends _ _ _ t E1). cbn [bind].
  ext_step H. rewrite (ser_read_extends _ _ _ _ t E2). cbn [bind]. destruct (tx_new _ _ _ _); [|discriminate]. inversion H; subst; reflexivity.
Qed.

(** Round trip, rejection of trailing bytes and rejection of truncated input,
    from the two generic facts. *)
Lemma full_codec {A} (ser : A -> result bytes) de (wf : A -> Prop) : codec ser de wf -> extends de ->
  forall a, wf a -> exists enc, ser a = Ok enc /\
    (forall rest, de (enc ++ rest) = Ok (a, rest)) /\
    (forall pad, bdeserialize de pad enc = Ok a) /\
    (forall rest, rest <> [] -> bdeserialize de false (enc ++ rest) = Err DeserializationExtraDataError) /\
    (forall p q, enc = p ++ q -> q <> [] -> forall x, de p <> Ok x).
Proof.
  intros HC He a Ha. destruct (HC a Ha) as (enc & S1 & D). exists enc. split; [exact S1|]. split; [exact D|].
  split; [|split].
  - intros pad. unfold bdeserialize. specialize (D []). rewrite app_nil_r in D. rewrite D. cbn [bind]. destruct pad; reflexivity.
  - intros rest Hr. unfold bdeserialize. rewrite D. cbn [bind]. destruct rest; [congruence|reflexivity].
  - intros p q -> Hq [x r] Hx. apply (He _ _ _ q) in Hx. specialize (D []). rewrite app_nil_r in D. rewrite D in Hx.
    inversion Hx as [[H1 H2]]. symmetry in H2. apply app_eq_nil in H2. tauto.
Qed.

Lemma tx_hash_binds a b h : wf_tx a -> wf_tx b -> tx_GetHash a = Ok h -> tx_GetHash b = Ok h ->
  a = b \/ exists ea eb, tx_ser a = Ok ea /\ tx_ser b = Ok eb /\ ea <> eb /\ Hash ea = Hash eb.
Proof.
  intros Ha Hb. unfold tx_GetHash. destruct (tx_ser a) as [ea|] eqn:Ea; [|discriminate]. destruct (tx_ser b) as [eb|] eqn:Eb; [|discriminate].
  cbn [bind]. intros H1 H2. destruct (bytes_eq_dec ea eb) as [->|N].
  - left. eapply codec_injective; [exact tx_codec| | |exact Ea|exact Eb]; assumption.
  - right. exists ea, eb. repeat split; auto. congruence.
Qed.

(** Deserialized transactions are well formed. *)
Lemma unpack_s_range k b : 0 < k -> List.length b = k -> (- 2 ^ (8 * Z.of_nat k - 1) <= unpack_s k b < 2 ^ (8 * Z.of_nat k - 1))%Z.
Proof.
  intros Hk L. unfold unpack_s. pose proof (le_dec_lt b). unfold blen in H. rewrite L, pow_256 in H.
  set (h := (2 ^ (8 * Z.of_nat k - 1))%Z) in *.
  assert (Hh : (2 ^ (8 * Z.of_nat k) = 2 * h)%Z).
  { unfold h. rewrite <- Z.pow_succ_r by lia. f_equal. lia. }
  rewrite Hh in *. match goal with |- context[if ?c then _ else _] => destruct c eqn:E end; lia.
Qed.

Lemma outpoint_de_wf s a r : outpoint_de s = Ok (a, r) -> wf_outpoint a.
Proof.
  unfold outpoint_de. intros H. ext_step H. ext_step H. apply ser_read_inv in E, E0. destruct E as (_ & L1 & _), E0 as (_ & L2 & _).
  unfold outpoint_new in H. rewrite L1 in H. cbn [N.eqb Pos.eqb negb] in H.
  destruct (negb _) eqn:F2; [discriminate|]. inversion H; subst. split; cbn [o_hash o_n]; [unfold blen in *; lia|]. lia.
Qed.

Lemma bytes_de_wf s a r : bytes_de s = Ok (a, r) -> wf_script a.
Proof. unfold bytes_de. intros H. ext_step H. apply ser_read_inv in H. unfold wf_script. destruct H as (_ & -> & M). exact M. Qed.

Lemma txin_de_wf s a r : txin_de s = Ok (a, r) -> wf_txin a.
Proof.
  unfold txin_de. intros H. ext_step H. ext_step H. ext_step H. apply outpoint_de_wf in E. apply bytes_de_wf in E0.
  unfold txin_new in H. destruct (negb _) eqn:F2; [discriminate|]. inversion H; subst. repeat split; cbn; try apply E; try apply E0; lia.
Qed.

Lemma txout_de_wf s a r : txout_de s = Ok (a, r) -> wf_txout a.
Proof.
  unfold txout_de. intros H. ext_step H. ext_step H. apply ser_read_inv in E. apply bytes_de_wf in E0. destruct E as (_ & L & _).
  inversion H; subst. split; cbn [o_nValue o_scriptPubKey]; [|exact E0].
  change (2 ^ 63)%Z with (2 ^ (8 * Z.of_nat 8 - 1))%Z. apply unpack_s_range; [lia|]. unfold blen in L. lia.
Qed.

Lemma objs_de_wf {A} (de : bytes -> result (A * bytes)) (wf : A -> Prop) : (forall s a r, de s = Ok (a, r) -> wf a) ->
  forall fuel n s l r, objs_de de fuel n s = Ok (l, r) -> Forall wf l /\ N.of_nat (List.length l) = n.
Proof.
  intros Hw fuel. induction fuel as [|fuel IH]; intros n s l r H; cbn [objs_de] in H.
  - destruct (n =? 0)%N eqn:E; [|discriminate]. inversion H; subst. split; [constructor|cbn; lia].
  - destruct (n =? 0)%N eqn:E; [inversion H; subst; split; [constructor|cbn; lia]|].
    ext_step H. ext_step H. apply IH in E1. inversion H; subst. split; [constructor; [eapply Hw; eauto|tauto]|]. cbn [List.length]. lia.
Qed.

Lemma varint_de_range s n r : varint_de s = Ok (n, r) -> (n < 2 ^ 64)%N.
Proof.
  unfold varint_de. intros H. ext_step H. apply ser_read_inv in E. destruct E as (_ & L & _).
  pose proof (le_dec_lt b) as B0.
  destruct (_ <? _)%N eqn:F; [inversion H; subst; lia|].
  destruct (_ =? _)%N; [|destruct (_ =? _)%N]; ext_step H; apply ser_read_inv in E; destruct E as (_ & L2 & _); inversion H; subst;
    pose proof (le_dec_lt b1) as B; rewrite L2 in B; (eapply N.lt_le_trans; [exact B|]); vm_compute; discriminate.
Qed.

Lemma vector_de_wf {A} (de : bytes -> result (A * bytes)) (wf : A -> Prop) : (forall s a r, de s = Ok (a, r) -> wf a) ->
  forall s l r, vector_de de s = Ok (l, r) -> Forall wf l /\ (Z.of_nat (List.length l) < 2 ^ 64)%Z.
Proof.
  intros Hw s l r H. unfold vector_de in H. ext_step H. apply varint_de_range in E. apply (objs_de_wf de wf Hw) in H.
  split; [tauto|]. lia.
Qed.

Lemma tx_de_wf s a r : tx_de s = Ok (a, r) -> wf_tx a.
Proof.
  unfold tx_de. intros H. ext_step H. ext_step H. ext_step H. ext_step H.
  apply ser_read_inv in E. destruct E as (_ & L & _). apply (vector_de_wf _ _ txin_de_wf) in E0. apply (vector_de_wf _ _ txout_de_wf) in E1.
  unfold tx_new in H. destruct (negb _) eqn:F; [discriminate|]. inversion H; subst. unfold wf_tx. cbn [t_vin t_vout t_nLockTime t_nVersion].
  repeat split; try tauto; try lia; change (2 ^ 31)%Z with (2 ^ (8 * Z.of_nat 4 - 1))%Z; apply unpack_s_range; try lia; unfold blen in L; lia.
Qed.

Lemma varint_full i : (0 <= i < 2 ^ 64)%Z -> exists enc, varint_ser i = Ok enc /\
  forall rest, varint_de (enc ++ rest) = Ok (Z.to_N i, rest).
Proof.
  intros H. destruct (varint_codec i [] H) as (enc & E & _). exists enc. split; [exact E|]. intros rest.
  destruct (varint_codec i rest H) as (enc' & E' & D). congruence.
Qed.

Lemma varint_ser_err_observed i : ~ (0 <= i < 2 ^ 64)%Z -> varint_ser i = Err (if (i <? 0)%Z then ValueError else StructError).
Proof. intros H. destruct (varint_ser_err i); [assumption|tauto]. Qed.
