From Verif Require Import Base PySlice PySlice_Proofs Sha256 Tx_Model Tx_Spec Tx_Proofs Block_Model Block_Proofs Net_Model
  Grammar_Spec Grammar_Proofs Wire_Proofs Net_Spec Net_Proofs NetFrame_Proofs.
From Coq Require Import ZifyBool ZifyNat ZifyN.
Local Open Scope string_scope.
Local Open Scope list_scope.

(** ** Sending *)

Lemma kind_short m : List.length (str (kind m)) <= 12.
Proof. destruct m; vm_compute; lia. Qed.
Lemma kind_nozero m : ~ In x00 (str (kind m)).
Proof. intros H. assert (existsb (Byte.eqb x00) (str (kind m)) = true) as E by (apply existsb_exists; exists x00; split; [exact H|reflexivity]). destruct m; vm_compute in E; discriminate E. Qed.

Lemma sent other c m s : to_bytes other c m = Ok s <-> exists body, msg_ser other m = Ok body /\ frame c (kind m) body s.
Proof.
  unfold to_bytes. split.
  - intros H. destruct (msg_ser other m) as [body|]; [|discriminate]. cbn [bind] in H. destruct (pack_u 4 _) as [len|] eqn:L; [|discriminate]. cbn [bind] in H. injection H as <-.
    exists body. split; [reflexivity|]. rewrite magic_start, kind_command. apply (frame_intro c (kind m) body (repeat x00 (12 - List.length (str (kind m)))) len).
    + rewrite repeat_length. pose proof (kind_short m). lia.
    + apply Forall_forall. intros x I. symmetry. eapply repeat_spec, I.
    + apply pack_le, L.
  - intros (body & -> & [zeros len L Z Lb]). cbn [bind]. apply pack_le in Lb. rewrite Lb. cbn [bind]. rewrite magic_start, kind_command.
    replace (12 - List.length (str (kind m))) with (List.length zeros) by lia. replace zeros with (repeat x00 (List.length zeros)) at 2; [reflexivity|].
    clear -Z. induction Z as [|x l E Z IH]; [reflexivity|]. cbn. subst x. rewrite IH. reflexivity.
Qed.

Lemma frame_len c name body s : frame c name body s -> blen s = (24 + blen body)%N.
Proof. intros [zeros len L _ Lb]. unfold blen. rewrite !app_length, magic_len, checksum_len. destruct Lb as [Lb _]. lia. Qed.

Lemma frame_received c m body s rest : frame c (kind m) body s -> (blen body <= 0x02000000)%N -> received c (str (kind m)) body (s ++ rest) rest.
Proof.
  intros [zeros len L Z Lb] B. rewrite <- !app_assoc. rewrite (app_assoc (str _) zeros). apply received_intro with (n := Z.of_N (blen body)).
  - split; [apply kind_nozero|]. rewrite app_length. split; [exact L|]. destruct Z as [|x l E Z]; [left; apply app_nil_r|right; exists l; subst; reflexivity].
  - split; [|lia]. rewrite Z.mod_small by lia. exact Lb.
  - apply covers_exact; lia.
Qed.

Lemma sent_length other c m s : to_bytes other c m = Ok s -> exists body, msg_ser other m = Ok body /\ blen s = (24 + blen body)%N.
Proof. intros H. apply sent in H. destruct H as (body & B & F). exists body. split; [exact B|]. eapply frame_len, F. Qed.

(** What is sent for a faithful message is a frame with a shortest text of it. *)
Lemma sent_text other c m s : to_bytes other c m = Ok s -> faithful m -> (blen s <= 24 + 0x02000000)%N ->
  exists body, frame c (kind m) body s /\ body_bytes m body /\ forall b', body_bytes m b' -> List.length body <= List.length b'.
Proof.
  intros H F L. apply sent in H. destruct H as (body & B & Fr). exists body. split; [exact Fr|]. destruct (body_writes other) as [S T].
  rewrite (frame_len _ _ _ _ Fr) in L. split; [apply S; [exact F|exact B|unfold MAX_SIZE; lia]|].
  intros b' X. destruct (T _ _ F X) as (b & B' & Lb). rewrite B in B'. inversion B'; subst. exact Lb.
Qed.
Lemma text_sent other c m b : faithful m -> body_bytes m b -> (blen b < 2 ^ 32)%N -> exists s, to_bytes other c m = Ok s /\ (blen s <= 24 + blen b)%N.
Proof.
  intros F X L. destruct (body_writes other) as [_ T]. destruct (T _ _ F X) as (body & B & Lb). unfold to_bytes. rewrite B. cbn [bind].
  destruct (pack_u_ok 4 (Z.of_N (blen body))) as [P _]; [unfold blen in *; lia|]. rewrite P. cbn [bind]. eexists. split; [reflexivity|].
  rewrite magic_start, kind_command. fold (checksum body). pose proof (kind_short m). pose proof (magic_len c). pose proof (checksum_len body).
  unfold blen in *. rewrite !app_length, repeat_length, le_enc_length. lia.
Qed.
Lemma sendable other c m : faithful m ->
  ((exists s, to_bytes other c m = Ok s /\ (blen s <= 24 + 0x02000000)%N) <-> exists b, body_bytes m b /\ (blen b <= 0x02000000)%N).
Proof.
  intros F. split.
  - intros (s & H & L). destruct (sent_text _ _ _ _ H F L) as (b & Fr & X & _). exists b. split; [exact X|]. rewrite (frame_len _ _ _ _ Fr) in L. lia.
  - intros (b & X & L). destruct (text_sent other c m b F X) as (s & H & Ls); [lia|]. exists s. split; [exact H|lia].
Qed.

(** ** Receiving *)

Lemma accepts c s m rest : stream_deserialize c s = Ok (Some m, rest) <->
  exists body b junk, received c (str (kind m)) body s rest /\ body = b ++ junk /\ body_bytes m b.
Proof.
  rewrite stream_iff. split.
  - intros (cmd & body & R & D). apply decode_some in D. destruct D as (-> & b & junk & E & B). eauto 8.
  - intros (body & b & junk & R & E & B). exists (str (kind m)), body. split; [exact R|]. apply decode_some. eauto.
Qed.
Lemma ignores c s rest : stream_deserialize c s = Ok (None, rest) <->
  exists cmd body, received c cmd body s rest /\ ~ In cmd (map str known) /\ ascii_only cmd.
Proof.
  rewrite stream_iff. split; intros (cmd & body & R & D); exists cmd, body; (split; [exact R|]); [apply (proj1 (decode_none _ _) D)|apply (proj2 (decode_none _ _) D)].
Qed.
Lemma from_bytes_iff s x : from_bytes s = Ok x <-> exists rest, stream_deserialize Mainnet s = Ok (x, rest).
Proof.
  unfold from_bytes. destruct (stream_deserialize Mainnet s) as [[y r]|]; cbn [bind]; split.
  - intros H. inversion H; subst. eauto.
  - intros [r' H]. inversion H; reflexivity.
  - discriminate.
  - intros [r' H]. discriminate H.
Qed.

(** ** Round trip *)

Lemma received_faithful c s m rest : stream_deserialize c s = Ok (Some m, rest) -> (faithful m <-> current m).
Proof. intros H. apply accepts in H. destruct H as (body & b & junk & _ & _ & B). exact (body_faithful _ _ B). Qed.

Lemma sent_again other c m s rest : to_bytes other c m = Ok s -> stream_deserialize c (s ++ rest) = Ok (Some m, rest) -> current m.
Proof.
  intros T H. destruct m; cbn [current]; auto. apply accepts in H. destruct H as (body & b & junk & R & _ & B). cbn [body_bytes] in B.
  apply sent in T. destruct T as (bd & T & _). cbn [msg_ser] in T. unfold version_ser in T.
  destruct B as [n n0 w t a N V Ln Lw Lt A E1|n n0 w t a f fb c1 cb u ub N V Ln Lw Lt A E1 F E2 Lc E3 U E4|]; [| |assumption]; exfalso.
  - rewrite E1 in T. wrote T x1 X1. wrote T x2 X2. wrote T x3 X3. wrote T x4 X4. discriminate T.
  - rewrite E4 in T. wrote T x1 X1. wrote T x2 X2. wrote T x3 X3. wrote T x4 X4. wrote T x5 X5. wrote T x6 X6. wrote T x7 X7. discriminate T.
Qed.

Lemma round_trip other c m s : to_bytes other c m = Ok s -> (blen s <= 24 + 0x02000000)%N ->
  ((forall rest, stream_deserialize c (s ++ rest) = Ok (Some m, rest)) <-> faithful m).
Proof.
  intros H L. split.
  - intros R. specialize (R []). pose proof (sent_again _ _ _ _ _ H R) as C. apply (received_faithful _ _ _ _ R), C.
  - intros F rest. destruct (sent_text _ _ _ _ H F L) as (body & Fr & X & _). apply accepts. exists body, body, []. split; [|split; [symmetry; apply app_nil_r|exact X]].
    apply frame_received; [exact Fr|]. rewrite (frame_len _ _ _ _ Fr) in L. lia.
Qed.

Lemma too_long other c m s rest : to_bytes other c m = Ok s -> (24 + 0x02000000 < blen s < 24 + 2 ^ 31)%N ->
  stream_deserialize c (s ++ rest) = Err SerializationError.
Proof.
  intros H L. apply sent in H. destruct H as (body & B & Fr). rewrite (frame_len _ _ _ _ Fr) in L. destruct Fr as [zeros len Lz Z Lb].
  rewrite stream_eq. unfold open_frame. pose proof (magic_len c) as Lm. pose proof (checksum_len body) as Lc. pose proof (proj1 Lb) as Ll.
  set (k := checksum body) in *. set (f := str (kind m) ++ zeros). assert (Lf : List.length f = 12) by (unfold f; rewrite app_length; exact Lz).
  replace ((magic c ++ str (kind m) ++ zeros ++ len ++ k ++ body) ++ rest) with ((magic c ++ f ++ len ++ k) ++ (body ++ rest)) by (unfold f; rewrite <- !app_assoc; reflexivity).
  assert (ser_read 24 ((magic c ++ f ++ len ++ k) ++ body ++ rest) = Ok (magic c ++ f ++ len ++ k, body ++ rest)) as ->.
  { apply read_fixed; [lia|]. split; [reflexivity|]. rewrite !app_length. change (N.to_nat 24) with 24. lia. }
  cbn [bind]. destruct (app_split (magic c) (f ++ len ++ k) 4 Lm) as [-> _]. rewrite bytes_eqb_refl. cbn [negb]. cbv zeta.
  assert (S16 : skipn 16 (magic c ++ f ++ len ++ k) = len ++ k).
  { rewrite app_assoc. apply (app_split (magic c ++ f) (len ++ k) 16). rewrite app_length. lia. }
  rewrite S16. destruct (app_split len k 4 Ll) as [-> _].
  assert (unpack_s 4 len = Z.of_N (blen body)) as ->.
  { apply of_les; [lia|]. split; [|lia]. rewrite Z.mod_small by lia. exact Lb. }
  unfold ser_read_int, ser_read. destruct (Z.of_N (blen body) <? 0)%Z eqn:E; [lia|]. destruct (MAX_SIZE <? Z.to_N (Z.of_N (blen body)))%N eqn:E2; [reflexivity|unfold MAX_SIZE in E2; lia].
Qed.

Lemma streams other c ms : forall s rest, send other c ms = Ok s -> Forall faithful ms ->
  Forall (fun m => forall b, to_bytes other c m = Ok b -> (blen b <= 24 + 0x02000000)%N) ms ->
  receive c (List.length ms) (s ++ rest) = Ok (map Some ms, rest).
Proof.
  induction ms as [|m ms IH]; intros s rest H F L; cbn [send] in H; [inversion H; reflexivity|]. wrote H b B. wrote H r R. inversion H; subst. inversion F; subst. inversion L; subst.
  cbn [List.length receive map]. rewrite <- app_assoc. rewrite (proj2 (round_trip other c m b B (H4 b B)) H2). cbn [bind].
  rewrite (IH r rest eq_refl H3 H5). reflexivity.
Qed.

(** ** Sending again what was received *)

Lemma covers_len n tail body rest : covers n tail body rest -> List.length body <= List.length tail.
Proof. intros [b r L M|t R|b cut R L|t R L]; rewrite ?app_length; cbn [List.length]; lia. Qed.
Lemma received_len c cmd body s rest : received c cmd body s rest -> (24 + blen body <= blen s)%N.
Proof.
  intros [field len n tail r N L V]. apply covers_len in V. unfold blen. rewrite !app_length, magic_len, checksum_len. destruct N as (_ & -> & _). rewrite (proj1 (proj1 L)). lia.
Qed.

Lemma resend other c c' s m rest : stream_deserialize c s = Ok (Some m, rest) -> (blen s < 2 ^ 32)%N ->
  ((exists s', to_bytes other c' m = Ok s') <-> current m).
Proof.
  intros H L. apply accepts in H. destruct H as (body & b & junk & R & E & B). split.
  - intros [s' T]. destruct m; cbn [current]; auto. cbn [body_bytes] in B.
    apply sent in T. destruct T as (bd & T & _). cbn [msg_ser] in T. unfold version_ser in T.
    destruct B as [n n0 w t a N V Ln Lw Lt A E1|n n0 w t a f fb c1 cb u ub N V Ln Lw Lt A E1 F E2 Lc E3 U E4|]; [| |assumption]; exfalso.
    + rewrite E1 in T. wrote T x1 X1. wrote T x2 X2. wrote T x3 X3. wrote T x4 X4. discriminate T.
    + rewrite E4 in T. wrote T x1 X1. wrote T x2 X2. wrote T x3 X3. wrote T x4 X4. wrote T x5 X5. wrote T x6 X6. wrote T x7 X7. discriminate T.
  - intros C. apply (body_faithful _ _ B) in C. apply received_len in R. subst body. rewrite blen_app in R.
    destruct (text_sent other c' m b C B) as (s' & S & _); [lia|]. eauto.
Qed.

Lemma resend_shorter other c c' s m rest : stream_deserialize c s = Ok (Some m, rest) -> current m -> (blen s <= 24 + 0x02000000)%N ->
  exists s', to_bytes other c' m = Ok s' /\ (blen s' <= blen s)%N /\ forall rest', stream_deserialize c' (s' ++ rest') = Ok (Some m, rest').
Proof.
  intros H C L. apply accepts in H. destruct H as (body & b & junk & R & E & B). apply (body_faithful _ _ B) in C. apply received_len in R. subst body. rewrite blen_app in R.
  destruct (text_sent other c' m b C B) as (s' & S & Ls); [lia|]. exists s'. split; [exact S|]. split; [lia|]. apply (round_trip other c' m s' S); [lia|exact C].
Qed.

(** Old version messages: the exception. *)
Lemma resend_old other c c' s v rest : stream_deserialize c s = Ok (Some (MVersion v), rest) -> (n_nVersion v < 209)%Z ->
  to_bytes other c' (MVersion v) = Err (if (n_nVersion v <? 106)%Z then AttributeError else StructError).
Proof.
  intros H O. apply accepts in H. destruct H as (body & b & junk & R & E & B). cbn [body_bytes] in B. unfold to_bytes. cbn [msg_ser]. unfold version_ser.
  destruct (address_writes other false) as [_ TA]. destruct varstring_writes as [_ TU]. cbn [negb] in TA.
  assert (N4 : forall n0 n, announces n0 (n_nVersion v) -> le_signed 4 n0 n -> exists n', pack_s 4 (n_nVersion v) = Ok n').
  { intros n0 n [[-> ->]|[_ ->]] L; [eexists; reflexivity|]. exists n. apply pack_le_signed; [lia|exact L]. }
  destruct B as [n n0 w t a N V Ln Lw Lt A E1|n n0 w t a f fb c1 cb u ub N V Ln Lw Lt A E1 F E2 Lc E3 U E4|]; [| |lia].
  - destruct (N4 _ _ N Ln) as [n' ->]. cbn [bind]. apply pack_le in Lw. rewrite Lw. cbn [bind]. apply pack_le_signed in Lt; [|lia]. rewrite Lt. cbn [bind].
    destruct (TA _ _ (address_ok _ _ _ A) A) as (x & -> & _). cbn [bind]. rewrite E1. cbn [bind]. destruct (n_nVersion v <? 106)%Z eqn:Q; [reflexivity|lia].
  - destruct (N4 _ _ N Ln) as [n' ->]. cbn [bind]. apply pack_le in Lw. rewrite Lw. cbn [bind]. apply pack_le_signed in Lt; [|lia]. rewrite Lt. cbn [bind].
    destruct (TA _ _ (address_ok _ _ _ A) A) as (x & -> & _). cbn [bind]. rewrite E1. destruct (TA _ _ (address_ok _ _ _ F) F) as (y & -> & _). cbn [bind]. rewrite E2.
    apply pack_le in Lc. rewrite Lc. cbn [bind]. rewrite E3. destruct (TU _ _ I U) as (z & -> & _). cbn [bind]. rewrite E4. cbn [bind]. destruct (n_nVersion v <? 106)%Z eqn:Q; [lia|reflexivity].
Qed.

(** ** Headers that are refused, and lengths *)

Lemma open_header c field len sum tail : List.length field = 12 -> List.length len = 4 -> List.length sum = 4 -> forall c',
  open_frame c' (magic c ++ field ++ len ++ sum ++ tail) =
  if negb (bytes_eqb (magic c) (magic c')) then Err ValueError
  else do (more, s) <- ser_read_int (unpack_s 4 len) tail;
    if negb (bytes_eqb sum (checksum (part (unpack_s 4 len) more))) then Err ValueError
    else Ok ((until_zero field, part (unpack_s 4 len) more), s).
Proof.
  intros Lf Ll Ls c'. pose proof (magic_len c) as Lm. unfold open_frame.
  replace (magic c ++ field ++ len ++ sum ++ tail) with ((magic c ++ field ++ len ++ sum) ++ tail) by (rewrite <- !app_assoc; reflexivity).
  assert (ser_read 24 ((magic c ++ field ++ len ++ sum) ++ tail) = Ok (magic c ++ field ++ len ++ sum, tail)) as ->.
  { apply read_fixed; [lia|]. split; [reflexivity|]. rewrite !app_length. change (N.to_nat 24) with 24. lia. }
  cbn [bind]. destruct (app_split (magic c) (field ++ len ++ sum) 4 Lm) as [-> S4]. destruct (negb _); [reflexivity|]. cbv zeta.
  assert (S16 : skipn 16 (magic c ++ field ++ len ++ sum) = len ++ sum).
  { rewrite app_assoc. apply (app_split (magic c ++ field) (len ++ sum) 16). rewrite app_length. lia. }
  assert (S20 : skipn 20 (magic c ++ field ++ len ++ sum) = sum).
  { rewrite !app_assoc. apply (app_split ((magic c ++ field) ++ len) sum 20). rewrite !app_length. lia. }
  rewrite S4, S16, S20. destruct (app_split len sum 4 Ll) as [-> _], (app_split field (len ++ sum) 12 Lf) as [-> _]. rewrite (firstn_all2 sum) by lia. reflexivity.
Qed.

Lemma other_network other c c' m s rest : to_bytes other c m = Ok s -> c' <> c -> stream_deserialize c' (s ++ rest) = Err ValueError.
Proof.
  intros H N. apply sent in H. destruct H as (body & B & [zeros len L Z Lb]). rewrite stream_eq, <- !app_assoc, (app_assoc (str _) zeros).
  rewrite open_header; [|rewrite app_length; exact L|exact (proj1 Lb)|apply checksum_len].
  destruct (bytes_eqb (magic c) (magic c')) eqn:E; [|reflexivity]. apply bytes_eqb_eq, magic_inj in E. congruence.
Qed.

Lemma bad_checksum c field len sum body rest : List.length field = 12 -> le 4 (Z.of_N (blen body)) len -> List.length sum = 4 -> (blen body <= 0x02000000)%N ->
  sum <> checksum body -> stream_deserialize c (magic c ++ field ++ len ++ sum ++ body ++ rest) = Err ValueError.
Proof.
  intros Lf Ll Ls Lb N. rewrite stream_eq, open_header; [|exact Lf|exact (proj1 Ll)|exact Ls]. rewrite bytes_eqb_refl. cbn [negb].
  assert (unpack_s 4 len = Z.of_N (blen body)) as ->.
  { apply of_les; [lia|]. split; [|lia]. rewrite Z.mod_small by lia. exact Ll. }
  assert (V : covers (Z.of_N (blen body)) (body ++ rest) body rest) by (apply covers_exact; lia). apply covers_iff in V. destruct V as (more & R & P). rewrite R. cbn [bind]. rewrite <- P.
  destruct (bytes_eqb sum (checksum body)) eqn:E; [apply bytes_eqb_eq in E; contradiction|]. reflexivity.
Qed.

(** A length of -1 takes the rest of the stream, whatever it is. *)
Definition swallow (c : chain) : bytes := magic c ++ str "verack" ++ repeat x00 6 ++ repeat xff 4 ++ checksum [].
Lemma swallows c junk : stream_deserialize c (swallow c ++ junk) = Ok (Some MVerack, []).
Proof.
  apply accepts. exists [], [], []. unfold swallow. rewrite <- !app_assoc. rewrite (app_assoc (str "verack")). split; [|split; reflexivity].
  apply received_intro with (n := (-1)%Z).
  - split; [apply (kind_nozero MVerack)|]. split; [reflexivity|]. right. exists (repeat x00 5). reflexivity.
  - split; [split; reflexivity|lia].
  - apply covers_none. lia.
Qed.

(** With a length that is not negative: exactly that much is taken, the rest does not matter. *)
Lemma takes c s x rest len : stream_deserialize c s = Ok (x, rest) -> firstn 4 (skipn 16 s) = len -> (0 <= unpack_s 4 len)%Z ->
  exists used, s = used ++ rest /\ Z.of_N (blen used) = (24 + unpack_s 4 len)%Z /\ (unpack_s 4 len <= 0x02000000)%Z /\
  forall rest', stream_deserialize c (used ++ rest') = Ok (x, rest').
Proof.
  intros H F P. apply stream_iff in H. destruct H as (cmd & body & R & D). destruct R as [field ln n tail r N L V].
  assert (ln = len).
  { rewrite <- F. rewrite app_assoc. assert (skipn 16 ((magic c ++ field) ++ ln ++ checksum body ++ tail) = ln ++ checksum body ++ tail) as ->.
    { apply (app_split _ _ 16). rewrite app_length, magic_len. destruct N as (_ & -> & _). reflexivity. }
    symmetry. apply (app_split ln). exact (proj1 (proj1 L)). }
  subst ln. pose proof (of_les 4 _ _ ltac:(lia) L) as U. rewrite U in *. destruct V as [b r Lb M|t R|b cut R Lb|t R Lb]; try lia.
  exists (magic c ++ field ++ len ++ checksum b ++ b). rewrite <- !app_assoc. split; [reflexivity|]. split.
  { unfold blen in *. rewrite !app_length, magic_len, checksum_len, (proj1 (proj1 L)). destruct N as (_ & -> & _). lia. }
  split; [exact M|]. intros rest'. rewrite <- !app_assoc. apply stream_iff. exists cmd, b. split; [|exact D]. apply received_intro with (n := n); [exact N|exact L|]. apply covers_exact; lia.
Qed.
