From Verif Require Import Base PySlice PySlice_Proofs Sha256 Tx_Model Tx_Spec Tx_Proofs Block_Model Net_Model
  Grammar_Spec Grammar_Proofs Wire_Proofs Net_Spec Net_Proofs.
From Coq Require Import ZifyBool ZifyNat ZifyN.
Local Open Scope string_scope.
Local Open Scope list_scope.

Lemma magic_start c : MESSAGE_START c = magic c.
Proof. destruct c; reflexivity. Qed.
Lemma magic_len c : List.length (magic c) = 4.
Proof. destruct c; reflexivity. Qed.
Lemma magic_inj c c' : magic c = magic c' -> c = c'.
Proof. destruct c, c'; intros H; reflexivity || discriminate H. Qed.
Lemma kind_command m : command m = str (kind m).
Proof. destruct m; reflexivity. Qed.
Lemma checksum_len b : List.length (checksum b) = 4.
Proof. unfold checksum. rewrite firstn_length, Hash_length. reflexivity. Qed.
Lemma kind_known m : In (kind m) known.
Proof. destruct m; cbn [kind known In]; tauto. Qed.

(** ** The table of messages *)

Definition entry_ok (e : bytes * (bytes -> result (msg * bytes))) : Prop :=
  forall s m r, snd e s = Ok (m, r) <-> fst e = str (kind m) /\ exists b, s = b ++ r /\ body_bytes m b.

Lemma wrap_ok {A} (mk : A -> msg) f g name : reads f g -> (forall a b, body_bytes (mk a) b <-> g a b) -> (forall a, str (kind (mk a)) = name) ->
  (forall m, str (kind m) = name -> exists a, m = mk a) -> entry_ok (name, wrap mk f).
Proof.
  intros R B K J s m r. cbn [fst snd]. unfold wrap. split.
  - intros H. destruct (f s) as [[a r']|] eqn:E; [|discriminate]. cbn [bind] in H. inversion H; subst. split; [symmetry; apply K|].
    apply R in E. destruct E as (b & -> & G). exists b. split; [reflexivity|]. apply B, G.
  - intros [N (b & -> & T)]. destruct (J m (eq_sym N)) as [a ->]. assert (f (b ++ r) = Ok (a, r)) as ->; [|reflexivity].
    apply R. exists b. split; [reflexivity|]. apply B, T.
Qed.
Lemma empty_ok m0 name : (forall b, body_bytes m0 b <-> b = []) -> str (kind m0) = name -> (forall m, str (kind m) = name -> m = m0) ->
  entry_ok (name, fun s => Ok (m0, s)).
Proof.
  intros B K J s m r. cbn [fst snd]. split.
  - intros H. inversion H; subst. split; [reflexivity|]. exists []. split; [reflexivity|]. apply B. reflexivity.
  - intros [N (b & -> & T)]. rewrite (J m (eq_sym N)) in *. apply B in T. subst b. reflexivity.
Qed.
Lemma str_inj a b : str a = str b -> a = b.
Proof.
  revert b. induction a as [|c a IH]; intros [|d b] H; try discriminate H; [reflexivity|]. cbn [str] in H. injection H as H1 H2. f_equal; [|apply IH, H2].
  apply (f_equal bN) in H1. rewrite !bN_Nb_small in H1 by apply N_ascii_bounded. rewrite <- (ascii_N_embedding c), <- (ascii_N_embedding d), H1. reflexivity.
Qed.
Ltac by_kind := let m := fresh "m" in let H := fresh "H" in intros m H; destruct m; try (vm_compute in H; discriminate H); eauto.

Lemma map_ok : Forall entry_ok messagemap.
Proof.
  unfold messagemap. repeat apply Forall_cons; [..|apply Forall_nil].
  - apply wrap_ok with (1 := version_reads); [reflexivity|reflexivity|by_kind].
  - apply empty_ok; [reflexivity|reflexivity|by_kind].
  - apply wrap_ok with (1 := counted_reads _ _ (address_reads true) (address_nonempty true)); [reflexivity|reflexivity|by_kind].
  - apply wrap_ok with (1 := alert_reads); [reflexivity|reflexivity|by_kind].
  - apply wrap_ok with (1 := counted_reads _ _ inv_reads inv_nonempty); [reflexivity|reflexivity|by_kind].
  - apply wrap_ok with (1 := counted_reads _ _ inv_reads inv_nonempty); [reflexivity|reflexivity|by_kind].
  - apply wrap_ok with (1 := locate_reads); [reflexivity|reflexivity|]. intros m H; destruct m; try (vm_compute in H; discriminate H). exists (l, hashstop). reflexivity.
  - apply wrap_ok with (1 := locate_reads); [reflexivity|reflexivity|]. intros m H; destruct m; try (vm_compute in H; discriminate H). exists (l, hashstop). reflexivity.
  - apply wrap_ok with (1 := counted_reads _ _ block_reads block_nonempty); [reflexivity|reflexivity|by_kind].
  - apply wrap_ok with (1 := tx_reads); [reflexivity|reflexivity|by_kind].
  - apply wrap_ok with (1 := block_reads); [reflexivity|reflexivity|by_kind].
  - apply empty_ok; [reflexivity|reflexivity|by_kind].
  - apply wrap_ok with (1 := nonce_reads); [reflexivity|reflexivity|by_kind].
  - apply wrap_ok with (1 := nonce_reads); [reflexivity|reflexivity|by_kind].
  - apply empty_ok; [reflexivity|reflexivity|by_kind].
Qed.

Lemma names_ok : map fst messagemap = map str known.
Proof. reflexivity. Qed.

Lemma lookup_some cmd f : lookup cmd = Some f -> entry_ok (cmd, f) /\ In cmd (map str known).
Proof.
  unfold lookup. destruct (find _ messagemap) as [[n g]|] eqn:E; [|discriminate]. intros H. inversion H; subst. apply find_some in E. destruct E as [I E].
  cbn [fst snd] in *. apply bytes_eqb_eq in E. subst. split; [|rewrite <- names_ok; exact (in_map fst _ _ I)].
  pose proof map_ok as M. rewrite Forall_forall in M. exact (M _ I).
Qed.
Lemma lookup_none cmd : lookup cmd = None <-> ~ In cmd (map str known).
Proof.
  unfold lookup. destruct (find _ messagemap) as [[n g]|] eqn:E.
  - split; [discriminate|]. intros N. exfalso. apply N. apply find_some in E. destruct E as [I E]. apply bytes_eqb_eq in E. cbn [fst] in E. subst.
    rewrite <- names_ok. exact (in_map fst _ _ I).
  - split; [|reflexivity]. intros _ I. rewrite <- names_ok in I. apply in_map_iff in I. destruct I as (e & <- & I). apply (find_none _ _ E) in I.
    cbv beta in I. assert (bytes_eqb (fst e) (fst e) = true) by (apply bytes_eqb_eq; reflexivity). congruence.
Qed.

(** ** Names and lengths *)

Lemma zero_iff x : (bN x =? 0)%N = true <-> x = x00.
Proof. rewrite N.eqb_eq. split; [intros H; apply bN_inj; exact H|intros ->; reflexivity]. Qed.

Lemma until_zero_iff cmd field : List.length field = 12 -> (until_zero field = cmd <-> named cmd field).
Proof.
  unfold named. intros L. assert (G : forall field cmd, until_zero field = cmd <-> ~ In x00 cmd /\ (field = cmd \/ exists junk, field = cmd ++ x00 :: junk)).
  { clear. induction field as [|x field IH]; intros cmd; cbn [until_zero].
    - split; [intros <-; split; [intros []|left; reflexivity]|]. intros [_ [E|[j E]]]; [exact E|]. destruct cmd; discriminate E.
    - destruct (bN x =? 0)%N eqn:Z.
      + apply zero_iff in Z. subst x. split; [intros <-; split; [intros []|right; exists field; reflexivity]|]. intros [N [E|[j E]]].
        * subst cmd. exfalso. apply N. left. reflexivity.
        * destruct cmd as [|y cmd]; [reflexivity|]. inversion E; subst. exfalso. apply N. left. reflexivity.
      + split.
        * intros <-. destruct (proj1 (IH _) eq_refl) as [N E]. split.
          -- intros [->|I]; [|exact (N I)]. assert ((bN x00 =? 0)%N = true) by (apply zero_iff; reflexivity). congruence.
          -- destruct E as [E|[j E]]; [left; congruence|right; exists j; cbn [app]; congruence].
        * intros [N [E|[j E]]].
          -- subst cmd. f_equal. apply IH. split; [intros I; apply N; right; exact I|left; reflexivity].
          -- destruct cmd as [|y cmd]; inversion E; subst.
             ++ assert ((bN x00 =? 0)%N = true) by (apply zero_iff; reflexivity). congruence.
             ++ f_equal. apply IH. split; [intros I; apply N; right; exact I|right; exists j; reflexivity]. }
  rewrite G. tauto.
Qed.

Definition stop (n len : Z) : Z := if (24 + n <? 0)%Z then Z.max (24 + n + len) 0 else Z.min (24 + n) len.
Definition part (n : Z) (more : bytes) : bytes := firstn (Z.to_nat (stop n (24 + Z.of_N (blen more)) - 24)) more.

Lemma body_slice hdr more n : List.length hdr = 24 -> py_slice (hdr ++ more) (Slice (Some 24%Z) (Some (24 + n)%Z) None) = Ok (part n more).
Proof.
  intros L. rewrite (py_slice_unit _ _ 24 (stop n (24 + Z.of_N (blen more)))).
  - unfold part. f_equal. f_equal. change (Z.to_nat 24) with 24. rewrite <- L. rewrite skipn_app, skipn_all, Nat.sub_diag. reflexivity.
  - unfold slice_indices. cbn [sl_start sl_stop sl_step]. cbn [Z.eqb Z.ltb Z.compare]. rewrite app_length, L. unfold adjust, stop, blen.
    replace (Z.of_nat (24 + List.length more)) with (24 + Z.of_N (N.of_nat (List.length more)))%Z by lia. cbn [Z.ltb Z.compare].
    do 3 f_equal. lia.
Qed.

Lemma covers_iff n tail body rest : covers n tail body rest <-> exists more, ser_read_int n tail = Ok (more, rest) /\ body = part n more.
Proof.
  unfold ser_read_int, part, stop. split.
  - intros [b r L M|t R|b cut R L|t R L].
    + destruct (n <? 0)%Z eqn:E; [lia|]. exists b. rewrite (ser_read_app (Z.to_N n) b r) by (unfold MAX_SIZE; lia). split; [reflexivity|].
      destruct (24 + n <? 0)%Z eqn:E2; [lia|]. rewrite Z.min_l by lia. rewrite firstn_all2; [reflexivity|]. unfold blen in L. lia.
    + destruct (n <? 0)%Z eqn:E; [|lia]. exists t. split; [reflexivity|]. destruct (24 + n <? 0)%Z eqn:E2; [lia|]. rewrite Z.min_l by lia.
      replace (Z.to_nat (24 + n - 24)) with 0 by lia. reflexivity.
    + destruct (n <? 0)%Z eqn:E; [|lia]. exists (b ++ cut). split; [reflexivity|]. destruct (24 + n <? 0)%Z eqn:E2; [|lia]. rewrite blen_app.
      rewrite Z.max_l by lia. rewrite firstn_app, firstn_all2 by (unfold blen in *; lia). match goal with |- context [firstn ?k cut] => replace k with 0 by (unfold blen in *; lia) end.
      cbn [firstn]. rewrite app_nil_r. reflexivity.
    + destruct (n <? 0)%Z eqn:E; [|lia]. exists t. split; [reflexivity|]. destruct (24 + n <? 0)%Z eqn:E2; [|lia].
      match goal with |- context [firstn ?k t] => replace k with 0 by lia end. reflexivity.
  - intros (more & R & ->). destruct (n <? 0)%Z eqn:E.
    + inversion R; subst. destruct (24 + n <? 0)%Z eqn:E2.
      * destruct (Z_lt_le_dec (Z.of_N (blen more)) (- n - 24)) as [C|C].
        -- match goal with |- context [firstn ?k more] => replace k with 0 by lia end. apply covers_short; [lia|exact C].
        -- set (k := Z.to_nat (Z.max (24 + n + (24 + Z.of_N (blen more))) 0 - 24)). rewrite <- (firstn_skipn k more) at 1. apply covers_cut; [lia|].
           unfold blen in *. rewrite skipn_length. subst k. lia.
      * match goal with |- context [firstn ?k more] => replace k with 0 by lia end. apply covers_none. lia.
    + apply ser_read_inv in R. destruct R as (-> & L & M). destruct (24 + n <? 0)%Z eqn:E2; [lia|]. rewrite Z.min_l by lia.
      rewrite firstn_all2 by (unfold blen in L; lia). apply covers_exact; [lia|]. unfold MAX_SIZE in M. lia.
Qed.

(** ** Opening a frame *)

Definition open_frame (c : chain) (s : bytes) : result ((bytes * bytes) * bytes) :=
  do (hdr, s) <- ser_read 24 s;
  if negb (bytes_eqb (firstn 4 hdr) (magic c)) then Err ValueError
  else
    let n := unpack_s 4 (firstn 4 (skipn 16 hdr)) in
    do (more, s) <- ser_read_int n s;
    if negb (bytes_eqb (firstn 4 (skipn 20 hdr)) (checksum (part n more))) then Err ValueError
    else Ok ((until_zero (firstn 12 (skipn 4 hdr)), part n more), s).

Definition decode (cmd body : bytes) : result (option msg) :=
  match lookup cmd with
  | Some f => do (m, _) <- f body; Ok (Some m)
  | None => if forallb (fun b => (bN b <? 128)%N) cmd then Ok None else Err UnicodeDecodeError
  end.

Lemma stream_eq c s : stream_deserialize c s = do (p, rest) <- open_frame c s; do x <- decode (fst p) (snd p); Ok (x, rest).
Proof.
  unfold stream_deserialize, open_frame. destruct (ser_read 24 s) as [[hdr s1]|] eqn:E; [|reflexivity]. cbn [bind]. rewrite magic_start.
  destruct (negb (bytes_eqb (firstn 4 hdr) (magic c))); [reflexivity|]. cbv zeta. destruct (ser_read_int _ s1) as [[more rest]|]; [|reflexivity]. cbn [bind].
  rewrite body_slice. 2: { apply read_fixed in E; [|lia]. apply E. }
  cbn [bind]. fold (checksum (part (unpack_s 4 (firstn 4 (skipn 16 hdr))) more)).
  destruct (negb _); [reflexivity|]. cbn [bind fst snd]. unfold decode. destruct (lookup _) as [f|].
  - destruct (f _) as [[m r]|]; reflexivity.
  - destruct (forallb _ _); reflexivity.
Qed.

Lemma app_split {A} (a b : list A) n : List.length a = n -> firstn n (a ++ b) = a /\ skipn n (a ++ b) = b.
Proof. intros <-. rewrite firstn_app, skipn_app, firstn_all, skipn_all, Nat.sub_diag. cbn [firstn skipn app]. rewrite app_nil_r. auto. Qed.

Lemma header_parts (hdr : bytes) : List.length hdr = 24 ->
  hdr = firstn 4 hdr ++ firstn 12 (skipn 4 hdr) ++ firstn 4 (skipn 16 hdr) ++ firstn 4 (skipn 20 hdr) /\
  List.length (firstn 12 (skipn 4 hdr)) = 12 /\ List.length (firstn 4 (skipn 16 hdr)) = 4.
Proof. intros T. do 24 (destruct hdr as [|? hdr]; [discriminate T|]). destruct hdr; [|discriminate T]. repeat split. Qed.

Lemma open_iff c s cmd body rest : open_frame c s = Ok ((cmd, body), rest) <-> received c cmd body s rest.
Proof.
  unfold open_frame. split.
  - intros H. take H hdr T. destruct (negb (bytes_eqb (firstn 4 hdr) (magic c))) eqn:M; [discriminate|]. apply negb_false_iff, bytes_eqb_eq in M.
    cbv zeta in H. set (n := unpack_s 4 (firstn 4 (skipn 16 hdr))) in *. destruct (ser_read_int n r) as [[more rest']|] eqn:R; [|discriminate]. cbn [bind] in H.
    destruct (negb _) eqn:C in H; [discriminate|]. apply negb_false_iff, bytes_eqb_eq in C. inversion H; subst cmd body rest'.
    destruct (header_parts hdr T) as (E & L1 & L2). rewrite M, C in E. rewrite E at 2. rewrite <- !app_assoc. apply received_intro with (n := n).
    + apply until_zero_iff; [exact L1|reflexivity].
    + apply les_of; [lia|exact L2].
    + apply covers_iff. exists more. auto.
  - intros [field len n tail r N L V]. apply covers_iff in V. destruct V as (more & R & ->). assert (Lf : List.length field = 12) by apply N. assert (Ln : List.length len = 4) by exact (proj1 (proj1 L)).
    pose proof (magic_len c) as Lm. pose proof (checksum_len (part n more)) as Lc. set (k := checksum (part n more)) in *. set (m := magic c) in *.
    assert (ser_read 24 (m ++ field ++ len ++ k ++ tail) = Ok (m ++ field ++ len ++ k, tail)) as ->.
    { apply read_fixed; [lia|]. rewrite <- !app_assoc. split; [reflexivity|]. rewrite !app_length. change (N.to_nat 24) with 24. lia. }
    cbn [bind]. destruct (app_split m (field ++ len ++ k) 4 Lm) as [-> S4]. rewrite bytes_eqb_refl. cbn [negb]. cbv zeta.
    assert (S16 : skipn 16 (m ++ field ++ len ++ k) = len ++ k).
    { rewrite app_assoc. apply (app_split (m ++ field) (len ++ k) 16). rewrite app_length. lia. }
    assert (S20 : skipn 20 (m ++ field ++ len ++ k) = k).
    { rewrite !app_assoc. apply (app_split ((m ++ field) ++ len) k 20). rewrite !app_length. lia. }
    rewrite S4, S16, S20. destruct (app_split len k 4 Ln) as [-> _]. rewrite (of_les 4 _ _ ltac:(lia) L). rewrite R. cbn [bind].
    rewrite firstn_all2 by lia. fold k. rewrite bytes_eqb_refl. cbn [negb]. destruct (app_split field (len ++ k) 12 Lf) as [-> _].
    apply until_zero_iff in N; [|exact Lf]. rewrite N. reflexivity.
Qed.

Lemma received_unique c s c1 b1 r1 c2 b2 r2 : received c c1 b1 s r1 -> received c c2 b2 s r2 -> c1 = c2 /\ b1 = b2 /\ r1 = r2.
Proof. rewrite <- !open_iff. intros H1 H2. rewrite H1 in H2. inversion H2. auto. Qed.

Lemma decode_some cmd body m : decode cmd body = Ok (Some m) <-> cmd = str (kind m) /\ exists b junk, body = b ++ junk /\ body_bytes m b.
Proof.
  unfold decode. destruct (lookup cmd) as [f|] eqn:L.
  - apply lookup_some in L. destruct L as [E _]. split.
    + intros H. destruct (f body) as [[m' r]|] eqn:F; [|discriminate]. cbn [bind] in H. inversion H; subst. apply E in F. cbn [fst] in F.
      destruct F as (-> & b & -> & B). split; [reflexivity|]. exists b, r. auto.
    + intros (-> & b & junk & -> & B). assert (f (b ++ junk) = Ok (m, junk)) as ->; [|reflexivity]. apply (E (b ++ junk) m junk). cbn [fst]. eauto.
  - split; [destruct (forallb _ _); discriminate|]. intros [-> _]. apply lookup_none in L. exfalso. apply L. apply in_map, kind_known.
Qed.
Lemma ascii_iff b : forallb (fun x => (bN x <? 128)%N) b = true <-> ascii_only b.
Proof. unfold ascii_only. rewrite forallb_forall, Forall_forall. split; intros H x I; specialize (H x I); lia. Qed.
Lemma decode_none cmd body : decode cmd body = Ok None <-> ~ In cmd (map str known) /\ ascii_only cmd.
Proof.
  unfold decode. rewrite <- ascii_iff, <- lookup_none. destruct (lookup cmd) as [f|]; [|destruct (forallb _ _); split; intros H; try reflexivity; try discriminate; destruct H; auto; discriminate].
  split; [destruct (f body) as [[m r]|]; discriminate|]. intros [H _]. discriminate H.
Qed.

Lemma stream_iff c s x rest : stream_deserialize c s = Ok (x, rest) <-> exists cmd body, received c cmd body s rest /\ decode cmd body = Ok x.
Proof.
  rewrite stream_eq. split.
  - intros H. destruct (open_frame c s) as [[[cmd body] r]|] eqn:O; [|discriminate]. cbn [bind fst snd] in H. destruct (decode cmd body) as [y|] eqn:D; [|discriminate]. cbn [bind] in H.
    inversion H; subst. apply open_iff in O. eauto.
  - intros (cmd & body & R & D). apply open_iff in R. rewrite R. cbn [bind fst snd]. rewrite D. reflexivity.
Qed.
