(** What the serializers write is a text of the grammar in Grammar_Spec. *)
From Verif Require Import Base Tx_Model Tx_Spec Tx_Proofs Grammar_Spec Grammar_Proofs.
From Coq Require Import ZifyBool ZifyNat ZifyN.

Lemma pack_le k v b : pack_u k v = Ok b <-> le k v b.
Proof.
  split.
  - intros H. apply pack_u_inv in H. destruct H as [R ->]. destruct (pack_u_ok k v R) as [_ D].
    split; [apply le_enc_length|]. rewrite little_dec, D. lia.
  - intros H. pose proof (le_bound _ _ _ H) as R. destruct (pack_u_ok k v R) as [-> _]. f_equal. destruct H as [L V].
    rewrite <- V, little_dec, N2Z.id, <- L. apply le_enc_dec.
Qed.

Lemma le_fun k v b b' : le k v b -> le k v b' -> b = b'.
Proof. rewrite <- !pack_le. congruence. Qed.
Lemma le_exists k v : (0 <= v < 2 ^ (8 * Z.of_nat k))%Z -> exists b, le k v b.
Proof. intros H. destruct (pack_u_ok k v H) as [P _]. eexists. apply pack_le. exact P. Qed.

Lemma pack_le_signed k v b : 0 < k -> (pack_s k v = Ok b <-> le_signed k v b).
Proof.
  intros K. rewrite le_signed_iff by exact K. split.
  - intros H. destruct (pack_s_ok k v K (pack_s_inv _ _ _ H)) as (b' & B & L & U). rewrite H in B. injection B as ->. auto.
  - intros H. assert (S := proj2 (le_signed_iff k v b K) H). destruct S as [S B].
    assert (E : (2 ^ (8 * Z.of_nat k) = 2 * 2 ^ (8 * Z.of_nat k - 1))%Z) by (rewrite <- Z.pow_succ_r by lia; f_equal; lia).
    destruct (pack_s_ok k v K ltac:(lia)) as (b' & P & L' & U'). rewrite P. f_equal.
    assert (S' := proj2 (le_signed_iff k v b' K) (conj L' U')). destruct S' as [S' _]. exact (le_fun _ _ _ _ S' S).
Qed.

Lemma varint_count i b : varint_ser i = Ok b -> count i b.
Proof.
  unfold varint_ser. destruct (i <? 0)%Z eqn:E0; [discriminate|]. destruct (i <? 253)%Z eqn:E1.
  { intros H. injection H as <-. constructor; [|lia]. rewrite bN_Nb_small by lia. lia. }
  destruct (i <=? 65535)%Z eqn:E2; [|destruct (i <=? 4294967295)%Z eqn:E3].
  all: match goal with |- context [pack_u ?k ?v] => destruct (pack_u k v) as [p|] eqn:P end; [|discriminate]; cbn [bind]; intros H; injection H as <-; apply pack_le in P; constructor; exact P.
Qed.
(** A count is written exactly when it fits eight bytes. *)
Lemma varint_ok i : (0 <= i < 2 ^ 64)%Z <-> exists b, varint_ser i = Ok b.
Proof.
  split.
  - intros H. destruct (varint_codec i [] H) as (e & E & _). eauto.
  - intros (b & B). destruct (varint_ser_err i) as [E|E]; [rewrite E in B; discriminate|exact E].
Qed.
(** No count is shorter than the one written. *)
Lemma varint_shortest i b c : varint_ser i = Ok b -> count i c -> List.length b <= List.length c.
Proof.
  intros H C. unfold varint_ser in H. destruct (i <? 0)%Z eqn:E0; [discriminate|]. destruct (i <? 253)%Z eqn:E1.
  { injection H as <-. destruct C; cbn; lia. }
  destruct (i <=? 65535)%Z eqn:E2; [|destruct (i <=? 4294967295)%Z eqn:E3].
  all: match type of H with context [pack_u ?k ?v] => destruct (pack_u k v) as [p|] eqn:P end; [|discriminate]; cbn [bind] in H; injection H as <-; apply pack_le in P; destruct P as [P _].
  all: destruct C as [x X L|d D|d D|d D]; [lia|..]; pose proof (le_bound _ _ _ D) as B; destruct D as [D _]; cbn [List.length]; lia.
Qed.

Lemma outpoint_writes o b : outpoint_ser o = Ok b <-> outpoint_text o b.
Proof.
  unfold outpoint_ser, assert. split.
  - intros H. destruct (blen (o_hash o) =? 32)%N eqn:Q; [|discriminate]. cbn [bind] in H.
    destruct (pack_u 4 (o_n o)) as [n|] eqn:P; [|discriminate]. cbn [bind] in H. injection H as <-.
    apply pack_le in P. constructor; [unfold blen in Q; lia|exact P].
  - intros H. destruct H as [n L N]. destruct (blen (o_hash o) =? 32)%N eqn:Q; [|unfold blen in Q; lia]. cbn [bind].
    apply pack_le in N. rewrite N. reflexivity.
Qed.
