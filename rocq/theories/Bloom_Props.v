(** Properties C92-C96: bloom filters. *)
From Coq Require Import QArith.
From Verif Require Import Base Tx_Model Bloom_Model Grammar_Spec Bloom_Spec Wire_Proofs Bloom_Proofs.
Local Open Scope Z_scope.
Local Open Scope string_scope.
Local Open Scope list_scope.

(** The filter of bitcoin/tests/test_bloom.py, as its constructor leaves it, and its elements. *)
Definition empty3 (tweak : Z) : filter := mkFilter [x00; x00; x00] 5 tweak 1.
Definition key1 : bytes := hex "99108ad8ed9bb6274d3980bab5a85c048f0950c8".
Definition key2 : bytes := hex "b5a2c786d9ef4658287ced5914b37a1b4aa32eee".
Definition key3 : bytes := hex "b9300670b4c5366e95b2699e8b18bc75e5f729c5".
Definition absent : bytes := hex "19108ad8ed9bb6274d3980bab5a85c048f0950c8".
Definition coin : outpoint := mkOutPoint (hex "147caa76786596590baa4e98f5d9f48b86c7765e489f7a6ff3360fe5c674360b") 1.
Definition coin_bytes : bytes := o_hash coin ++ [x01; x00; x00; x00].
Lemma coin_stands : stands_for (EOut coin) coin_bytes.
Proof. apply stands_for_iff. vm_compute. reflexivity. Qed.

(** ** C92: what was inserted is found *)

Theorem C92_no_false_negatives : forall f es g e d, usable f -> (forall e, In e es -> exists d, stands_for e d) ->
  insert_all f es = Ok g -> In e es -> stands_for e d -> contains g e = Ok true.
Proof. exact no_false_negative. Qed.
Print Assumptions C92_no_false_negatives.

(** Inserting never fails on a usable filter, and adds exactly the bits of the element. *)
Theorem C92_insert : forall f e d, usable f -> stands_for e d -> exists g, insert f e = Ok g /\ same_shape f g /\
  forall k, bit_set (f_vData g) k <-> bit_set (f_vData f) k \/ occupies f d k.
Proof. exact insert_spec. Qed.
Print Assumptions C92_insert.

Example C92_insert_instance : usable (empty3 0) /\ stands_for (EBytes key1) key1 /\
  (do g <- insert (empty3 0) (EBytes key1); Ok (f_vData g)) <> Ok (f_vData (empty3 0)).
Proof. split; [left; discriminate|]. split; [apply stands_bytes|]. vm_compute. discriminate. Qed.

(** The answer is true exactly when all the bits of the element are set. *)
Theorem C92_contains : forall f e d, usable f -> stands_for e d -> exists r, contains f e = Ok r /\
  (r = true <-> forall k, occupies f d k -> bit_set (f_vData f) k).
Proof. exact contains_spec. Qed.
Print Assumptions C92_contains.

(** A full filter contains elements that were never inserted. *)
Example C92_contains_instance : usable (mkFilter [xff; xff; xff] 5 0 1) /\
  contains (mkFilter [xff; xff; xff] 5 0 1) (EBytes absent) = Ok true /\ contains (empty3 0) (EBytes absent) = Ok false.
Proof. split; [left; discriminate|]. split; vm_compute; reflexivity. Qed.

(** The only filters outside: no bits, but hash functions. *)
Theorem C92_unusable : forall f e, f_vData f = [] -> 0 < f_nHashFuncs f -> forall d, stands_for e d ->
  insert f e = Err ZeroDivisionError /\ contains f e = Err ZeroDivisionError.
Proof. exact insert_fails. Qed.
Print Assumptions C92_unusable.

Example C92_unusable_instance : insert (mkFilter [] 5 0 1) (EBytes key1) = Err ZeroDivisionError.
Proof. vm_compute. reflexivity. Qed.

Example C92_instance : usable (empty3 0) /\ stands_for (EOut coin) coin_bytes /\
  (forall e, In e [EBytes key1; EOut coin] -> exists d, stands_for e d) /\
  exists g, insert_all (empty3 0) [EBytes key1; EOut coin] = Ok g /\ contains g (EOut coin) = Ok true /\
    contains g (EBytes coin_bytes) = Ok true /\ contains g (EBytes absent) = Ok false /\ contains (empty3 0) (EOut coin) = Ok false.
Proof.
  split; [left; discriminate|]. split; [exact coin_stands|]. split.
  { intros e [<-|[<-|[]]]; eexists; [apply stands_bytes|apply coin_stands]. }
  eexists. split; [vm_compute; reflexivity|]. repeat split; vm_compute; reflexivity.
Qed.

(** ** C93: only which elements were inserted matters *)

Theorem C93_order : forall f es es' g g', usable f ->
  (forall e, In e es -> exists d, stands_for e d) -> (forall e, In e es' -> exists d, stands_for e d) ->
  (forall d, (exists e, In e es /\ stands_for e d) <-> (exists e, In e es' /\ stands_for e d)) ->
  insert_all f es = Ok g -> insert_all f es' = Ok g' -> g = g'.
Proof. exact set_determines. Qed.
Print Assumptions C93_order.

Example C93_instance :
  (forall d, (exists e, In e [EBytes key1; EOut coin] /\ stands_for e d) <->
             (exists e, In e [EBytes coin_bytes; EBytes key1; EOut coin] /\ stands_for e d)) /\
  insert_all (empty3 0) [EBytes key1; EOut coin] = insert_all (empty3 0) [EBytes coin_bytes; EBytes key1; EOut coin] /\
  is_ok (insert_all (empty3 0) [EBytes key1; EOut coin]) = true /\
  insert_all (empty3 0) [EBytes key1; EOut coin] <> insert_all (empty3 0) [EBytes key1].
Proof.
  split.
  { intros d. split; intros (e & I & S).
    - exists e. split; [right; exact I|exact S].
    - destruct I as [<-|I]; [|eauto]. exists (EOut coin). split; [right; left; reflexivity|]. inversion S; subst. apply coin_stands. }
  split; [vm_compute; reflexivity|]. split; [vm_compute; reflexivity|]. vm_compute. discriminate.
Qed.

(** ** C94: the hash function is MurmurHash3 *)

Theorem C94_murmur : forall seed d, 0 <= seed < 2 ^ 32 -> MurmurHash3 seed d = Ok (murmur seed d) /\ 0 <= murmur seed d < 2 ^ 32.
Proof. intros seed d H. split; [exact (murmur_model seed d H)|exact (murmur_range seed d H)]. Qed.
Print Assumptions C94_murmur.

(** The values of bitcoin/tests/test_bloom.py. *)
Example C94_instance :
  murmur 0 [] = 0 /\ murmur 0xFBA4C795 [] = 0x6a396f08 /\ murmur 0xffffffff [] = 0x81f16f39 /\
  murmur 0 (hex "00") = 0x514e28b7 /\ murmur 0xFBA4C795 (hex "00") = 0xea3f0b17 /\ murmur 0 (hex "ff") = 0xfd6cf10d /\
  murmur 0 (hex "0011") = 0x16c6b7ab /\ murmur 0 (hex "001122") = 0x8eb51c3d /\ murmur 0 (hex "00112233") = 0xb4471bf8 /\
  murmur 0 (hex "0011223344") = 0xe2301fa8 /\ murmur 0 (hex "001122334455") = 0xfc2e4a15 /\
  murmur 0 (hex "00112233445566") = 0xb074502c /\ murmur 0 (hex "0011223344556677") = 0x8034d2a0 /\
  murmur 0 (hex "001122334455667788") = 0xb4698def /\ MurmurHash3 0 (hex "001122334455667788") = Ok 0xb4698def.
Proof. repeat split; vm_compute; reflexivity. Qed.

(** ** C95: a serialized filter can be read back *)

(** The full claim is false of every filter. *)
Theorem C95_read_back_refuted : forall f s, filter_ser f = Ok s ->
  (forall g, filter_deserialize s <> Ok g) /\ ((blen (f_vData f) <= 0x02000000)%N -> filter_deserialize s = Err UnboundLocalError).
Proof.
  intros f s H. split.
  - intros g. destruct (filter_de_fails s) as (e & E & _). rewrite E. discriminate.
  - intros B. exact (filter_de_unbound f s (filter_writes f s H) B).
Qed.
Print Assumptions C95_read_back_refuted.

(** What remains: the text has the documented form and determines the filter. *)
Theorem C95_text_partial : forall f s, filter_ser f = Ok s -> filter_text f s /\ (forall g, filter_text g s -> g = f).
Proof. intros f s H. split; [exact (filter_writes f s H)|]. intros g G. exact (filter_text_inj g f s G (filter_writes f s H)). Qed.
Print Assumptions C95_text_partial.

(** No bytes at all are read as a filter. *)
Theorem C95_nothing_is_read : forall s, exists e, filter_deserialize s = Err e /\
  (e = UnboundLocalError \/ e = SerializationError \/ e = SerializationTruncationError).
Proof. exact filter_de_fails. Qed.
Print Assumptions C95_nothing_is_read.

Example C95_nothing_instance : filter_deserialize [] = Err SerializationTruncationError /\
  filter_deserialize (hex "feffffffff") = Err SerializationError.
Proof. split; vm_compute; reflexivity. Qed.

Example C95_instance :
  (do g <- insert_all (empty3 0) [EBytes key1; EBytes key2; EBytes key3]; filter_ser g) = Ok (hex "03614e9b050000000000000001") /\
  (do g <- insert_all (empty3 2147483649) [EBytes key1; EBytes key2; EBytes key3]; filter_ser g) = Ok (hex "03ce4299050000000100008001") /\
  filter_deserialize (hex "03614e9b050000000000000001") = Err UnboundLocalError.
Proof. repeat split; vm_compute; reflexivity. Qed.

(** ** C96: a new filter respects the limits of the protocol *)

(** Whatever the floating-point expressions of the constructor give. *)
Theorem C96_limits : forall size funcs t g f, filter_new size funcs t g = Ok f ->
  IsWithinSizeConstraints f = true /\
  Z.of_nat (List.length (f_vData f)) <= 36000 /\ f_nHashFuncs f <= 50 /\ (forall k, ~ bit_set (f_vData f) k) /\ f_nTweak f = t /\ f_nFlags f = g.
Proof.
  intros size funcs t g f H. destruct (filter_new_within size funcs t g f H) as (A & B & C). split; [|tauto].
  unfold IsWithinSizeConstraints, MAX_BLOOM_FILTER_SIZE, MAX_HASH_FUNCS. unfold blen. rewrite nat_N_Z. apply andb_true_iff. split; apply Z.leb_le; assumption.
Qed.
Print Assumptions C96_limits.

(** And stays within them. *)
Theorem C96_insert_keeps : forall f e g, insert f e = Ok g -> IsWithinSizeConstraints g = IsWithinSizeConstraints f.
Proof. exact insert_keeps_size. Qed.
Print Assumptions C96_insert_keeps.

Example C96_insert_instance : is_ok (insert (empty3 0) (EBytes key1)) = true /\ IsWithinSizeConstraints (empty3 0) = true /\
  (do g <- insert (mkFilter (repeat x00 4) 51 0 0) (EBytes key1); Ok (IsWithinSizeConstraints g)) = Ok false.
Proof. repeat split; vm_compute; reflexivity. Qed.

(** CBloomFilter(3, 0.01, 0, 1): 28.755.. bits, 3 bytes, 5.545.. functions; and one that is cut to the limits. *)
Example C96_instance :
  filter_new (Ok (Fin (28755 # 1000))) (fun n => Ok (Fin (n * 8 * 231 # 1000))) 0 1 = Ok (empty3 0) /\
  (do f <- filter_new (Ok PosInf) (fun _ => Ok (Fin (60 # 1))) 7 2; Ok (blen (f_vData f), f_nHashFuncs f)) = Ok (36000%N, 50) /\
  filter_new (Ok NaN) (fun _ => Ok PosInf) 0 0 = Err ValueError /\ filter_new (Ok (Fin (-9 # 1))) (fun _ => Ok PosInf) 0 0 = Err ValueError.
Proof. repeat split; vm_compute; reflexivity. Qed.
