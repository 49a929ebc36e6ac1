(** Property C170: two parties that exchange public keys agree on a key. *)
From Verif Require Import Base Sha256 Key_Model Key_Spec Key_Examples KeyEx_Model KeyEx_Spec.

Section Ex.
Context (G : curve) (L : openssl) (lib : library G L) (X : exchange L) (DH : diffie_hellman G L lib X).
Lemma own_held mem s c p k : List.length s = 32 -> point_of G s = Some p -> own_key L mem s c = Ok k ->
  held_secret G L lib k = Some s /\ held_point G L lib k = Some p /\ held_form G L lib k = c.
Proof.
  intros Ls P. unfold own_key, set_secretbytes. rewrite firstn_app, Ls, Nat.sub_diag, <- Ls, firstn_all. cbn [firstn]. rewrite app_nil_r.
  destruct (derive_law G L lib s (ec_new L) p P) as (k' & -> & Hs & Hp & _). cbn [bind]. intros E. injection E as <-.
  destruct (form_law G L lib c k') as (Fs & Fp & Ff). rewrite Fs, Fp. auto.
Qed.
Lemma own_made mem s c p : List.length s = 32 -> point_of G s = Some p -> exists k, own_key L mem s c = Ok k.
Proof.
  intros Ls P. unfold own_key, set_secretbytes. rewrite firstn_app, Ls, Nat.sub_diag, <- Ls, firstn_all. cbn [firstn]. rewrite app_nil_r.
  destruct (derive_law G L lib s (ec_new L) p P) as (k' & -> & _). cbn [bind]. eauto.
Qed.
Lemma sent_point k p o : held_point G L lib k = Some p -> held_point G L lib (set_pubkey L (get_pubkey L k) o) = Some p.
Proof.
  intros H. unfold set_pubkey, get_pubkey. rewrite (write_law G L lib k p H). destruct (read_law G L lib _ o p (point_read G (held_form G L lib k) p)) as (k' & -> & _ & Hp). exact Hp.
Qed.
Lemma raw_ok k o s p : held_secret G L lib k = Some s -> held_point G L lib o = Some p -> get_raw_ecdh_key L X k (PeerEC L o) = Agreed (common G L lib X DH s p).
Proof.
  intros Hs Hp. unfold get_raw_ecdh_key. rewrite (ecdh_law G L lib X DH k o s p Hs Hp). unfold blen. rewrite (common_length G L lib X DH s p). reflexivity.
Qed.
Lemma agreement_ok m1 m2 s1 s2 c1 c2 p1 p2 : List.length s1 = 32 -> List.length s2 = 32 -> point_of G s1 = Some p1 -> point_of G s2 = Some p2 ->
  exists k1 k2, own_key L m1 s1 c1 = Ok k1 /\ own_key L m2 s2 c2 = Ok k2 /\
    forall o1 o2 kdf, exists key, get_ecdh_key L X k1 (PeerEC L (set_pubkey L (get_pubkey L k2) o1)) kdf = Agreed (kdf key) /\
      get_ecdh_key L X k2 (PeerEC L (set_pubkey L (get_pubkey L k1) o2)) kdf = Agreed (kdf key) /\ List.length key = 32.
Proof.
  intros L1 L2 P1 P2. destruct (own_made m1 s1 c1 p1 L1 P1) as (k1 & E1), (own_made m2 s2 c2 p2 L2 P2) as (k2 & E2). exists k1, k2. split; [exact E1|]. split; [exact E2|]. intros o1 o2 kdf.
  destruct (own_held _ _ _ _ _ L1 P1 E1) as (H1 & Q1 & _), (own_held _ _ _ _ _ L2 P2 E2) as (H2 & Q2 & _).
  exists (common G L lib X DH s1 p2). unfold get_ecdh_key. rewrite (raw_ok _ _ _ _ H1 (sent_point k2 p2 o1 Q2)), (raw_ok _ _ _ _ H2 (sent_point k1 p1 o2 Q1)).
  rewrite (common_same G L lib X DH s1 s2 p1 p2 P1 P2). split; [reflexivity|]. split; [reflexivity|]. apply (common_length G L lib X DH).
Qed.
Lemma restored_ok k s p k0 : held_secret G L lib k = Some s -> held_point G L lib k = Some p ->
  let k' := set_privkey L X (get_privkey L X k) k0 in
  get_pubkey L k' = get_pubkey L k /\ forall o q kdf, held_point G L lib o = Some q -> exists key, get_ecdh_key L X k (PeerEC L o) kdf = Agreed key /\ get_ecdh_key L X k' (PeerEC L o) kdf = Agreed key.
Proof.
  intros Hs Hp. unfold set_privkey, get_privkey. destruct (restore_law G L lib X DH k s k0 Hs) as (k' & -> & Hs' & Hp' & Hf'). cbn [snd]. split.
  - unfold get_pubkey. rewrite (write_law G L lib k p Hp), (write_law G L lib k' p ltac:(congruence)), Hf'. reflexivity.
  - intros o q kdf Ho. exists (kdf (common G L lib X DH s q)). unfold get_ecdh_key. rewrite (raw_ok _ _ _ _ Hs Ho), (raw_ok _ _ _ _ Hs' Ho). auto.
Qed.
End Ex.

(** Each party makes a key object from a secret of 32 bytes that has a point, in either form, and sends the public key; the other
    reads it into an object [o], new or not.  Both get the same key; [kdf]: the function given for it. *)
Theorem C170_parties_agree : forall G L lib X, diffie_hellman G L lib X -> forall m1 m2 s1 s2 c1 c2 p1 p2,
  List.length s1 = 32 -> List.length s2 = 32 -> point_of G s1 = Some p1 -> point_of G s2 = Some p2 ->
  exists k1 k2, own_key L m1 s1 c1 = Ok k1 /\ own_key L m2 s2 c2 = Ok k2 /\
    forall o1 o2 kdf, exists key, get_ecdh_key L X k1 (PeerEC L (set_pubkey L (get_pubkey L k2) o1)) kdf = Agreed (kdf key) /\
      get_ecdh_key L X k2 (PeerEC L (set_pubkey L (get_pubkey L k1) o2)) kdf = Agreed (kdf key) /\ List.length key = 32.
Proof. exact agreement_ok. Qed.
Print Assumptions C170_parties_agree.

(** A key made with the public key of the other as a CPubKey: there is none. *)
Theorem C170_no_pubkey : forall L X k b kdf, get_ecdh_key L X k (PeerPub L (CPubKey L b)) kdf = NoAttribute.
Proof. reflexivity. Qed.
Print Assumptions C170_no_pubkey.

(** Without a secret on one side or a public key on the other the exchange fails. *)
Theorem C170_incomplete : forall G L lib X, diffie_hellman G L lib X -> forall k o kdf,
  get_ecdh_key L X k (PeerEC L o) kdf = Failed <-> held_secret G L lib k = None \/ held_point G L lib o = None.
Proof.
  intros G L lib X DH k o kdf. unfold get_ecdh_key. split.
  - destruct (held_secret G L lib k) as [s|] eqn:Hs; [|auto]. destruct (held_point G L lib o) as [p|] eqn:Hp; [|auto]. rewrite (raw_ok G L lib X DH k o s p Hs Hp). discriminate.
  - intros H. unfold get_raw_ecdh_key. rewrite (no_ecdh_law G L lib X DH k o H). reflexivity.
Qed.
Print Assumptions C170_incomplete.

(** An object into which the private key of another was read does the same as the other. *)
Theorem C170_restored : forall G L lib X, diffie_hellman G L lib X -> forall k s p k0, held_secret G L lib k = Some s -> held_point G L lib k = Some p ->
  let k' := set_privkey L X (get_privkey L X k) k0 in
  get_pubkey L k' = get_pubkey L k /\
  forall o q kdf, held_point G L lib o = Some q -> exists key, get_ecdh_key L X k (PeerEC L o) kdf = Agreed key /\ get_ecdh_key L X k' (PeerEC L o) kdf = Agreed key.
Proof. exact restored_ok. Qed.
Print Assumptions C170_restored.

(** The library of Key_Examples.v, in which the point of a secret is its last byte, with a hash of the product for what two parties
    have in common.  A private key is written as the form, the point (twice, or two different bytes for none) and the secret. *)
Definition toy_product (x p : Byte.byte) : bytes := sha256 [Nb (bN x * bN p)].
Definition toy_common (s : bytes) (p : Byte.byte) : bytes :=
  match toy_point s with Some x => toy_product x p | None => sha256 [] end.
Definition toy_exchange : exchange toy_ssl := {|
  ec_ecdh (k o : EC_KEY toy_ssl) := match toy_secret k, toy_held o with Some s, Some p => Some (toy_common s p) | _, _ => None end;
  ec_i2d (k : EC_KEY toy_ssl) := match toy_secret k with
    | Some s => (if toy_form k then x01 else x00) :: match toy_held k with Some p => [x01; p] | None => [x00; x00] end ++ s
    | None => [] end;
  ec_d2i b (k : EC_KEY toy_ssl) := match b with
    | f :: t :: p :: s => (true, Toy (Some s) (match t with x01 => Some p | _ => None end) (match f with x01 => true | _ => false end))
    | _ => (false, k) end |}.
Lemma toy_dh : diffie_hellman toy_curve toy_ssl toy_library toy_exchange.
Proof.
  apply (DiffieHellman toy_curve toy_ssl toy_library toy_exchange toy_common).
  - intros s1 s2 p1 p2 H1 H2. cbn [point_of toy_curve] in H1, H2. unfold toy_common. rewrite H1, H2. unfold toy_product. rewrite N.mul_comm. reflexivity.
  - intros s p. unfold toy_common. destruct (toy_point s); apply sha256_length.
  - intros k o s p Hs Hp. cbn [ec_ecdh toy_exchange]. cbn [held_secret held_point toy_library] in Hs, Hp. rewrite Hs, Hp. reflexivity.
  - intros k o H. cbn [ec_ecdh toy_exchange]. cbn [held_secret held_point toy_library] in H. destruct H as [-> | ->]; [reflexivity|]. destruct (toy_secret k); reflexivity.
  - intros k s k0 Hs. cbn [ec_i2d toy_exchange]. cbn [held_secret held_point held_form toy_library] in *. rewrite Hs.
    destruct (toy_held k) as [p|]; cbn [app ec_d2i toy_exchange]; (eexists; split; [reflexivity|]); cbn [toy_secret toy_held toy_form]; repeat split; destruct (toy_form k); reflexivity.
Qed.

(** Two parties with different secrets and forms: they agree on a key, which is not that of the first with itself; one with the public key
    only gets none. *)
Example C170_instance :
  let mk s c := match own_key toy_ssl [] s c with Ok k => k | Err _ => Toy None None false end in
  let a := mk (repeat x03 32) true in let b := mk (repeat x05 32) false in
  let sent k := PeerEC toy_ssl (set_pubkey toy_ssl (get_pubkey toy_ssl k) (ec_new toy_ssl)) in
  get_ecdh_key toy_ssl toy_exchange a (sent b) default_kdf = Agreed (sha256 (sha256 [x0f])) /\
  get_ecdh_key toy_ssl toy_exchange b (sent a) default_kdf = Agreed (sha256 (sha256 [x0f])) /\
  get_ecdh_key toy_ssl toy_exchange a (sent a) default_kdf = Agreed (sha256 (sha256 [x09])) /\
  get_ecdh_key toy_ssl toy_exchange (set_pubkey toy_ssl (get_pubkey toy_ssl a) (ec_new toy_ssl)) (sent b) default_kdf = Failed /\
  get_privkey toy_ssl toy_exchange a = x01 :: x01 :: x03 :: repeat x03 32.
Proof. vm_compute. auto 6. Qed.
