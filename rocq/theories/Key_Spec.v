(** What keys are expected to do, apart from the code.  OpenSSL is described by what its documentation promises. *)
From Verif Require Import Base Tx_Model Key_Model.

(** A curve with its signature scheme: the public point of a secret (none for zero and for numbers that are too
    large), the two texts of a point, the point of a text, and which signatures are valid. *)
Record curve := Curve {
  point : Type;
  point_of : bytes -> option point;
  point_text : bool -> point -> bytes;
  read_point : bytes -> option point;
  valid_sig : point -> bytes -> bytes -> Prop;
  point_read : forall c p, read_point (point_text c p) = Some p;
  point_length : forall c p, List.length (point_text c p) = (if c then 33 else 65)%nat }.

(** A library that computes with the curve [G]: every object holds at most a secret, at most a point and the form of
    public keys.  Nothing is said about the point of an object for which reading a public key failed, nor
    about when signing fails. *)
Record library (G : curve) (L : openssl) := Library {
  held_secret : EC_KEY L -> option bytes;
  held_point : EC_KEY L -> option (point G);
  held_form : EC_KEY L -> bool;
  derive_law : forall s k p, point_of G s = Some p -> exists k', ec_derive L s k = Some k' /\
    held_secret k' = Some s /\ held_point k' = Some p /\ held_form k' = held_form k;
  form_law : forall c k, held_secret (ec_form L c k) = held_secret k /\ held_point (ec_form L c k) = held_point k /\
    held_form (ec_form L c k) = c;
  write_law : forall k p, held_point k = Some p -> ec_i2o L k = point_text G (held_form k) p;
  read_law : forall b k p, read_point G b = Some p -> exists k', ec_o2i L b k = (true, k') /\
    held_secret k' = held_secret k /\ held_point k' = Some p;
  refuse_law : forall b k, read_point G b = None -> fst (ec_o2i L b k) = false;
  sign_law : forall k s p h r sig, held_secret k = Some s -> point_of G s = Some p -> List.length h = 32%nat ->
    ec_sign L k h r = Some sig -> valid_sig G p h sig /\ (blen sig <= 72)%N;
  verify_law : forall k p h sig, held_point k = Some p -> ec_verify L k h sig = 1%Z <-> valid_sig G p h sig }.

(** The key object [k] is that of the point [p], with the public key in the form [c]. *)
Definition key_of {L} (G : curve) (p : point G) (c : bool) (k : ckey L) : Prop :=
  p_bytes L (pub L k) = point_text G c p /\ is_fullyvalid L (pub L k) = true.

(** [t'] is [t] with another scriptSig at input [i]. *)
Definition filled (t : tx) (i : nat) (s : bytes) (t' : tx) : Prop :=
  t_vout t' = t_vout t /\ t_nLockTime t' = t_nLockTime t /\ t_nVersion t' = t_nVersion t /\
  List.length (t_vin t') = List.length (t_vin t) /\
  forall j x x', nth_error (t_vin t) j = Some x -> nth_error (t_vin t') j = Some x' ->
    i_prevout x' = i_prevout x /\ i_nSequence x' = i_nSequence x /\
    i_scriptSig x' = (if Nat.eqb j i then s else i_scriptSig x).

(** The same transaction but for the scriptSigs. *)
Definition same_but_scripts (t t' : tx) : Prop :=
  t_vout t' = t_vout t /\ t_nLockTime t' = t_nLockTime t /\ t_nVersion t' = t_nVersion t /\
  map i_prevout (t_vin t') = map i_prevout (t_vin t) /\ map i_nSequence (t_vin t') = map i_nSequence (t_vin t).

(** A transaction that moves the output [vout] of the transaction [txid] to one output, with the scriptSig [ss]. *)
Definition moves (txid : bytes) (vout value : Z) (spk ss : bytes) (t : tx) : Prop :=
  t_vin t = [mkTxIn (mkOutPoint txid vout) ss 0xffffffff] /\ t_vout t = [mkTxOut value spk] /\
  t_nLockTime t = 0%Z /\ t_nVersion t = 1%Z.
