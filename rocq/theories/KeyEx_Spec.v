(** What key exchange is expected to do, apart from the code. *)
From Verif Require Import Base Key_Model Key_Spec KeyEx_Model.

(** Diffie-Hellman on the curve [G]: what a secret and the point of another secret have in common.  A library that
    computes it, and that writes and reads objects with a secret. *)
Record diffie_hellman (G : curve) (L : openssl) (lib : library G L) (X : exchange L) := DiffieHellman {
  common : bytes -> point G -> bytes;
  common_same : forall s1 s2 p1 p2, point_of G s1 = Some p1 -> point_of G s2 = Some p2 -> common s1 p2 = common s2 p1;
  common_length : forall s p, List.length (common s p) = 32%nat;
  ecdh_law : forall k o s p, held_secret G L lib k = Some s -> held_point G L lib o = Some p -> ec_ecdh L X k o = Some (common s p);
  no_ecdh_law : forall k o, held_secret G L lib k = None \/ held_point G L lib o = None -> ec_ecdh L X k o = None;
  restore_law : forall k s k0, held_secret G L lib k = Some s -> exists k', ec_d2i L X (ec_i2d L X k) k0 = (true, k') /\
    held_secret G L lib k' = Some s /\ held_point G L lib k' = held_point G L lib k /\ held_form G L lib k' = held_form G L lib k }.
