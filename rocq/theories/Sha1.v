(** SHA-1 as a Gallina function (FIPS 180-4), the model of Python's [hashlib.sha1(msg).digest()],
    used by lib/python-bitcoinlib/bitcoin/core/scripteval.py:616-618 (OP_SHA1).  As in Sha256.v the
    length field is reduced mod 2^64. *)
From Verif Require Import Base Sha256.
Local Open Scope N_scope.

Record sha1_state := Sha1 { s1a : N; s1b : N; s1c : N; s1d : N; s1e : N }.

Definition sha1_init : sha1_state := Sha1 0x67452301 0xefcdab89 0x98badcfe 0x10325476 0xc3d2e1f0.

(** Round function and constant of round [t]. *)
Definition sha1_f (t b c d : N) : N :=
  if t <? 20 then N.lxor (N.land b c) (N.land (not32 b) d)
  else if t <? 40 then N.lxor (N.lxor b c) d
  else if t <? 60 then N.lxor (N.lxor (N.land b c) (N.land b d)) (N.land c d)
  else N.lxor (N.lxor b c) d.
Definition sha1_k (t : N) : N :=
  if t <? 20 then 0x5a827999 else if t <? 40 then 0x6ed9eba1 else if t <? 60 then 0x8f1bbcdc else 0xca62c1d6.

Definition sha1_round (s : sha1_state) (t w : N) : sha1_state :=
  Sha1 (N.land (rotl32 5 (s1a s) + sha1_f t (s1b s) (s1c s) (s1d s) + s1e s + sha1_k t + w) mask32)
       (s1a s) (rotl32 30 (s1b s)) (s1c s) (s1d s).

(** Message schedule kept as a sliding window of the 16 most recent words. *)
Definition sha1_next_w (w : list N) : N :=
  rotl32 1 (N.lxor (N.lxor (nth 13 w 0) (nth 8 w 0)) (N.lxor (nth 2 w 0) (nth 0 w 0))).

Fixpoint sha1_rounds (n : nat) (t : N) (w : list N) (s : sha1_state) : sha1_state :=
  match n with
  | O => s
  | S n' => sha1_rounds n' (t + 1) (tl w ++ [sha1_next_w w]) (sha1_round s t (hd 0 w))
  end.

Definition sha1_block (s : sha1_state) (w : list N) : sha1_state :=
  let r := sha1_rounds 80 0 w s in
  Sha1 (add32 (s1a s) (s1a r)) (add32 (s1b s) (s1b r)) (add32 (s1c s) (s1c r)) (add32 (s1d s) (s1d r)) (add32 (s1e s) (s1e r)).

Fixpoint sha1_blocks (n : nat) (s : sha1_state) (ws : list N) : sha1_state :=
  match n with
  | O => s
  | S n' => sha1_blocks n' (sha1_block s (firstn 16 ws)) (skipn 16 ws)
  end.

Definition sha1_out (s : sha1_state) : bytes :=
  be32_enc (s1a s) ++ be32_enc (s1b s) ++ be32_enc (s1c s) ++ be32_enc (s1d s) ++ be32_enc (s1e s).

(** The padding is that of SHA-256. *)
Definition sha1 (m : bytes) : bytes :=
  let p := sha_pad m in
  sha1_out (sha1_blocks (N.to_nat (blen p / 64)) sha1_init (words_be p)).

Lemma sha1_length m : List.length (sha1 m) = 20%nat.
Proof. reflexivity. Qed.

#[global] Opaque sha1.
Arguments sha1 : simpl never.

(** Published SHA-1 test vectors. *)
Example sha1_kat_empty : to_hex (sha1 []) = "da39a3ee5e6b4b0d3255bfef95601890afd80709"%string.
Proof. vm_compute. reflexivity. Qed.
Example sha1_kat_abc : to_hex (sha1 (str "abc")) = "a9993e364706816aba3e25717850c26c9cd0d89d"%string.
Proof. vm_compute. reflexivity. Qed.
Example sha1_kat_two_blocks :
  to_hex (sha1 (str "abcdbcdecdefdefgefghfghighijhijkijkljklmklmnlmnomnopnopq"))
  = "84983e441c3bd26ebaae4aa1f95129e5e54670f1"%string.
Proof. vm_compute. reflexivity. Qed.
