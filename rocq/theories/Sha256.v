(** SHA-256 as a Gallina function (FIPS 180-4), the model of Python's
    [hashlib.sha256(msg).digest()], used by
    lib/python-proofmarshal/proofmarshal/serialize.py:466-469 (HashTag.__call__),
    lib/python-proofmarshal/proofmarshal/proof.py:158-169 (calc_data_hash) and
    lib/python-bitcoinlib/bitcoin/core/serialize.py:37-39 (Hash).
    Messages longer than 2^61 bytes do not occur (the length field is 64 bits,
    reduced mod 2^64 here). *)
From Verif Require Import Base.
Local Open Scope N_scope.

(** hashlib.sha256 (lib/python-proofmarshal/proofmarshal/serialize.py:467, lib/python-bitcoinlib/bitcoin/core/serialize.py:39): 32-bit words. *)
Definition mask32 : N := 4294967295.
(** hashlib.sha256 (lib/python-proofmarshal/proofmarshal/serialize.py:467, lib/python-bitcoinlib/bitcoin/core/serialize.py:39): addition of words. *)
Definition add32 (a b : N) : N := N.land (a + b) mask32.
(** hashlib.sha256 (lib/python-proofmarshal/proofmarshal/serialize.py:467, lib/python-bitcoinlib/bitcoin/core/serialize.py:39): rotation to the right. *)
Definition rotr32 (n x : N) : N :=
  N.lor (N.shiftr x n) (N.land (N.shiftl x (32 - n)) mask32).
(** hashlib.sha256 (lib/python-proofmarshal/proofmarshal/serialize.py:467, lib/python-bitcoinlib/bitcoin/core/serialize.py:39): rotation to the left, used by RIPEMD-160 (lib/python-bitcoinlib/bitcoin/core/serialize.py:43). *)
Definition rotl32 (n x : N) : N := rotr32 (32 - n) x.
(** hashlib.sha256 (lib/python-proofmarshal/proofmarshal/serialize.py:467, lib/python-bitcoinlib/bitcoin/core/serialize.py:39): complement. *)
Definition not32 (x : N) : N := N.lxor x mask32.

(** hashlib.sha256 (lib/python-proofmarshal/proofmarshal/serialize.py:467, lib/python-bitcoinlib/bitcoin/core/serialize.py:39): the round constants. *)
Definition sha_k : list N := [
0x428a2f98;0x71374491;0xb5c0fbcf;0xe9b5dba5;0x3956c25b;0x59f111f1;0x923f82a4;0xab1c5ed5;
0xd807aa98;0x12835b01;0x243185be;0x550c7dc3;0x72be5d74;0x80deb1fe;0x9bdc06a7;0xc19bf174;
0xe49b69c1;0xefbe4786;0x0fc19dc6;0x240ca1cc;0x2de92c6f;0x4a7484aa;0x5cb0a9dc;0x76f988da;
0x983e5152;0xa831c66d;0xb00327c8;0xbf597fc7;0xc6e00bf3;0xd5a79147;0x06ca6351;0x14292967;
0x27b70a85;0x2e1b2138;0x4d2c6dfc;0x53380d13;0x650a7354;0x766a0abb;0x81c2c92e;0x92722c85;
0xa2bfe8a1;0xa81a664b;0xc24b8b70;0xc76c51a3;0xd192e819;0xd6990624;0xf40e3585;0x106aa070;
0x19a4c116;0x1e376c08;0x2748774c;0x34b0bcb5;0x391c0cb3;0x4ed8aa4a;0x5b9cca4f;0x682e6ff3;
0x748f82ee;0x78a5636f;0x84c87814;0x8cc70208;0x90befffa;0xa4506ceb;0xbef9a3f7;0xc67178f2].

(** hashlib.sha256 (lib/python-proofmarshal/proofmarshal/serialize.py:467, lib/python-bitcoinlib/bitcoin/core/serialize.py:39): the eight working words. *)
Record sha_state := Sha { sa : N; sb : N; sc : N; sd : N; se : N; sf : N; sg : N; sh : N }.

(** hashlib.sha256 (lib/python-proofmarshal/proofmarshal/serialize.py:467, lib/python-bitcoinlib/bitcoin/core/serialize.py:39): the initial words. *)
Definition sha_init : sha_state :=
  Sha 0x6a09e667 0xbb67ae85 0x3c6ef372 0xa54ff53a 0x510e527f 0x9b05688c 0x1f83d9ab 0x5be0cd19.

(** One round with round constant + schedule word [kw].
    hashlib.sha256 (lib/python-proofmarshal/proofmarshal/serialize.py:467, lib/python-bitcoinlib/bitcoin/core/serialize.py:39). *)
Definition sha_round (s : sha_state) (k w : N) : sha_state :=
  let S1 := N.lxor (N.lxor (rotr32 6 (se s)) (rotr32 11 (se s))) (rotr32 25 (se s)) in
  let ch := N.lxor (N.land (se s) (sf s)) (N.land (not32 (se s)) (sg s)) in
  let t1 := N.land (sh s + S1 + ch + k + w) mask32 in
  let S0 := N.lxor (N.lxor (rotr32 2 (sa s)) (rotr32 13 (sa s))) (rotr32 22 (sa s)) in
  let maj := N.lxor (N.lxor (N.land (sa s) (sb s)) (N.land (sa s) (sc s))) (N.land (sb s) (sc s)) in
  let t2 := add32 S0 maj in
  Sha (add32 t1 t2) (sa s) (sb s) (sc s) (add32 (sd s) t1) (se s) (sf s) (sg s).

(** Message schedule kept as a sliding window of the 16 most recent words. *)
Definition sha_next_w (w : list N) : N :=
  match w with
  | [w0;w1;w2;w3;w4;w5;w6;w7;w8;w9;w10;w11;w12;w13;w14;w15] =>
    let s0 := N.lxor (N.lxor (rotr32 7 w1) (rotr32 18 w1)) (N.shiftr w1 3) in
    let s1 := N.lxor (N.lxor (rotr32 17 w14) (rotr32 19 w14)) (N.shiftr w14 10) in
    N.land (w0 + s0 + w9 + s1) mask32
  | _ => 0
  end.

(** hashlib.sha256 (lib/python-proofmarshal/proofmarshal/serialize.py:467, lib/python-bitcoinlib/bitcoin/core/serialize.py:39): the 64 rounds, with the message schedule extended on the way. *)
Fixpoint sha_rounds (ks : list N) (w : list N) (s : sha_state) : sha_state :=
  match ks with
  | [] => s
  | k :: ks' =>
    let s' := sha_round s k (hd 0 w) in
    sha_rounds ks' (tl w ++ [sha_next_w w]) s'
  end.

(** hashlib.sha256 (lib/python-proofmarshal/proofmarshal/serialize.py:467, lib/python-bitcoinlib/bitcoin/core/serialize.py:39): the sum at the end of a block. *)
Definition sha_add (a b : sha_state) : sha_state :=
  Sha (add32 (sa a) (sa b)) (add32 (sb a) (sb b)) (add32 (sc a) (sc b)) (add32 (sd a) (sd b))
      (add32 (se a) (se b)) (add32 (sf a) (sf b)) (add32 (sg a) (sg b)) (add32 (sh a) (sh b)).

(** hashlib.sha256 (lib/python-proofmarshal/proofmarshal/serialize.py:467, lib/python-bitcoinlib/bitcoin/core/serialize.py:39): a word from four bytes. *)
Definition be32_dec (a b c d : byte) : N :=
  N.lor (N.shiftl (bN a) 24) (N.lor (N.shiftl (bN b) 16) (N.lor (N.shiftl (bN c) 8) (bN d))).

(** hashlib.sha256 (lib/python-proofmarshal/proofmarshal/serialize.py:467, lib/python-bitcoinlib/bitcoin/core/serialize.py:39): four bytes of a word. *)
Definition be32_enc (w : N) : bytes :=
  [Nb (N.shiftr w 24); Nb (N.shiftr w 16); Nb (N.shiftr w 8); Nb w].

(** hashlib.sha256 (lib/python-proofmarshal/proofmarshal/serialize.py:467, lib/python-bitcoinlib/bitcoin/core/serialize.py:39): the words of a block. *)
Fixpoint words_be (b : bytes) : list N :=
  match b with
  | w :: x :: y :: z :: b' => be32_dec w x y z :: words_be b'
  | _ => []
  end.

(** hashlib.sha256 (lib/python-proofmarshal/proofmarshal/serialize.py:467, lib/python-bitcoinlib/bitcoin/core/serialize.py:39): one block. *)
Definition sha_block (s : sha_state) (w : list N) : sha_state :=
  sha_add s (sha_rounds sha_k w s).

(** hashlib.sha256 (lib/python-proofmarshal/proofmarshal/serialize.py:467, lib/python-bitcoinlib/bitcoin/core/serialize.py:39): all blocks, with the padding at the end. *)
Fixpoint sha_blocks (n : nat) (s : sha_state) (ws : list N) : sha_state :=
  match n with
  | O => s
  | S n' => sha_blocks n' (sha_block s (firstn 16 ws)) (skipn 16 ws)
  end.

(** Padding: 0x80, zeros up to 56 mod 64, 64-bit big-endian bit length. *)
Definition pad_zeros (len : N) : nat := N.to_nat ((119 - len mod 64) mod 64).
(** hashlib.sha256 (lib/python-proofmarshal/proofmarshal/serialize.py:467, lib/python-bitcoinlib/bitcoin/core/serialize.py:39): the length. *)
Definition be64_enc (n : N) : bytes :=
  be32_enc (N.land (N.shiftr n 32) mask32) ++ be32_enc (N.land n mask32).
(** hashlib.sha256 (lib/python-proofmarshal/proofmarshal/serialize.py:467, lib/python-bitcoinlib/bitcoin/core/serialize.py:39): the padded message. *)
Definition sha_pad (m : bytes) : bytes :=
  m ++ [x80] ++ repeat x00 (pad_zeros (blen m)) ++ be64_enc (blen m * 8).

(** hashlib.sha256 (lib/python-proofmarshal/proofmarshal/serialize.py:467, lib/python-bitcoinlib/bitcoin/core/serialize.py:39): the digest from the final words. *)
Definition sha_out (s : sha_state) : bytes :=
  be32_enc (sa s) ++ be32_enc (sb s) ++ be32_enc (sc s) ++ be32_enc (sd s) ++
  be32_enc (se s) ++ be32_enc (sf s) ++ be32_enc (sg s) ++ be32_enc (sh s).

(** hashlib.sha256 (lib/python-proofmarshal/proofmarshal/serialize.py:467, lib/python-bitcoinlib/bitcoin/core/serialize.py:39): the digest of a message. *)
Definition sha256 (m : bytes) : bytes :=
  let p := sha_pad m in
  sha_out (sha_blocks (N.to_nat (blen p / 64)) sha_init (words_be p)).

Lemma sha256_length m : List.length (sha256 m) = 32%nat.
Proof. reflexivity. Qed.

#[global] Opaque sha256.
Arguments sha256 : simpl never.

(** Double SHA-256: lib/python-bitcoinlib/bitcoin/core/serialize.py:37-39 [Hash]. *)
Definition Hash (m : bytes) : bytes := sha256 (sha256 m).

Lemma Hash_length m : List.length (Hash m) = 32%nat.
Proof. apply sha256_length. Qed.

(** Known-answer tests (FIPS 180-4 examples; empty string; 1,000 bytes of 'a'). *)
Example sha256_kat_empty :
  to_hex (sha256 []) = "e3b0c44298fc1c149afbf4c8996fb92427ae41e4649b934ca495991b7852b855"%string.
Proof. vm_compute. reflexivity. Qed.
Example sha256_kat_abc :
  to_hex (sha256 (str "abc")) = "ba7816bf8f01cfea414140de5dae2223b00361a396177a9cb410ff61f20015ad"%string.
Proof. vm_compute. reflexivity. Qed.
Example sha256_kat_two_blocks :
  to_hex (sha256 (str "abcdbcdecdefdefgefghfghighijhijkijkljklmklmnlmnomnopnopq"))
  = "248d6a61d20638b8e5c026930c3e6039a33ce45964ff2167f6ecedd419db06c1"%string.
Proof. vm_compute. reflexivity. Qed.
Example sha256_kat_1000a :
  to_hex (sha256 (repeat x61 1000))
  = "41edece42d63e8d9bf515a9ba6932e1c20cbc9f5a5d134645adb5db1b9737ea3"%string.
Proof. vm_compute. reflexivity. Qed.
