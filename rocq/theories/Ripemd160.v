(** RIPEMD-160 as a Gallina function, the model of
    [hashlib.new('ripemd160')] used by
    lib/python-bitcoinlib/bitcoin/core/serialize.py:41-45 [Hash160]. *)
From Verif Require Import Base Sha256.
Local Open Scope N_scope.

(** hashlib.new('ripemd160') (lib/python-bitcoinlib/bitcoin/core/serialize.py:43, core/scripteval.py:597): the functions of the five rounds. *)
Definition rmd_f (j : nat) (x y z : N) : N :=
  match j with
  | 0%nat => N.lxor x (N.lxor y z)
  | 1%nat => N.lor (N.land x y) (N.land (not32 x) z)
  | 2%nat => N.lxor (N.lor x (not32 y)) z
  | 3%nat => N.lor (N.land x z) (N.land y (not32 z))
  | _ => N.lxor x (N.lor y (not32 z))
  end.

(** hashlib.new('ripemd160') (lib/python-bitcoinlib/bitcoin/core/serialize.py:43, core/scripteval.py:597): constants of the left line. *)
Definition rmd_kl (j : nat) : N :=
  nth j [0x00000000; 0x5A827999; 0x6ED9EBA1; 0x8F1BBCDC; 0xA953FD4E] 0.
(** hashlib.new('ripemd160') (lib/python-bitcoinlib/bitcoin/core/serialize.py:43, core/scripteval.py:597): constants of the right line. *)
Definition rmd_kr (j : nat) : N :=
  nth j [0x50A28BE6; 0x5C4DD124; 0x6D703EF3; 0x7A6D76E9; 0x00000000] 0.

(** hashlib.new('ripemd160') (lib/python-bitcoinlib/bitcoin/core/serialize.py:43, core/scripteval.py:597): word order of the left line. *)
Definition rmd_rl : list nat := [
0;1;2;3;4;5;6;7;8;9;10;11;12;13;14;15;
7;4;13;1;10;6;15;3;12;0;9;5;2;14;11;8;
3;10;14;4;9;15;8;1;2;7;0;6;13;11;5;12;
1;9;11;10;0;8;12;4;13;3;7;15;14;5;6;2;
4;0;5;9;7;12;2;10;14;1;3;8;11;6;15;13]%nat.
(** hashlib.new('ripemd160') (lib/python-bitcoinlib/bitcoin/core/serialize.py:43, core/scripteval.py:597): word order of the right line. *)
Definition rmd_rr : list nat := [
5;14;7;0;9;2;11;4;13;6;15;8;1;10;3;12;
6;11;3;7;0;13;5;10;14;15;8;12;4;9;1;2;
15;5;1;3;7;14;6;9;11;8;12;2;10;0;4;13;
8;6;4;1;3;11;15;0;5;12;2;13;9;7;10;14;
12;15;10;4;1;5;8;7;6;2;13;14;0;3;9;11]%nat.
(** hashlib.new('ripemd160') (lib/python-bitcoinlib/bitcoin/core/serialize.py:43, core/scripteval.py:597): rotations of the left line. *)
Definition rmd_sl : list N := [
11;14;15;12;5;8;7;9;11;13;14;15;6;7;9;8;
7;6;8;13;11;9;7;15;7;12;15;9;11;7;13;12;
11;13;6;7;14;9;13;15;14;8;13;6;5;12;7;5;
11;12;14;15;14;15;9;8;9;14;5;6;8;6;5;12;
9;15;5;11;6;8;13;12;5;12;13;14;11;8;5;6].
(** hashlib.new('ripemd160') (lib/python-bitcoinlib/bitcoin/core/serialize.py:43, core/scripteval.py:597): rotations of the right line. *)
Definition rmd_sr : list N := [
8;9;9;11;13;15;15;5;7;7;8;11;14;14;12;6;
9;13;15;7;12;8;9;11;7;7;12;7;6;15;13;11;
9;7;15;11;8;6;6;14;12;13;5;14;13;13;7;5;
15;5;8;11;14;14;6;14;6;9;12;9;12;5;15;8;
8;5;12;9;12;5;14;6;8;13;6;5;15;13;11;11].

(** hashlib.new('ripemd160') (lib/python-bitcoinlib/bitcoin/core/serialize.py:43, core/scripteval.py:597): the five working words. *)
Record rmd_state := Rmd { ra : N; rb : N; rc : N; rd : N; re : N }.
(** hashlib.new('ripemd160') (lib/python-bitcoinlib/bitcoin/core/serialize.py:43, core/scripteval.py:597): the initial words. *)
Definition rmd_init : rmd_state := Rmd 0x67452301 0xefcdab89 0x98badcfe 0x10325476 0xc3d2e1f0.

(** hashlib.new('ripemd160') (lib/python-bitcoinlib/bitcoin/core/serialize.py:43, core/scripteval.py:597): one step. *)
Definition rmd_step (f : N -> N -> N -> N) (k x s : N) (st : rmd_state) : rmd_state :=
  let t := add32 (rotl32 s (N.land (ra st + f (rb st) (rc st) (rd st) + x + k) mask32)) (re st) in
  Rmd (re st) t (rb st) (rotl32 10 (rc st)) (rd st).

(** hashlib.new('ripemd160') (lib/python-bitcoinlib/bitcoin/core/serialize.py:43, core/scripteval.py:597): one of the two lines. *)
Fixpoint rmd_line (left : bool) (j : nat) (rs : list nat) (ss : list N) (w : list N) (st : rmd_state) : rmd_state :=
  match rs, ss with
  | r :: rs', s :: ss' =>
    let q := (j / 16)%nat in
    let f := if left then rmd_f q else rmd_f (4 - q) in
    let k := if left then rmd_kl q else rmd_kr q in
    rmd_line left (S j) rs' ss' w (rmd_step f k (nth r w 0) s st)
  | _, _ => st
  end.

(** hashlib.new('ripemd160') (lib/python-bitcoinlib/bitcoin/core/serialize.py:43, core/scripteval.py:597): one block. *)
Definition rmd_block (h : rmd_state) (w : list N) : rmd_state :=
  let l := rmd_line true 0 rmd_rl rmd_sl w h in
  let r := rmd_line false 0 rmd_rr rmd_sr w h in
  Rmd (add32 (add32 (rb h) (rc l)) (rd r))
      (add32 (add32 (rc h) (rd l)) (re r))
      (add32 (add32 (rd h) (re l)) (ra r))
      (add32 (add32 (re h) (ra l)) (rb r))
      (add32 (add32 (ra h) (rb l)) (rc r)).

(** hashlib.new('ripemd160') (lib/python-bitcoinlib/bitcoin/core/serialize.py:43, core/scripteval.py:597): all blocks, with the padding at the end. *)
Fixpoint rmd_blocks (n : nat) (s : rmd_state) (ws : list N) : rmd_state :=
  match n with
  | O => s
  | S n' => rmd_blocks n' (rmd_block s (firstn 16 ws)) (skipn 16 ws)
  end.

(** hashlib.new('ripemd160') (lib/python-bitcoinlib/bitcoin/core/serialize.py:43, core/scripteval.py:597): four bytes of a word. *)
Definition le32_enc (w : N) : bytes :=
  [Nb w; Nb (N.shiftr w 8); Nb (N.shiftr w 16); Nb (N.shiftr w 24)].
(** hashlib.new('ripemd160') (lib/python-bitcoinlib/bitcoin/core/serialize.py:43, core/scripteval.py:597): the words of a message. *)
Fixpoint words_le (b : bytes) : list N :=
  match b with
  | w :: x :: y :: z :: b' => be32_dec z y x w :: words_le b'
  | _ => []
  end.

(** hashlib.new('ripemd160') (lib/python-bitcoinlib/bitcoin/core/serialize.py:43, core/scripteval.py:597): the padded message. *)
Definition rmd_pad (m : bytes) : bytes :=
  m ++ [x80] ++ repeat x00 (pad_zeros (blen m)) ++ rev (be64_enc (blen m * 8)).

(** hashlib.new('ripemd160') (lib/python-bitcoinlib/bitcoin/core/serialize.py:43, core/scripteval.py:597): the digest from the final words. *)
Definition rmd_out (s : rmd_state) : bytes :=
  le32_enc (ra s) ++ le32_enc (rb s) ++ le32_enc (rc s) ++ le32_enc (rd s) ++ le32_enc (re s).

(** hashlib.new('ripemd160') (lib/python-bitcoinlib/bitcoin/core/serialize.py:43, core/scripteval.py:597): the digest of a message. *)
Definition ripemd160 (m : bytes) : bytes :=
  let p := rmd_pad m in
  rmd_out (rmd_blocks (N.to_nat (blen p / 64)) rmd_init (words_le p)).

Lemma ripemd160_length m : List.length (ripemd160 m) = 20%nat.
Proof. reflexivity. Qed.

#[global] Opaque ripemd160.
Arguments ripemd160 : simpl never.

(** lib/python-bitcoinlib/bitcoin/core/serialize.py:41-45. *)
Definition Hash160 (m : bytes) : bytes := ripemd160 (sha256 m).

Lemma Hash160_length m : List.length (Hash160 m) = 20%nat.
Proof. apply ripemd160_length. Qed.

(** Published RIPEMD-160 test vectors. *)
Example rmd_kat_empty : to_hex (ripemd160 []) = "9c1185a5c5e9fc54612808977ee8f548b2258d31"%string.
Proof. vm_compute. reflexivity. Qed.
Example rmd_kat_abc : to_hex (ripemd160 (str "abc")) = "8eb208f7e05d987a9b044a8e98c6b087f15a0bfc"%string.
Proof. vm_compute. reflexivity. Qed.
Example rmd_kat_alpha :
  to_hex (ripemd160 (str "abcdefghijklmnopqrstuvwxyz")) = "f71c27109c692c1b56bbdceb5b9d2865b3708dbc"%string.
Proof. vm_compute. reflexivity. Qed.
Example rmd_kat_two_blocks :
  to_hex (ripemd160 (str "ABCDEFGHIJKLMNOPQRSTUVWXYZabcdefghijklmnopqrstuvwxyz0123456789"))
  = "b0e20b6e3116640286ed3a87a5713079b21f5189"%string.
Proof. vm_compute. reflexivity. Qed.
