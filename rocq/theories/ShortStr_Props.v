(** C187: the short names of hashes. *)
From Verif Require Import Base Base58_Model Tx_Model Block_Model Hex_Model ShortStr_Model ShortStr_Spec ShortStr_Proofs.

(** The property: different hashes have different short names. *)
Definition names_differ : Prop := forall h1 h2 u1 u2, List.length h1 = 32 -> List.length h2 = 32 -> h1 <> h2 ->
  uint256_from_str h1 = Ok u1 -> uint256_from_str h2 = Ok u2 -> uint256_to_shortstr u1 <> uint256_to_shortstr u2.
(** False: hashes such as those of blocks of the main chain, whose names consist of zeros. *)
Definition block_a : bytes := rev (hex "0000000000000000000d656be18bb095db1b23bd797266b0ac3ba720b1962b1e").
Definition block_b : bytes := rev (hex "000000000000000000024bead8df69990852c202db0e0097c1a12ea637d7e96d").
Definition number (h : bytes) : Z := Z.of_N (le_dec h).
Theorem C187_names_refuted : ~ names_differ.
Proof.
  intros F. refine (F block_a block_b (number block_a) (number block_b) _ _ _ _ _ _); [vm_compute; reflexivity|vm_compute; reflexivity|vm_compute; discriminate|vm_compute; reflexivity..].
Qed.
Print Assumptions C187_names_refuted.

(** Missing: names that differ for hashes with the same first 64 bits.  The name of a hash is how its usual text begins; two names are
    equal exactly if the first 64 bits are. *)
Theorem C187_name_of_hash_partial : forall h u, uint256_from_str h = Ok u ->
  (0 <= u < 2 ^ 256)%Z /\ uint256_to_shortstr u = firstn 16 (list_ascii_of_string (b2lx (firstn 32 h))).
Proof. exact short_b2lx. Qed.
Print Assumptions C187_name_of_hash_partial.
Theorem C187_same_name_partial : forall u v, (0 <= u < 2 ^ 256)%Z -> (0 <= v < 2 ^ 256)%Z ->
  (uint256_to_shortstr u = uint256_to_shortstr v <-> (u / 2 ^ 192 = v / 2 ^ 192)%Z).
Proof. exact short_same. Qed.
Print Assumptions C187_same_name_partial.

(** The name is the number u / 2^192 in 16 digits. *)
Theorem C187_digits : forall u, (0 <= u < 2 ^ 256)%Z ->
  List.length (uint256_to_shortstr u) = 16 /\ hex_of (uint256_to_shortstr u) (Z.to_N (u / 2 ^ 192)).
Proof. exact short_first. Qed.
Print Assumptions C187_digits.

(** All blocks with enough work have one name. *)
Theorem C187_worked : forall limit h nBits target u, CheckProofOfWork limit h nBits = Ok tt -> uint256_from_compact nBits = Ok target ->
  (target < 2 ^ 192)%Z -> uint256_from_str h = Ok u -> uint256_to_shortstr u = list_ascii_of_string "0000000000000000".
Proof. exact short_worked. Qed.
Print Assumptions C187_worked.

(** Numbers that are no hashes: the first digits of a larger number with [k] digits, and the sign and 15 digits of a negative one. *)
Theorem C187_other_numbers :
  (forall u k, 64 < k -> (16 ^ Z.of_nat (k - 1) <= u < 16 ^ Z.of_nat k)%Z ->
     List.length (uint256_to_shortstr u) = 16 /\ hex_of (uint256_to_shortstr u) (Z.to_N (u / 16 ^ Z.of_nat (k - 16)))) /\
  (forall u, (- 16 ^ 63 < u < 0)%Z ->
     exists s, uint256_to_shortstr u = "-"%char :: s /\ List.length s = 15 /\ hex_of s (Z.to_N (- u / 2 ^ 192))).
Proof. split; [exact short_large|exact short_negative]. Qed.
Print Assumptions C187_other_numbers.

(** The first block of the main chain, a hash that meets the target 0x17117a39, 2^256 and -1. *)
Definition genesis : bytes := rev (hex "000000000019d6689c085ae165831e934ff763ae46a2a6c172b3f1b60a8ce26f").
Example C187_instance :
  (uint256_from_str genesis = Ok (number genesis) /\ uint256_to_shortstr (number genesis) = list_ascii_of_string "000000000019d668") /\
  (CheckProofOfWork (2 ^ 224 - 1) block_b 0x17117a39 = Ok tt /\
   uint256_from_compact 0x17117a39 = Ok (0x117a39 * 2 ^ 160)%Z /\ (0x117a39 * 2 ^ 160 < 2 ^ 192)%Z) /\
  uint256_to_shortstr (2 ^ 256) = list_ascii_of_string "1000000000000000" /\ uint256_to_shortstr (-1) = list_ascii_of_string "-000000000000000".
Proof.
  split; [split; vm_compute; reflexivity|]. split; [split; [vm_compute; reflexivity|split; vm_compute; reflexivity]|]. split; vm_compute; reflexivity.
Qed.
