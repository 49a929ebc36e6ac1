(** Vocabulary for C185: how the hash of a mountain range or a merbinner tree is computed by hand from the list or the map. *)
From Verif Require Import Base Sha256 Bits_Spec Serialize_Model Proof_Model Proof_Spec Mmr_Model Mmr_Spec Merbinner_Model Merbinner_Spec Recipe_Spec.

(** The bits, most significant first in each byte, the last byte filled up with zeros, after their number in groups of seven bits. *)
Definition packed (l : list bool) (b : bytes) : Prop := exists h p, b = h ++ p /\ groups (Z.of_nat (List.length l)) h /\
  List.length p = (List.length l + 7) / 8 /\ bytes_bits p = l ++ repeat false (8 * List.length p - List.length l).

(** The 16 bytes that a kind of node puts before what it hashes: made of the mark of the kind and the HASHTAG [t] of the class. *)
Definition marked_with (kind t : bytes) : bytes :=
  firstn 16 (sha256 ([x81; x25; xd2; x27; x98; x1c; x4c; xa0; xaf; xa7; xab; x99; x11; x35; x2c; x85] ++ kind ++ t)).
Definition mmr_empty_mark : bytes := [x39; x0d; xe3; x07; x87; x87; x47; xb7; xb2; x5d; x25; x0a; xba; x02; xb1; xe5].
Definition mmr_leaf_mark : bytes := [x4e; xa0; x9c; x8e; x87; xf5; x49; x78; xa8; x29; x78; xd4; x2a; xb8; x63; x8a].
Definition mmr_inner_mark : bytes := [xa7; xca; x25; xce; x8f; xee; x40; x63; xb0; x22; x96; xb2; xdb; xcb; x39; x2e].
Definition mbt_empty_mark : bytes := [xca; x38; x0e; x10; xc7; xd5; x44; xdf; xae; xf0; x55; xbc; xe2; x12; x53; x29].
Definition mbt_leaf_mark : bytes := [xf5; xcc; x85; x5e; x9d; x21; x4f; x8d; xab; x42; x78; x83; xc7; x65; xc3; x23].
Definition mbt_inner_mark : bytes := [x66; xd7; x47; x41; x0f; xfd; x41; x78; x9a; x79; x64; x1a; x45; xe2; x3d; xda].

(** [enc v e]: the item contributes the bytes [e]: its hash if it is a proof, its encoding otherwise. *)
Inductive mmr_hash (enc : val -> bytes -> Prop) (t : bytes) : list val -> bytes -> Prop :=
| mh_empty : mmr_hash enc t [] (sha256 (marked_with mmr_empty_mark t ++ sha256 []))
| mh_leaf : forall v e, enc v e -> mmr_hash enc t [v] (sha256 (marked_with mmr_leaf_mark t ++ sha256 e))
| mh_inner : forall n k vs hl hr bn, n = Z.of_nat (List.length vs) -> (1 < n)%Z -> split_at n k ->
    mmr_hash enc t (firstn (Z.to_nat (n - k)) vs) hl -> mmr_hash enc t (skipn (Z.to_nat (n - k)) vs) hr -> groups n bn ->
    mmr_hash enc t vs (sha256 (marked_with mmr_inner_mark t ++ sha256 (hl ++ hr ++ bn))).

(** The same for a map [D], with the bits [k2p k] of the keys. *)
Inductive mbt_hash (kenc venc : val -> bytes -> Prop) (k2p : val -> list bool) (t : bytes) : list (val * val) -> bytes -> Prop :=
| bh_empty : mbt_hash kenc venc k2p t [] (sha256 (marked_with mbt_empty_mark t ++ sha256 []))
| bh_leaf : forall k v kb vb, kenc k kb -> venc v vb -> mbt_hash kenc venc k2p t [(k, v)] (sha256 (marked_with mbt_leaf_mark t ++ sha256 (kb ++ vb)))
| bh_inner : forall D p bp hl hr, 2 <= List.length D -> longest_prefix k2p D p -> packed p bp ->
    mbt_hash kenc venc k2p t (under k2p (p ++ [false]) D) hl -> mbt_hash kenc venc k2p t (under k2p (p ++ [true]) D) hr ->
    mbt_hash kenc venc k2p t D (sha256 (marked_with mbt_inner_mark t ++ sha256 (bp ++ hl ++ hr))).
