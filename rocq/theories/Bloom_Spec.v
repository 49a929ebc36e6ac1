(** What a bloom filter is, apart from bloom.py: the published MurmurHash3 (x86, 32 bit), the
    bits of a filter, and the positions an element stands for. *)
From Verif Require Import Base Tx_Model Bloom_Model Grammar_Spec.
Local Open Scope Z_scope.

(** ** MurmurHash3_x86_32 on 32-bit words *)

Definition W (x : Z) : Z := x mod 2 ^ 32.
(** Rotation to the left: the upper bits reappear below. *)
Definition rotl (r x : Z) : Z := W (x * 2 ^ r) + x / 2 ^ (32 - r).
Definition mix (k : Z) : Z := W (rotl 15 (W (k * 0xcc9e2d51)) * 0x1b873593).
Definition absorb (h k : Z) : Z := W (rotl 13 (Z.lxor h (mix k)) * 5 + 0xe6546b64).
(** Four bytes at a time, little-endian; the rest is mixed in without the second step. *)
Fixpoint absorb_all (h : Z) (d : bytes) : Z :=
  match d with
  | w :: x :: y :: z :: d' => absorb_all (absorb h (little [w; x; y; z])) d'
  | rest => Z.lxor h (mix (little rest))
  end.
Definition down (k h : Z) : Z := Z.lxor h (h / 2 ^ k).
Definition avalanche (h : Z) : Z := down 16 (W (down 13 (W (down 16 h * 0x85ebca6b)) * 0xc2b2ae35)).
Definition murmur (seed : Z) (d : bytes) : Z :=
  avalanche (Z.lxor (absorb_all seed d) (W (Z.of_nat (List.length d)))).

(** ** Filters *)

(** Bit [k] of an array of bytes, least significant first in each byte. *)
Definition bit_set (v : bytes) (k : Z) : Prop :=
  0 <= k /\ exists b, nth_error v (Z.to_nat (k / 8)) = Some b /\ Z.testbit (bZ b) (k mod 8) = true.

(** The bytes an element stands for. *)
Inductive stands_for : elem -> bytes -> Prop :=
| stands_bytes : forall d, stands_for (EBytes d) d
| stands_out : forall o d, outpoint_text o d -> stands_for (EOut o) d.

(** Bit [k] is one of those an element made of the bytes [d] occupies in [f]. *)
Definition occupies (f : filter) (d : bytes) (k : Z) : Prop :=
  exists i, 0 <= i < f_nHashFuncs f /\
    k = murmur (W (i * 0xFBA4C795 + f_nTweak f)) d mod (8 * Z.of_nat (List.length (f_vData f))).

(** The shape of a filter: all but its bits. *)
Definition same_shape (f g : filter) : Prop :=
  f_nHashFuncs g = f_nHashFuncs f /\ f_nTweak g = f_nTweak f /\ f_nFlags g = f_nFlags f /\
  List.length (f_vData g) = List.length (f_vData f).

(** A filter that can be used: it has bits, or needs none. *)
Definition usable (f : filter) : Prop := f_vData f <> [] \/ f_nHashFuncs f <= 0.

(** Inserting one element after the other. *)
Fixpoint insert_all (f : filter) (es : list elem) : result filter :=
  match es with [] => Ok f | e :: es' => do f <- insert f e; insert_all f es' end.

(** [s] is the text of the filter [f]: its bits with their number, then the other attributes. *)
Inductive filter_text (f : filter) : bytes -> Prop :=
| filter_text_intro : forall c h t g, count (Z.of_N (blen (f_vData f))) c -> le 4 (f_nHashFuncs f) h ->
    le 4 (f_nTweak f) t -> le 1 (f_nFlags f) g -> filter_text f (c ++ f_vData f ++ h ++ t ++ g).
