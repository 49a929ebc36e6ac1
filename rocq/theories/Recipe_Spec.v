(** Vocabulary for C183: how the hash of a transaction proof, a seal or a witness is computed by hand. *)
From Verif Require Import Base Sha256 Serialize_Model Tx_Model Proof_Model Chain_Model Chain_Spec Grammar_Spec.

(** [b] is [n] in groups of seven bits, lowest first, all but the last marked with the top bit. *)
Inductive groups : Z -> bytes -> Prop :=
| groups_last : forall n x, (0 <= n < 128)%Z -> Z.of_N (bN x) = n -> groups n [x]
| groups_more : forall n x b, (128 <= n)%Z -> Z.of_N (bN x) = (128 + n mod 128)%Z -> groups (n / 128)%Z b -> groups n (x :: b).

(** Byte by byte exclusive or. *)
Definition xored (a b c : bytes) : Prop :=
  List.length a = List.length b /\ List.length c = List.length b /\
  forall k x y z, nth_error a k = Some x -> nth_error b k = Some y -> nth_error c k = Some z -> bN z = N.lxor (bN x) (bN y).

(** The pad for transactions, and the 16 bytes each other class puts before what it hashes. *)
Definition pad : bytes :=
  [x4c; xf8; x10; xb7; x3d; xc6; x05; xfb; xe6; xc2; x15; x6a; x70; x41; xe3; x70; xf4; x75; x0e; x39; xd2; xd1; x57; x31; x99; xc7; x72; xc7; x32; x4b; xd0; x54].
Definition marks (P : chain) : list (cid * bytes) :=
  [(p_outpoint P, [x55; x7e; xb5; x33; x63; xbe; x49; x7d; xb1; x63; x7d; x18; x75; xde; x96; x81]);
   (p_txin P, [x65; xd3; x4d; x83; x32; x91; x48; x13; x91; x19; xbd; x7e; x29; xb9; xde; xa3]);
   (p_txout P, [xed; x62; x46; x63; x7a; x20; x4d; xd6; x89; x80; x98; x70; x00; x3d; xfb; xe7]);
   (p_fseal P, [xe5; x69; x0d; x73; x16; xe3; x4f; x8f; xbd; x4f; x14; x8c; x32; xd3; x7b; xaf]);
   (p_fwit P, [xa5; x09; x2f; x56; x3a; x31; x47; x6a; xac; x81; x1b; x00; x21; x11; x40; xeb]);
   (p_bseal P, [xb5; x90; x93; xbf; x52; x7f; x4d; x2a; x9a; x51; x3c; x2e; x3d; x2f; x0c; x25]);
   (p_bwit P, [x2c; xa4; x64; xa0; x1b; x8c; x4a; xa5; x8e; x72; x5d; x3a; xaa; x80; x4c; xbd])].

(** [recipe P v h]: [h] is the hash of [v]; [contents P v m]: [m] is what the data hash of [v] is made of. *)
Inductive recipe (P : chain) : val -> bytes -> Prop :=
| hash_tx : forall t e h, tx_ser t = Ok e -> xored (sha256 (sha256 e)) pad h -> recipe P (TxProof P t) h
| hash_full : forall c m fs x, In (c, m) (marks P) -> contents P (PFull c fs) x -> recipe P (PFull c fs) (sha256 (m ++ sha256 x))
| hash_pruned : forall c m d, In (c, m) (marks P) -> recipe P (PHash c d) (sha256 (m ++ d))
with contents (P : chain) : val -> bytes -> Prop :=
| in_outpoint : forall p n hp bn, recipe P p hp -> groups n bn -> contents P (PFull (p_outpoint P) [p; VPrim (PyInt n)]) (hp ++ bn)
| in_txin : forall p n hp bn, recipe P p hp -> groups n bn -> contents P (TxInProof P n p) (bn ++ hp)
| in_txout : forall p n hp bn, recipe P p hp -> groups n bn -> contents P (TxOutProof P n p) (bn ++ hp)
| in_fseal : forall h, contents P (FakeSeal P h) h
| in_fwit : forall s hs, recipe P s hs -> contents P (FakeWitness P s) hs
| in_bseal : forall o n bn, List.length (o_hash o) = 32 -> le 4 (o_n o) bn -> contents P (Seal P o n) (x24 :: o_hash o ++ bn ++ n)
| in_bwit : forall s i o hs hi ho, recipe P s hs -> recipe P i hi -> recipe P o ho -> contents P (Witness P s i o) (hs ++ hi ++ ho).
