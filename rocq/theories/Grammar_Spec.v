(** The byte strings that spell a transaction or a proof: the wire format as a grammar, apart from the code
    that reads it. *)
From Verif Require Import Base Bits_Spec Serialize_Model Serialize_Spec Tx_Model Proof_Model.

(** ** Transactions *)

(** [b] is [n] in [k] little-endian bytes; the same for integers in two's complement. *)
Fixpoint little (b : bytes) : Z := match b with [] => 0 | x :: b' => Z.of_N (bN x) + 256 * little b' end%Z.
Definition le (k : nat) (n : Z) (b : bytes) : Prop := List.length b = k /\ little b = n.
Definition le_signed (k : nat) (v : Z) (b : bytes) : Prop :=
  let m := (2 ^ (8 * Z.of_nat k))%Z in le k (v mod m)%Z b /\ (- m <= 2 * v < m)%Z.
(** [b] is a count in one of the four widths, not necessarily the narrowest. *)
Inductive count (n : Z) : bytes -> Prop :=
| count1 : forall x, Z.of_N (bN x) = n -> (n < 0xfd)%Z -> count n [x]
| count2 : forall b, le 2 n b -> count n (xfd :: b)
| count4 : forall b, le 4 n b -> count n (xfe :: b)
| count8 : forall b, le 8 n b -> count n (xff :: b).
(** Items one after the other. *)
Inductive each {A} (f : A -> bytes -> Prop) : list A -> bytes -> Prop :=
| each_nil : each f [] []
| each_cons : forall a l b bs, f a b -> each f l bs -> each f (a :: l) (b ++ bs).
Inductive counted {A} (f : A -> bytes -> Prop) (l : list A) : bytes -> Prop :=
| counted_intro : forall h b, count (Z.of_nat (List.length l)) h -> each f l b -> counted f l (h ++ b).
(** A script, at most 32 MiB. *)
Inductive script_text (s : bytes) : bytes -> Prop :=
| script_text_intro : forall h, count (Z.of_N (blen s)) h -> (blen s <= 0x02000000)%N -> script_text s (h ++ s).
Inductive outpoint_text (o : outpoint) : bytes -> Prop :=
| outpoint_text_intro : forall n, List.length (o_hash o) = 32 -> le 4 (o_n o) n -> outpoint_text o (o_hash o ++ n).
Inductive txin_text (i : txin) : bytes -> Prop :=
| txin_text_intro : forall p s q, outpoint_text (i_prevout i) p -> script_text (i_scriptSig i) s -> le 4 (i_nSequence i) q -> txin_text i (p ++ s ++ q).
Inductive txout_text (o : txout) : bytes -> Prop :=
| txout_text_intro : forall v s, le_signed 8 (o_nValue o) v -> script_text (o_scriptPubKey o) s -> txout_text o (v ++ s).
Inductive tx_text (t : tx) : bytes -> Prop :=
| tx_text_intro : forall v i o l, le_signed 4 (t_nVersion t) v -> counted txin_text (t_vin t) i -> counted txout_text (t_vout t) o ->
    le 4 (t_nLockTime t) l -> tx_text t (v ++ i ++ o ++ l).

(** ** Proofs *)

(** [b] is the number [n] in base 128, with or without leading zero digits. *)
Definition uint (n : N) (b : bytes) : Prop := varuint_framed b /\ varuint_value b = n.

(** [v] is an instance of one of the classes [u]. *)
Definition one_of (ct : ctable) (u : list cid) (v : val) : Prop :=
  exists k m, class_of v = Some k /\ In m u /\ In m (c_supers (ct k)).
(** What a constructor demands of an attribute that is a proof. *)
Definition admitted (ct : ctable) (sr : ser) (v : val) : Prop :=
  match sr with
  | SerProof c => match c_kind (ct c) with Plain => True | Variant u => one_of ct u v end
  | SerUnion cs => one_of ct cs v
  | _ => True
  end.
(** The class [uc] of a proof declared as [c], and the number [ix] written for it. *)
Inductive chosen (ct : ctable) (c : cid) : cid -> bytes -> Prop :=
| chosen_plain : c_kind (ct c) = Plain -> chosen ct c c []
| chosen_variant : forall u i uc ix, c_kind (ct c) = Variant u -> nth_error u i = Some uc -> uint (N.of_nat i) ix -> chosen ct c uc ix.

(** [spells ct sr v b]: [b] is a spelling of the value [v] of declared type [sr]. *)
Inductive spells (ct : ctable) : ser -> val -> bytes -> Prop :=
| sp_true : spells ct (SerPrim SBool) (VPrim (PyBool true)) [xff]
| sp_false : spells ct (SerPrim SBool) (VPrim (PyBool false)) [x00]
| sp_fixed : forall n d, blen d = n -> spells ct (SerPrim (SFixed n)) (VPrim (PyBytes d)) d
| sp_var : forall mn mx h d, uint (blen d) h -> (mn <= blen d <= mx)%N -> spells ct (SerPrim (SVarBytes mn mx)) (VPrim (PyBytes d)) (h ++ d)
| sp_uint : forall mx n h, uint n h -> (Z.of_N n <= mx)%Z -> spells ct (SerPrim (SUInt mx)) (VPrim (PyInt (Z.of_N n))) h
(** The bits, most significant first in each byte, filled up with zeros; C07 on which survive. *)
| sp_bits : forall l h p, uint (N.of_nat (List.length l)) h -> List.length p = (List.length l + 7) / 8 ->
    bytes_bits p = l ++ repeat false (8 * List.length p - List.length l) -> bits_survive l -> spells ct SerBits (VBits l) (h ++ p)
(** Exactly the bytes of one transaction or outpoint, with their number. *)
| sp_tx : forall t h e, uint (blen e) h -> tx_text t e -> spells ct SerTx (VTx t) (h ++ e)
| sp_out : forall o h e, uint (blen e) h -> outpoint_text o e -> spells ct SerOut (VOut o) (h ++ e)
(** A proof reduced to its data hash, or all its attributes in order. *)
| sp_pruned : forall c dh, List.length dh = 32 -> spells ct (SerProof c) (PHash c dh) (xff :: dh)
| sp_full : forall c uc ix fs body, chosen ct c uc ix -> spells_all ct (c_attrs (ct uc)) fs body ->
    spells ct (SerProof c) (PFull uc fs) (x00 :: ix ++ body)
| sp_union : forall cs i c h v b, nth_error cs i = Some c -> uint (N.of_nat i) h -> spells ct (SerProof c) v b ->
    spells ct (SerUnion cs) v (h ++ b)
with spells_all (ct : ctable) : list (string * ser) -> list val -> bytes -> Prop :=
| sp_nil : spells_all ct [] [] []
| sp_cons : forall name sr attrs v fs b bs, spells ct sr v b -> admitted ct sr v -> spells_all ct attrs fs bs ->
    spells_all ct ((name, sr) :: attrs) (v :: fs) (b ++ bs).
