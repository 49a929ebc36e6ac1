(** What block headers, blocks and the block checks mean, in words that do not
    refer to the code. *)
From Verif Require Import Base Sha256 Tx_Model Tx_Spec Script_Model Block_Model.

(** Field values a header can have on the wire. *)
Definition wf_header (h : header) : Prop :=
  (- 2 ^ 31 <= h_nVersion h < 2 ^ 31)%Z /\ List.length (h_prev h) = 32 /\ List.length (h_merkle h) = 32 /\
  (0 <= h_nTime h < 2 ^ 32)%Z /\ (0 <= h_nBits h < 2 ^ 32)%Z /\ (0 <= h_nNonce h < 2 ^ 32)%Z.
Definition wf_block (b : block) : Prop :=
  wf_header (b_header b) /\ Forall wf_tx (b_vtx b) /\ (Z.of_nat (List.length (b_vtx b)) < 2 ^ 64)%Z.

(** ** The merkle tree of a list of transaction ids *)

(** Neighbours joined two by two; a last odd one is joined with itself. *)
Fixpoint joined (l : list bytes) : list bytes :=
  match l with
  | [] => []
  | [a] => [a ++ a]
  | a :: b :: l' => (a ++ b) :: joined l'
  end.

(** [level k l]: the [k]-th level of hashes above [l]. *)
Fixpoint level (k : nat) (l : list bytes) : list bytes :=
  match k with O => l | S k' => level k' (map Hash (joined l)) end.

(** [r] is the merkle root of [l]: the only element of some level, every level
    below having more than one. *)
Definition is_merkle_root (l : list bytes) (r : bytes) : Prop :=
  exists k, level k l = [r] /\ forall i, i < k -> 1 < List.length (level i l).

(** The strings hashed to obtain the merkle root of [l]. *)
Definition merkle_hashed (l : list bytes) (x : bytes) : Prop :=
  exists k, 1 < List.length (level k l) /\ In x (joined (level k l)).

(** The strings hashed to obtain the hash of the block and the ids its merkle
    root commits to: the header, the transactions, the inner nodes. *)
Definition block_hashed (b : block) (x : bytes) : Prop :=
  header_ser (b_header b) = Ok x \/
  (exists t, In t (b_vtx b) /\ tx_ser t = Ok x) \/
  exists ids, Forall2 (fun t i => tx_GetHash t = Ok i) (b_vtx b) ids /\ merkle_hashed ids x.

(** Two different strings with the same double-SHA256 hash. *)
Definition collide (x y : bytes) : Prop := x <> y /\ Hash x = Hash y.

(** Two different strings hashed for the merkle roots of [a] and [b] with the same hash. *)
Definition clash (a b : list bytes) : Prop :=
  exists x y, merkle_hashed a x /\ merkle_hashed b y /\ collide x y.
(** Two different strings hashed for the blocks [b1] and [b2] with the same hash. *)
Definition any_clash (b1 b2 : block) : Prop :=
  exists x y, (block_hashed b1 x \/ block_hashed b2 x) /\ (block_hashed b1 y \/ block_hashed b2 y) /\ collide x y.

(** Lists of 32-byte strings. *)
Definition all32 (l : list bytes) : Prop := Forall (fun x => List.length x = 32) l.

(** ** A transaction on its own *)

(** Sum of the output values. *)
Definition value_out (l : list txout) : Z := fold_right (fun o s => o_nValue o + s)%Z 0%Z l.

(** A null outpoint: hash zero, index 2^32-1. *)
Definition null_outpoint (o : outpoint) : Prop := o_hash o = repeat x00 32 /\ o_n o = (2 ^ 32 - 1)%Z.

(** A coinbase: one input, whose outpoint is null. *)
Definition coinbase (t : tx) : Prop := exists i, t_vin t = [i] /\ null_outpoint (i_prevout i).

(** The rules every transaction has to satisfy by itself. *)
Record valid_tx (t : tx) : Prop := {
  vt_inputs : t_vin t <> [];
  vt_outputs : t_vout t <> [];
  vt_size : exists enc, tx_ser t = Ok enc /\ (blen enc <= 1000000)%N;
  vt_values : Forall (fun o => 0 <= o_nValue o)%Z (t_vout t);
  vt_total : (value_out (t_vout t) <= 21000000 * 100000000)%Z;
  vt_distinct : NoDup (map i_prevout (t_vin t));
  vt_coinbase : coinbase t -> forall i, In i (t_vin t) -> 2 <= List.length (i_scriptSig i) <= 100;
  vt_spends : ~ coinbase t -> Forall (fun i => ~ null_outpoint (i_prevout i)) (t_vin t) }.

(** ** Proof of work *)

(** The number written in compact form: the top byte counts the bytes of the
    number, bit 23 is the sign, the low 23 bits are its leading bits. *)
Definition compact_value (c : Z) : Z :=
  let size := (c / 2 ^ 24)%Z in
  let mant := (c mod 2 ^ 23)%Z in
  let v := if (size <? 3)%Z then (mant / 256 ^ (3 - size))%Z else (mant * 256 ^ (size - 3))%Z in
  if Z.testbit c 23 then (- v)%Z else v.

(** [hash] read as a little-endian number. *)
Definition hash_number (h : bytes) : Z := fold_right (fun b n => bZ b + 256 * n)%Z 0%Z h.

(** The work claimed is within the limit and the hash shows it. *)
Definition enough_work (limit : Z) (hash : bytes) (nBits : Z) : Prop :=
  (0 < compact_value nBits <= limit)%Z /\ (hash_number hash <= compact_value nBits)%Z.

(** ** Signature operations *)

(** Weight of one opcode in the legacy count. *)
Definition sigop_weight (op : N) : N :=
  if ((op =? 0xac) || (op =? 0xad))%N then 1%N
  else if ((op =? 0xae) || (op =? 0xaf))%N then 20%N else 0%N.
Definition Nsum (l : list N) : N := fold_right N.add 0%N l.

(** A script that can be iterated to its end. *)
Definition parses (s : bytes) : Prop := exists items, script_iter s = (items, None).
(** What an iterated item counts: signature checks 1, multisignature checks 20,
    anything else, in particular pushed data, nothing. *)
Definition item_weight (x : cooked) : N := match x with COp op => sigop_weight op | _ => 0%N end.
Definition sigops (s : bytes) : N := Nsum (map item_weight (fst (script_iter s))).

(** The accurate count: a multisignature check preceded by a small number counts
    that number.  [prev] is the item before. *)
Fixpoint accurate_from (prev : cooked) (l : list cooked) : N :=
  match l with
  | [] => 0%N
  | x :: l' =>
    (match x, prev with
     | COp op, CInt n => if ((op =? 0xae) || (op =? 0xaf))%N then Z.to_N n else sigop_weight op
     | _, _ => item_weight x
     end + accurate_from x l')%N
  end.
Definition accurate_sigops (l : list cooked) : N := accurate_from (COp 0xff) l.
(** Some multisignature check comes right after a small number. *)
Definition numbered_multisig (l : list cooked) : Prop :=
  exists l1 l2 n op, l = l1 ++ CInt n :: COp op :: l2 /\ (op = 0xae \/ op = 0xaf)%N.

Definition tx_scripts (t : tx) : list bytes := map i_scriptSig (t_vin t) ++ map o_scriptPubKey (t_vout t).
Definition tx_sigops (t : tx) : N := Nsum (map sigops (tx_scripts t)).

(** ** Acceptance of a block *)

(** [r] is the merkle root of the ids of the transactions [l]. *)
Definition merkle_root_of (l : list tx) (r : bytes) : Prop :=
  exists ids, Forall2 (fun t i => tx_GetHash t = Ok i) l ids /\ is_merkle_root ids r.

(** What CheckBlock establishes of a block (the proof of work apart). *)
Record checked_block (b : block) (merkle : bool) (now : Z) : Prop := {
  cb_time : (h_nTime (b_header b) <= now + 7200)%Z;
  cb_size : exists enc, block_ser b = Ok enc /\ (blen enc <= 1000000)%N;
  cb_txs : exists t0 rest, b_vtx b = t0 :: rest /\ coinbase t0 /\
    Forall (fun t => ~ coinbase t /\ valid_tx t /\ Forall parses (tx_scripts t)) rest /\
    (exists ids, Forall2 (fun t i => tx_GetHash t = Ok i) rest ids /\ NoDup ids) /\
    (Nsum (map tx_sigops rest) <= 20000)%N;
  cb_merkle : merkle = true -> merkle_root_of (b_vtx b) (h_merkle (b_header b)) }.

(** The errors the checks document: all are ValidationErrors. *)
Definition validation_error (e : exn) : Prop :=
  In e [CheckTransactionError; CheckProofOfWorkError; CheckBlockHeaderError; CheckBlockError].
