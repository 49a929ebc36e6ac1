(** Executable model of lib/python-bitcoinlib/bitcoin/core/__init__.py (core.py): amounts as
    text (94-100), and copies of transactions between the mutable and the immutable classes
    (111-381). *)
From Verif Require Import Base Tx_Model Block_Model.

(** ** Amounts as text *)

(** The ASCII digit of [d < 10]. *)
Definition digit (d : N) : ascii := ascii_of_N (48 + d).
(** Python's decimal digits of a natural number; [fuel] digits are enough for [n < 10^fuel]. *)
Fixpoint digits (fuel : nat) (n : N) : list ascii :=
  match fuel with
  | O => []
  | S fuel' => if (n <? 10)%N then [digit n] else digits fuel' (n / 10) ++ [digit (n mod 10)]
  end.
(** [%i].  core.py:96. *)
Definition fmt_i (z : Z) : list ascii :=
  let d := digits (S (N.to_nat (N.size (Z.abs_N z)))) (Z.abs_N z) in
  if (z <? 0)%Z then "-"%char :: d else d.
(** [%08i] of a number that is not negative.  core.py:96. *)
Definition fmt_08i (z : Z) : list ascii := let d := fmt_i z in repeat "0"%char (8 - List.length d) ++ d.
(** Python's [r.rstrip('0')].  core.py:97, on the text backwards. *)
Fixpoint lstrip0 (r : list ascii) : list ascii :=
  match r with
  | c :: r' => if Ascii.eqb c "0" then lstrip0 r' else r
  | [] => []
  end.
(** core.py:97 [r.rstrip("0")]. *)
Definition rstrip0 (r : list ascii) : list ascii := rev (lstrip0 (rev r)).
(** core.py:94-100 [str_money_value]; // and % of Python are those of Coq's Z. *)
Definition str_money_value (value : Z) : result (list ascii) :=
  let r := rstrip0 (fmt_i (value / 100000000) ++ "."%char :: fmt_08i (value mod 100000000)) in
  match rev r with
  | [] => Err IndexError
  | c :: _ => Ok (if Ascii.eqb c "." then r ++ ["0"%char] else r)
  end.

(** ** Mutable and immutable objects *)

(** The class of an object: CX, or its subclass CMutableX whose attributes can be set (111-119). *)
Inductive cls := Imm | Mut.
(** 121-174: the two outpoint classes. *)
Record pout := mkPout { po_cls : cls; po_val : outpoint }.
(** 176-242. *)
Record pin := mkPin { pi_cls : cls; pi_prevout : pout; pi_scriptSig : bytes; pi_nSequence : Z }.
(** 245-301. *)
Record pq := mkPq { pq_cls : cls; pq_val : txout }.
(** 303-381. *)
Record ptx := mkPtx { pt_cls : cls; pt_vin : list pin; pt_vout : list pq; pt_nLockTime : Z; pt_nVersion : Z }.

(** core.py:153-164 [COutPoint.from_outpoint]: the name [output] is not defined. *)
Definition COutPoint_from_outpoint (p : pout) : result pout := Err NameError.
(** core.py:171-174 [CMutableOutPoint.from_outpoint]. *)
Definition CMutableOutPoint_from_outpoint (p : pout) : result pout :=
  do o <- outpoint_new (o_hash (po_val p)) (o_n (po_val p)); Ok (mkPout Mut o).
(** core.py:210-221 [CTxIn.from_txin]: COutPoint has no attribute [from_txout]. *)
Definition CTxIn_from_txin (i : pin) : result pin :=
  match pi_cls i with Imm => Ok i | Mut => Err AttributeError end.
(** core.py:238-242 [CMutableTxIn.from_txin], 228-236. *)
Definition CMutableTxIn_from_txin (i : pin) : result pin :=
  do p <- CMutableOutPoint_from_outpoint (pi_prevout i);
  do x <- txin_new (po_val p) (pi_scriptSig i) (pi_nSequence i);
  Ok (mkPin Mut p (i_scriptSig x) (i_nSequence x)).
(** core.py:280-291 [CTxOut.from_txout]. *)
Definition CTxOut_from_txout (o : pq) : pq := match pq_cls o with Imm => o | Mut => mkPq Imm (pq_val o) end.
(** core.py:298-301 [CMutableTxOut.from_txout]. *)
Definition CMutableTxOut_from_txout (o : pq) : pq := mkPq Mut (pq_val o).
(** core.py:307-320 [CTransaction(vin, vout, nLockTime, nVersion)]. *)
Definition CTransaction_new (vin : list pin) (vout : list pq) (lock ver : Z) : result ptx :=
  if negb ((0 <=? lock) && (lock <=? 0xffffffff))%Z then Err ValueError
  else do vin <- mapM CTxIn_from_txin vin; Ok (mkPtx Imm vin (map CTxOut_from_txout vout) lock ver).
(** core.py:343-353 [CTransaction.from_tx]. *)
Definition CTransaction_from_tx (t : ptx) : result ptx :=
  match pt_cls t with Imm => Ok t | Mut => CTransaction_new (pt_vin t) (pt_vout t) (pt_nLockTime t) (pt_nVersion t) end.
(** core.py:361-373 [CMutableTransaction(...)]: keeps the lists it is given. *)
Definition CMutableTransaction_new (vin : list pin) (vout : list pq) (lock ver : Z) : result ptx :=
  if negb ((0 <=? lock) && (lock <=? 0xffffffff))%Z then Err ValueError else Ok (mkPtx Mut vin vout lock ver).
(** core.py:375-381 [CMutableTransaction.from_tx]. *)
Definition CMutableTransaction_from_tx (t : ptx) : result ptx :=
  do vin <- mapM CMutableTxIn_from_txin (pt_vin t);
  CMutableTransaction_new vin (map CMutableTxOut_from_txout (pt_vout t)) (pt_nLockTime t) (pt_nVersion t).
