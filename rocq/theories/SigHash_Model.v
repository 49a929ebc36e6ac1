(** Executable model of signature hashes:
    lib/python-bitcoinlib/bitcoin/core/script.py:783-865 (cited as script.py), with the
    copying of transactions of lib/python-bitcoinlib/bitcoin/core/__init__.py (core.py). *)
From Verif Require Import Base PySlice Sha256 Tx_Model Script_Model Block_Model.

(** script.py:789, 794: [script[a:b]] with [0 <= a <= b]. *)
Definition sub_bytes (s : bytes) (a b : nat) : bytes := firstn (b - a) (skipn a s).

(** script.py:785-797: the loop over [raw_iter()] and what follows it. *)
Fixpoint fad_loop (script sig : bytes) (items : list (N * option bytes * nat)) (r : bytes) (last_sop_idx : nat) (skip : bool) : bytes :=
  match items with
  | [] => if skip then r else r ++ skipn last_sop_idx script
  | (_, _, sop_idx) :: items' =>
    let r := if skip then r else r ++ sub_bytes script last_sop_idx sop_idx in
    fad_loop script sig items' r sop_idx (bytes_eqb (sub_bytes script sop_idx (sop_idx + List.length sig)) sig)
  end.
(** script.py:783-798 [FindAndDelete]; an exception of raw_iter propagates. *)
Definition FindAndDelete (script sig : bytes) : result bytes :=
  let '(items, e) := raw_iter script in
  match e with
  | Some e => Err e
  | None => Ok (fad_loop script sig items [] 0 true)
  end.

(** core.py:171-174, 238-242, 298-301, 375-381 [CMutableTransaction.from_tx]: the fields are
    checked again by the constructors (125-131, 228-236, 361-364). *)
Definition txin_copy (i : txin) : result txin :=
  do p <- outpoint_new (o_hash (i_prevout i)) (o_n (i_prevout i));
  txin_new p (i_scriptSig i) (i_nSequence i).
(** core.py:375-381: the whole transaction. *)
Definition tx_copy (t : tx) : result tx :=
  do vin <- mapM txin_copy (t_vin t);
  tx_new vin (t_vout t) (t_nLockTime t) (t_nVersion t).

(** script.py:810. *)
Definition HASH_ONE : bytes := x01 :: repeat x00 31.

(** core.py:253 [CTxOut()]. *)
Definition txout_default : txout := mkTxOut (-1) [].

(** script.py:818 [txtmp.vin[inIdx].scriptSig = s]: Python's indexing. *)
Fixpoint set_nth_script (vin : list txin) (k : nat) (s : bytes) : list txin :=
  match vin, k with
  | [], _ => []
  | i :: vin', O => mkTxIn (i_prevout i) s (i_nSequence i) :: vin'
  | i :: vin', S k' => i :: set_nth_script vin' k' s
  end.
(** script.py:818: with an index from the end, or IndexError. *)
Definition set_script (vin : list txin) (inIdx : Z) (s : bytes) : result (list txin) :=
  do _ <- py_index vin inIdx;
  let k := if (inIdx <? 0)%Z then (inIdx + Z.of_nat (List.length vin))%Z else inIdx in
  Ok (set_nth_script vin (Z.to_nat k) s).

(** script.py:823-825 and 838-840: nSequence 0 for every index but [inIdx]. *)
Fixpoint zero_sequences (inIdx : Z) (i : Z) (vin : list txin) : list txin :=
  match vin with
  | [] => []
  | x :: vin' =>
    (if (i =? inIdx)%Z then x else mkTxIn (i_prevout x) (i_scriptSig x) 0) :: zero_sequences inIdx (i + 1) vin'
  end.

(** script.py:801-852 [RawSignatureHash]; the second component tells whether an error message
    is returned. *)
Definition RawSignatureHash (script : bytes) (txTo : tx) (inIdx : Z) (hashtype : Z) : result (bytes * bool) :=
  if (Z.of_nat (List.length (t_vin txTo)) <=? inIdx)%Z then Ok (HASH_ONE, true)
  else
    do txtmp <- tx_copy txTo;
    let vin := map (fun i => mkTxIn (i_prevout i) [] (i_nSequence i)) (t_vin txtmp) in
    do s <- FindAndDelete script [xab];
    do vin <- set_script vin inIdx s;
    let vout := t_vout txtmp in
    let finish (vin : list txin) (vout : list txout) :=
      do vin <- (if (Z.land hashtype 0x80 =? 0)%Z then Ok vin else do tmp <- py_index vin inIdx; Ok [tmp]);
      do s <- tx_ser (mkTx vin vout (t_nLockTime txtmp) (t_nVersion txtmp));
      do h <- pack_u 4 hashtype;
      Ok (Hash (s ++ h), false) in
    if (Z.land hashtype 0x1f =? 2)%Z then finish (zero_sequences inIdx 0 vin) []
    else if (Z.land hashtype 0x1f =? 3)%Z then
      if (Z.of_nat (List.length vout) <=? inIdx)%Z then Ok (HASH_ONE, true)
      else
        do tmp <- py_index vout inIdx;
        finish (zero_sequences inIdx 0 vin) (repeat txout_default (Z.to_nat inIdx) ++ [tmp])
    else finish vin vout.

(** script.py:855-865 [SignatureHash]. *)
Definition SignatureHash (script : bytes) (txTo : tx) (inIdx : Z) (hashtype : Z) : result bytes :=
  do (h, err) <- RawSignatureHash script txTo inIdx hashtype;
  if err then Err ValueError else Ok h.
