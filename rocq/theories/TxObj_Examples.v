(** Programs with transaction objects, for the examples. *)
From Verif Require Import Base Sha256 Tx_Model Tx_Spec SigHash_Model Money_Model TxObj_Model TxObj_Spec.

(** An outpoint that can be changed, in an input that cannot, in a transaction that cannot:
    objects 1 (the outpoint), 2 (the input), 3 (a list), 4 (an output), 5 (a list), 8 (the transaction). *)
Definition shared_prog : list op :=
  [NewPoint Mut (repeat x11 32) 7; NewInput Imm (Some 1%nat) [x51] 9; NewSeq Mut [2%nat]; NewOutput Imm 5 [x52]; NewSeq Mut [4%nat];
   NewTx Imm (Some 3%nat) (Some 5%nat) 0 1].
(** Hashes of byte strings that are easy to compute. *)
Definition sum_hash (b : bytes) : Z := fold_right (fun x a => Z.of_N (Byte.to_N x) + a)%Z 0%Z b.
Definition shared_store : store := snd (run sum_hash shared_prog start).
(** The hash is asked for, the outpoint is changed, and a second transaction is made of the same input (object 11). *)
Definition stale_store : store := snd (run sum_hash [AskHash 8%nat; AskPyHash 8%nat; SetAttr 1%nat (FN 8); NewTx Imm (Some 3%nat) (Some 5%nat) 0 1] shared_store).
(** A serialized transaction with two inputs and two outputs. *)
Definition two_bytes : bytes :=
  match tx_ser (mkTx [mkTxIn (mkOutPoint (repeat x22 32) 0) [x51] 0xffffffff; mkTxIn (mkOutPoint (repeat x33 32) 1) [] 5]
                     [mkTxOut 10 [x51]; mkTxOut 20 [x52; xab]] 3 2) with Ok b => b | Err _ => [] end.
(** Read as an immutable transaction (object 11, with its inputs 2 and 4) and as a mutable one (object 20, inputs 13 and 15, list 16). *)
Definition loaded_store : store := snd (run sum_hash [LoadTx Imm two_bytes; LoadTx Mut two_bytes] start).
