(** Executable model of which inputs are final:
    lib/python-bitcoinlib/bitcoin/core/__init__.py (cited as core.py). *)
From Verif Require Import Base Tx_Model.

(** core.py:204-205 [CTxIn.is_final]. *)
Definition txin_is_final (i : txin) : bool := (i_nSequence i =? 0xffffffff)%Z.
