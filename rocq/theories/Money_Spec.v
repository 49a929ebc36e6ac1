(** What the text of an amount means, and what copies of transactions should be. *)
From Verif Require Import Base Tx_Model Tx_Spec Money_Model.
Local Open Scope Z_scope.

(** The value of a decimal digit, and of a string of them. *)
Definition digit_value (c : ascii) : option Z :=
  let n := Z.of_N (N_of_ascii c) in if (48 <=? n) && (n <=? 57) then Some (n - 48) else None.
Inductive number : list ascii -> Z -> Prop :=
| number_nil : number [] 0
| number_snoc : forall l c v d, number l v -> digit_value c = Some d -> number (l ++ [c]) (10 * v + d).

(** [s] reads as the amount of [v] satoshis: sign, coins, point, at most eight decimals. *)
Inductive reads : list ascii -> Z -> Prop :=
| reads_plus : forall ip fp a b, number ip a -> ip <> [] -> number fp b -> fp <> [] -> (List.length fp <= 8)%nat ->
    reads (ip ++ "."%char :: fp) (a * 10 ^ 8 + b * 10 ^ (8 - Z.of_nat (List.length fp)))
| reads_minus : forall s v, (forall s', s <> "-"%char :: s') -> reads s v -> reads ("-"%char :: s) (- v).

(** No zeros that could be left out. *)
Definition trimmed (s : list ascii) : Prop :=
  (forall r, s = r ++ ["0"%char] -> exists q, s = q ++ ["."%char; "0"%char]) /\
  (forall r, s = "0"%char :: r -> exists q, s = "0"%char :: "."%char :: q).

(** The contents of a transaction object, whatever the classes of its parts. *)
Definition contents (t : ptx) : tx :=
  mkTx (map (fun i => mkTxIn (po_val (pi_prevout i)) (pi_scriptSig i) (pi_nSequence i)) (pt_vin t))
       (map pq_val (pt_vout t)) (pt_nLockTime t) (pt_nVersion t).
(** Every part is of class [c]. *)
Definition in_class (c : cls) (i : pin) : Prop := pi_cls i = c /\ po_cls (pi_prevout i) = c.
Definition all_class (c : cls) (t : ptx) : Prop :=
  pt_cls t = c /\ Forall (in_class c) (pt_vin t) /\ Forall (fun o => pq_cls o = c) (pt_vout t).
