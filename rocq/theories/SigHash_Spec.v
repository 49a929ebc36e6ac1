(** What a signature hash should cover, apart from the code that computes it. *)
From Verif Require Import Base Sha256 Tx_Model Tx_Spec Script_Model.
Local Open Scope Z_scope.

(** A script that is one operation. *)
Definition one_op (c : bytes) : Prop := exists op d k, raw_iter c = ([(op, d, k)], None).
(** Script [s] is the operations [chunks], byte for byte. *)
Definition splits (chunks : list bytes) (s : bytes) : Prop := Forall one_op chunks /\ concat chunks = s.
(** The operations other than [p]. *)
Definition without (p : bytes) (chunks : list bytes) : list bytes := filter (fun c => negb (bytes_eqb c p)) chunks.
(** [c] is [s] without its OP_CODESEPARATORs. *)
Definition scriptcode (s c : bytes) : Prop := exists chunks, splits chunks s /\ c = concat (without [xab] chunks).

(** The parts of a hash type. *)
Definition base (ht : Z) : Z := ht mod 32.
Definition anyone (ht : Z) : bool := Z.testbit ht 7.
(** Types that leave the sequence numbers of the other inputs open. *)
Definition loose (ht : Z) : bool := (base ht =? 2) || (base ht =? 3).

(** Input [y] is what is signed of input [x] at position [j], signing input [i] with script [c]. *)
Definition signed_input (ht : Z) (i : nat) (c : bytes) (j : nat) (x y : txin) : Prop :=
  i_prevout y = i_prevout x /\
  i_scriptSig y = (if Nat.eqb j i then c else []) /\
  i_nSequence y = (if Nat.eqb j i || negb (loose ht) then i_nSequence x else 0).

Definition signed_inputs (ht : Z) (i : nat) (c : bytes) (vin vin' : list txin) : Prop :=
  if anyone ht then exists x y, nth_error vin i = Some x /\ vin' = [y] /\ signed_input ht i c i x y
  else List.length vin' = List.length vin /\ (i < List.length vin)%nat /\
       forall j x y, nth_error vin j = Some x -> nth_error vin' j = Some y -> signed_input ht i c j x y.

Definition signed_outputs (ht : Z) (i : nat) (vout vout' : list txout) : Prop :=
  if base ht =? 2 then vout' = []
  else if base ht =? 3 then exists o, nth_error vout i = Some o /\ vout' = repeat (mkTxOut (-1) []) i ++ [o]
  else vout' = vout.

(** [m] is the message a signature of type [ht] for input [i] of [t] with script [s] signs:
    a serialized transaction holding what is covered, and the type. *)
Definition signs (s : bytes) (t : tx) (i : nat) (ht : Z) (m : bytes) : Prop :=
  exists c t' st, scriptcode s c /\
    signed_inputs ht i c (t_vin t) (t_vin t') /\ signed_outputs ht i (t_vout t) (t_vout t') /\
    t_nVersion t' = t_nVersion t /\ t_nLockTime t' = t_nLockTime t /\
    tx_ser t' = Ok st /\ m = st ++ le_enc 4 (Z.to_N ht).

(** What a signature of type [ht] covers is the same for input [i1] of [t1] and input [i2] of [t2]. *)
Definition same_covered (ht : Z) (t1 : tx) (i1 : nat) (t2 : tx) (i2 : nat) : Prop :=
  t_nVersion t1 = t_nVersion t2 /\ t_nLockTime t1 = t_nLockTime t2 /\
  (exists x1 x2, nth_error (t_vin t1) i1 = Some x1 /\ nth_error (t_vin t2) i2 = Some x2 /\
     i_prevout x1 = i_prevout x2 /\ i_nSequence x1 = i_nSequence x2) /\
  (anyone ht = false -> i1 = i2 /\ map i_prevout (t_vin t1) = map i_prevout (t_vin t2)) /\
  (anyone ht = false -> loose ht = false -> map i_nSequence (t_vin t1) = map i_nSequence (t_vin t2)) /\
  (base ht = 3 -> i1 = i2 /\ exists o, nth_error (t_vout t1) i1 = Some o /\ nth_error (t_vout t2) i2 = Some o) /\
  (loose ht = false -> t_vout t1 = t_vout t2).
