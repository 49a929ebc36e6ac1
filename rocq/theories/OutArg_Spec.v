(** Vocabulary for the outpoint argument of sus-tool.py. *)
From Verif Require Import Base Tx_Model Rpc_Spec.
#[local] Open Scope string_scope.

(** Decimal digits, single underscores between them, and the digits they are. *)
Definition decimal (c : ascii) (d : Z) : Prop := (Z.of_N (N_of_ascii c) = 48 + d /\ 0 <= d < 10)%Z.
Inductive digits_in : string -> list Z -> Prop :=
| digit_last : forall c d, decimal c d -> digits_in (String c "") [d]
| digit_next : forall c d s ds, decimal c d -> digits_in s ds -> digits_in (String c s) (d :: ds)
| digit_under : forall c d s ds, decimal c d -> digits_in s ds -> digits_in (String c (String "_" s)) (d :: ds).
(** The number with these digits. *)
Definition number_of (ds : list Z) : Z := fold_left (fun n d => 10 * n + d)%Z ds 0%Z.

(** White space. *)
Fixpoint blank (s : string) : Prop := match s with "" => True | String c s' => In (N_of_ascii c) [9; 10; 11; 12; 13; 32]%N /\ blank s' end.

(** [s] is the integer [z]: white space around an optional sign and digits. *)
Definition integer_text (s : string) (z : Z) : Prop :=
  exists a sign t b ds, s = a ++ sign ++ t ++ b /\ blank a /\ blank b /\ digits_in t ds /\
    (sign = "-" /\ z = (- number_of ds)%Z \/ (sign = "" \/ sign = "+") /\ z = number_of ds).

(** [s] names the outpoint [o]: the transaction id as usually written (its bytes from the last to the first), a colon, the number. *)
Definition outpoint_text (s : string) (o : outpoint) : Prop :=
  exists id n, s = id ++ ":" ++ n /\ hex_text id (rev (o_hash o)) /\ List.length (o_hash o) = 32%nat /\ integer_text n (o_n o) /\ (0 <= o_n o < 2 ^ 32)%Z.
