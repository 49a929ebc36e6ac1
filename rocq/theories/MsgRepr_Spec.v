(** Which received messages can be printed. *)
From Verif Require Import Base Net_Model Base58_Model.
Local Open Scope Z_scope.

(** A version message needs all its fields, which only versions from 209 on send, and a time that has a date;
    inventories may only list the types 0 to 3. *)
Definition can_print (ctime : Z -> result text) (m : msg) : Prop :=
  match m with
  | MVersion v => 209 <= n_nVersion v /\ exists t, ctime (n_nTime v) = Ok t
  | MInv l | MGetData l => Forall (fun v => 0 <= v_type v <= 3) l
  | _ => True
  end.
