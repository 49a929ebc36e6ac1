(** What the numbers with size in front mean, readable without the model. *)
From Verif Require Import Base.

(** Most significant byte first. *)
Definition big (b : bytes) : N := fold_left (fun a x => 256 * a + bN x)%N b 0%N.

(** A magnitude whose first bit is the sign. *)
Definition signed_big (b : bytes) : Z :=
  match b with
  | [] => 0
  | x :: _ => if (bN x <? 128)%N then Z.of_N (big b) else - (Z.of_N (big b) - 2 ^ (8 * Z.of_nat (List.length b) - 1))
  end%Z.

(** Four bytes that tell how many bytes follow, and these. *)
Definition mpi (s : bytes) (z : Z) : Prop :=
  exists size body, s = size ++ body /\ List.length size = 4 /\ big size = blen body /\ signed_big body = z.
