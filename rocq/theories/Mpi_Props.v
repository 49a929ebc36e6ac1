(** C189: numbers with their size in front. *)
From Verif Require Import Base Tx_Model Script_Model Script_Proofs Mpi_Model Mpi_Spec Mpi_Proofs.

(** mpi2bn reads what the format says, and gives None for everything else. *)
Theorem C189_mpi_read : forall s, (forall z, mpi2bn s = Some z <-> mpi s z) /\ (mpi2bn s = None <-> ~ exists z, mpi s z).
Proof.
  intros s. split; [apply mpi2bn_iff|]. split.
  - intros N (z & M). apply mpi2bn_iff in M. congruence.
  - intros N. destruct (mpi2bn s) as [z|] eqn:E; [|reflexivity]. exfalso. apply N. exists z. apply mpi2bn_iff, E.
Qed.
Print Assumptions C189_mpi_read.

(** bn2mpi gives the one shortest string of that value ... *)
Theorem C189_mpi_write : forall v m, (Z.log2 (Z.abs v) < 2 ^ 32)%Z ->
  bn2mpi v = Ok m <-> mpi m v /\ forall m', mpi m' v -> List.length m <= List.length m'.
Proof. exact bn2mpi_iff. Qed.
Print Assumptions C189_mpi_write.

(** ... and there is one, which mpi2bn reads back. *)
Theorem C189_mpi_roundtrip : forall v, (Z.log2 (Z.abs v) < 2 ^ 32)%Z -> exists m, bn2mpi v = Ok m /\ mpi2bn m = Some v.
Proof.
  intros v H. destruct (bn2mpi_ok v H) as (size & body & M & L & B & _ & V). exists (size ++ body). split; [exact M|].
  apply mpi2bn_iff. exists size, body. auto.
Qed.
Print Assumptions C189_mpi_roundtrip.

(** The numbers of scripts are these without the size and in the other order. *)
Theorem C189_script_numbers : (forall v, bn2vch v = do m <- bn2mpi v; Ok (mpi2vch m)) /\
  (forall s, (blen s < 2 ^ 32)%N -> exists m z, vch2mpi s = Ok m /\ mpi2bn m = Some z /\ vch2bn s = Ok z /\ mpi2vch m = s) /\
  (forall s, (2 ^ 32 <= blen s)%N -> vch2mpi s = Err StructError /\ vch2bn s = Err StructError).
Proof. split; [exact bn2vch_mpi|]. split; [exact vch2bn_mpi|exact vch2mpi_long]. Qed.
Print Assumptions C189_script_numbers.

Example C189_instance :
  bn2mpi (-255) = Ok [x00; x00; x00; x02; x80; xff] /\ mpi2bn [x00; x00; x00; x02; x80; xff] = Some (-255)%Z /\
  bn2mpi 0 = Ok [x00; x00; x00; x00] /\ bn2mpi 128 = Ok [x00; x00; x00; x02; x00; x80] /\ bn2mpi (-127) = Ok [x00; x00; x00; x01; xff] /\
  mpi2bn [x00; x00; x00; x03; x00; x00; x05] = Some 5%Z /\ mpi2bn [x00; x00; x00; x01; x00; x05] = None /\ mpi2bn [x00; x00; x00] = None /\
  vch2mpi [xff; x80] = Ok [x00; x00; x00; x02; x80; xff] /\ (Z.log2 (Z.abs (-255)) < 2 ^ 32)%Z.
Proof. repeat split. Qed.
