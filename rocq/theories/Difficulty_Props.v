(** Property C152: the difficulty of a header. *)
From Verif Require Import Base PyText_Spec PyFloat_Proofs Block_Model Difficulty_Model Difficulty_Spec Difficulty_Proofs.
From Coq Require Import Lia ZifyBool.
Local Open Scope Z_scope.

(** C152.  The difficulty is the double nearest to the ratio of the target of difficulty 1 to the target that
    [CheckProofOfWork] compares with; a target of 0 has none. *)
Theorem C152_difficulty : forall nBits t, uint256_from_compact nBits = Ok t ->
  (t = 0 -> calc_difficulty nBits = Err ZeroDivisionError) /\
  (0 < t < 2 ^ 256 -> exists x, calc_difficulty nBits = Ok x /\ same x (nearest unit_target t)).
Proof. exact difficulty_target. Qed.
Print Assumptions C152_difficulty.

(** That of nBits = 0x1b0404cb is 16307.420938523983. *)
Example C152_instance : uint256_from_compact 0x1b0404cb = Ok (0x0404cb * 256 ^ 24) /\
  exists x, calc_difficulty 0x1b0404cb = Ok x /\ ratio x = (8965099470472465, 549755813888).
Proof. split; [vm_compute; reflexivity|]. eexists. split; [vm_compute; reflexivity|vm_compute; reflexivity]. Qed.
Example C152_unit : exists x, calc_difficulty 0x1d00ffff = Ok x /\ same x (Double 1 0).
Proof. eexists. split; [vm_compute; reflexivity|vm_compute; reflexivity]. Qed.
Example C152_zero : uint256_from_compact 0x05000000 = Ok 0 /\ calc_difficulty 0x05000000 = Err ZeroDivisionError.
Proof. split; reflexivity. Qed.

(** The less the target, the more the difficulty (or the same, for targets too close for a double). *)
Theorem C152_order : forall nBits nBits' t t' x x',
  uint256_from_compact nBits = Ok t -> uint256_from_compact nBits' = Ok t' -> 0 < t -> t <= t' -> t' < 2 ^ 256 ->
  calc_difficulty nBits = Ok x -> calc_difficulty nBits' = Ok x' -> at_most x' x.
Proof. exact difficulty_order. Qed.
Print Assumptions C152_order.

Example C152_order_instance : exists x x', calc_difficulty 0x1b0404cb = Ok x /\ calc_difficulty 0x1d00ffff = Ok x' /\ at_most x' x /\ ~ at_most x x'.
Proof.
  do 2 eexists. split; [vm_compute; reflexivity|]. split; [vm_compute; reflexivity|]. split; vm_compute; [discriminate|].
  intros H. apply H. reflexivity.
Qed.

(** A header with enough work has a difficulty, not under that of the limit of the chain. *)
Theorem C152_valid : forall hash nBits limit, CheckProofOfWork limit hash nBits = Ok tt -> limit < 2 ^ 256 ->
  exists x, calc_difficulty nBits = Ok x /\ at_most (nearest unit_target limit) x.
Proof.
  intros hash nBits limit H L. unfold CheckProofOfWork in H. destruct (uint256_from_compact nBits) as [t|] eqn:T; [|discriminate]. cbn [bind] in H.
  destruct (negb _) eqn:E; [discriminate|]. clear H. destruct (difficulty_target _ _ T) as [_ D]. destruct (D ltac:(lia)) as (x & X & S). exists x. split; [exact X|].
  eapply at_most_same; [apply same_refl|apply same_sym, S|]. apply nearest_mono; [reflexivity|lia|reflexivity|lia|]. apply Z.mul_le_mono_nonneg_l; [unfold unit_target; lia|lia].
Qed.
Print Assumptions C152_valid.

(** The first block, whose hash is below its target. *)
Example C152_valid_instance : CheckProofOfWork mainnet_limit (rev (hex "000000000019d6689c085ae165831e934ff763ae46a2a6c172b3f1b60a8ce26f")) 0x1d00ffff = Ok tt /\ mainnet_limit < 2 ^ 256.
Proof. split; vm_compute; reflexivity. Qed.

(** For nBits with sizes up to 155, far beyond 256 bits, the loops lose nothing; sizes under 3, on which
    [CheckProofOfWork] fails, are included. *)
Theorem C152_sizes : forall nBits, nBits / 2 ^ 24 mod 256 <= 155 -> 0 < nBits mod 2 ^ 24 ->
  exists x, calc_difficulty nBits = Ok x /\
    same x (nearest (0xffff * 256 ^ Z.max (29 - nBits / 2 ^ 24 mod 256) 0) (nBits mod 2 ^ 24 * 256 ^ Z.max (nBits / 2 ^ 24 mod 256 - 29) 0)).
Proof. intros nBits S M. exact (proj2 (difficulty_exact nBits S) M). Qed.
Print Assumptions C152_sizes.

(** With the greatest size the result is zero, while no difficulty is. *)
Example C152_underflow : exists x, calc_difficulty 0xff000001 = Ok x /\ mant x = 0.
Proof. eexists. split; [vm_compute; reflexivity|reflexivity]. Qed.
Example C152_sizes_instance : exists x, calc_difficulty 0x02000001 = Ok x /\ same x (nearest (0xffff * 256 ^ 27) 1).
Proof. eexists. split; [vm_compute; reflexivity|vm_compute; reflexivity]. Qed.
