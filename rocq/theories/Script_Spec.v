(** What scripts and script numbers should mean, apart from the parser and the encoder. *)
From Verif Require Import Base Tx_Model Script_Model.

(** The items the property ranges over: opcodes that are not pushes (the bytes up to
    0x4e announce data), data below 2^32 bytes, integers below 2^(2^32) in magnitude. *)
Definition wf_item (x : sitem) : Prop :=
  match x with
  | IOp n => (0x4e < n < 256)%N
  | IInt z => (Z.log2 (Z.abs z) < 2 ^ 32)%Z
  | IData d => (blen d < 2 ^ 32)%N
  end.

(** The same operation on both sides. *)
Definition same_item (x : sitem) (c : cooked) : Prop :=
  match x, c with
  | IOp n, COp m => n = m
  | IInt z, CInt w => z = w
  | IData d, CData e => d = e
  | _, _ => False
  end.

(** Which items come back as themselves: non-push opcodes other than OP_1..OP_16,
    the integers 1..16, and all data. *)
Definition stable_item (x : sitem) : Prop :=
  match x with
  | IOp n => (0x4e < n < 256)%N /\ ~ (0x51 <= n <= 0x60)%N
  | IInt z => (1 <= z <= 16)%Z
  | IData d => (blen d < 2 ^ 32)%N
  end.

(** Script number: little-endian magnitude, sign in the top bit of the last byte. *)
Definition scriptnum (s : bytes) : Z :=
  match rev s with
  | [] => 0
  | b :: _ =>
    let m := Z.of_N (le_dec s) in
    let top := (2 ^ (8 * Z.of_nat (List.length s) - 1))%Z in
    if (bN b <? 128)%N then m else (- (m - top))%Z
  end%Z.

(** What each item comes back as: small integers 1..16 (also when given as an opcode)
    as integers, 0 as empty data, -1 as OP_1NEGATE, other integers as the data of a
    script number with that value. *)
Definition parses_as (x : sitem) (c : cooked) : Prop :=
  match x with
  | IOp n => if ((0x51 <=? n) && (n <=? 0x60))%N then c = CInt (Z.of_N n - 0x50) else c = COp n
  | IInt z =>
    if (z =? 0)%Z then c = CData []
    else if ((1 <=? z) && (z <=? 16))%Z then c = CInt z
    else if (z =? -1)%Z then c = COp 0x4f
    else exists d, c = CData d /\ scriptnum d = z
  | IData d => c = CData d
  end.
