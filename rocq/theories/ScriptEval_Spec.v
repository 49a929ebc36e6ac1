(** What a script does, apart from the machine that runs it. *)
From Verif Require Import Base Sha256 Sha1 Ripemd160 Tx_Model Script_Spec SigHash_Spec Grammar_Spec.
Local Open Scope Z_scope.

(** ** The text of a script *)

(** An operation: opcode, data if it pushes data, and the bytes that spell it. *)
Record operation := Op { op_code : N; op_data : option bytes; op_text : bytes }.
Inductive spelled : operation -> Prop :=
| spelled_plain : forall x, (0x4e < bN x)%N -> spelled (Op (bN x) None [x])
| spelled_push : forall x d, (bN x < 0x4c)%N -> blen d = bN x -> spelled (Op (bN x) (Some d) (x :: d))
| spelled_push1 : forall h d, le 1 (Z.of_N (blen d)) h -> spelled (Op 0x4c (Some d) (x4c :: h ++ d))
| spelled_push2 : forall h d, le 2 (Z.of_N (blen d)) h -> spelled (Op 0x4d (Some d) (x4d :: h ++ d))
| spelled_push4 : forall h d, le 4 (Z.of_N (blen d)) h -> spelled (Op 0x4e (Some d) (x4e :: h ++ d)).
Definition text_of (ops : list operation) : bytes := concat (map op_text ops).
(** [s] consists of the operations [ops]. *)
Definition reads_as (s : bytes) (ops : list operation) : Prop := Forall spelled ops /\ s = text_of ops.
(** The shortest text that pushes [d]. *)
Definition shortest_push (d p : bytes) : Prop :=
  (exists c, spelled (Op c (Some d) p)) /\
  forall c p', spelled (Op c (Some d) p') -> (List.length p <= List.length p')%nat.

(** ** Values *)

(** A number as an argument: at most four bytes. *)
Definition operand (b : bytes) (z : Z) : Prop := scriptnum b = z /\ (blen b <= 4)%N.
(** A number as a result: the shortest string with that value. *)
Definition number (z : Z) (b : bytes) : Prop :=
  scriptnum b = z /\ forall b', scriptnum b' = z -> (List.length b <= List.length b')%nat.
(** Everything but zero, in any length and with either sign, is true. *)
Definition truthy (b : bytes) : Prop := scriptnum b <> 0.
(** The result of comparing strings and of checking signatures. *)
Definition verdict (P : Prop) (v : bytes) : Prop := (P /\ v = [x01]) \/ (~ P /\ v = [x00]).

(** ** Signatures *)

(** What is left of the operations [l] without those whose text satisfies [P]. *)
Inductive remains (P : bytes -> Prop) : list operation -> bytes -> Prop :=
| remains_nil : remains P [] []
| remains_drop : forall o l s, P (op_text o) -> remains P l s -> remains P (o :: l) s
| remains_keep : forall o l s, ~ P (op_text o) -> remains P l s -> remains P (o :: l) (op_text o ++ s).
(** The script signed when the signatures [sigs] are checked: no signature can sign itself. *)
Definition signed_script (sigs : list bytes) (code : list operation) (s : bytes) : Prop :=
  remains (fun p => exists sig, In sig sigs /\ shortest_push sig p) code s.

(** [sig] is a signature by [pk], followed by its type, of input [i] of [t] with script [s].  Type SINGLE
    without a matching output signs the number one. *)
Definition signed_by (ecdsa : bytes -> bytes -> bytes -> bool) (t : tx) (i : nat) (s pk sig : bytes) : Prop :=
  exists body x, sig = body ++ [x] /\
    ((exists m, signs s t i (Z.of_N (bN x)) m /\ ecdsa pk (Hash m) body = true) \/
     (base (Z.of_N (bN x)) = 3 /\ (List.length (t_vout t) <= i)%nat /\ ecdsa pk (x01 :: repeat x00 31) body = true)).

(** [k] is [l] without some of its entries. *)
Inductive picked {A} : list A -> list A -> Prop :=
| picked_nil : picked [] []
| picked_take : forall x k l, picked k l -> picked (x :: k) (x :: l)
| picked_skip : forall x k l, picked k l -> picked k (x :: l).
(** Every signature belongs to a key of its own, in the order of the keys. *)
Definition quorum (ecdsa : bytes -> bytes -> bytes -> bool) (t : tx) (i : nat) (s : bytes) (sigs keys : list bytes) : Prop :=
  exists ks, picked ks keys /\ Forall2 (fun sig pk => signed_by ecdsa t i s pk sig) sigs ks.

(** ** Operations on the stack, top first *)

Definition b2z (b : bool) : Z := if b then 1 else 0.
Definition constant (op : N) : option Z :=
  if (op =? 0x4f)%N then Some (-1)
  else if ((0x51 <=? op) && (op <=? 0x60))%N then Some (Z.of_N op - 0x50) else None.
Definition unary : list (N * (Z -> Z)) := [
  (0x8b%N, (fun x => x + 1)); (* 1ADD *)
  (0x8c%N, (fun x => x - 1)); (* 1SUB *)
  (0x8f%N, Z.opp); (* NEGATE *)
  (0x90%N, Z.abs); (* ABS *)
  (0x91%N, (fun x => b2z (x =? 0))); (* NOT *)
  (0x92%N, (fun x => b2z (negb (x =? 0)))) (* 0NOTEQUAL *)].
Definition binary : list (N * (Z -> Z -> Z)) := [
  (0x93%N, Z.add);
  (0x94%N, Z.sub);
  (0x9a%N, (fun x y => b2z (negb (x =? 0) && negb (y =? 0)))); (* BOOLAND *)
  (0x9b%N, (fun x y => b2z (negb (x =? 0) || negb (y =? 0)))); (* BOOLOR *)
  (0x9c%N, (fun x y => b2z (x =? y))); (* NUMEQUAL *)
  (0x9e%N, (fun x y => b2z (negb (x =? y)))); (* NUMNOTEQUAL *)
  (0x9f%N, (fun x y => b2z (x <? y))); (* LESSTHAN *)
  (0xa0%N, (fun x y => b2z (y <? x))); (* GREATERTHAN *)
  (0xa1%N, (fun x y => b2z (x <=? y))); (* LESSTHANOREQUAL *)
  (0xa2%N, (fun x y => b2z (y <=? x))); (* GREATERTHANOREQUAL *)
  (0xa3%N, Z.min);
  (0xa4%N, Z.max)].
Definition hashing : list (N * (bytes -> bytes)) := [
  (0xa6%N, ripemd160);
  (0xa7%N, sha1);
  (0xa8%N, sha256);
  (0xa9%N, (fun b => ripemd160 (sha256 b))); (* HASH160 *)
  (0xaa%N, (fun b => sha256 (sha256 b))) (* HASH256 *)].
(** Stack before and after, the top on the right. *)
Definition shuffle : list (N * (string * string)) := [
  (0x6d%N, ("ab", "")); (* 2DROP *)
  (0x6e%N, ("ab", "abab")); (* 2DUP *)
  (0x6f%N, ("abc", "abcabc")); (* 3DUP *)
  (0x70%N, ("abcd", "abcdab")); (* 2OVER *)
  (0x71%N, ("abcdef", "cdefab")); (* 2ROT *)
  (0x72%N, ("abcd", "cdab")); (* 2SWAP *)
  (0x75%N, ("a", "")); (* DROP *)
  (0x76%N, ("a", "aa")); (* DUP *)
  (0x77%N, ("ab", "b")); (* NIP *)
  (0x78%N, ("ab", "aba")); (* OVER *)
  (0x7b%N, ("abc", "bca")); (* ROT *)
  (0x7c%N, ("ab", "ba")); (* SWAP *)
  (0x7d%N, ("ab", "bab")) (* TUCK *)]%string.
(** The values the letters stand for, top first. *)
Definition laid_out (f : ascii -> bytes) (names : string) : list bytes := rev (map f (list_ascii_of_string names)).

Inductive effect : N -> list bytes -> list bytes -> Prop :=
| ef_constant : forall op z b st, constant op = Some z -> number z b -> effect op st (b :: st)
| ef_unary : forall op f a x b st, In (op, f) unary -> operand a x -> number (f x) b -> effect op (a :: st) (b :: st)
| ef_binary : forall op f a1 a2 x y b st, In (op, f) binary -> operand a1 x -> operand a2 y -> number (f x y) b ->
    effect op (a2 :: a1 :: st) (b :: st)
| ef_numequalverify : forall a1 a2 x st, operand a1 x -> operand a2 x -> effect 0x9d (a2 :: a1 :: st) st
| ef_within : forall a lo hi x y z v st, operand a x -> operand lo y -> operand hi z -> verdict (y <= x < z) v ->
    effect 0xa5 (hi :: lo :: a :: st) (v :: st)
| ef_shuffle : forall op before after f st, In (op, (before, after)) shuffle ->
    effect op (laid_out f before ++ st) (laid_out f after ++ st)
| ef_hashing : forall op h a st, In (op, h) hashing -> effect op (a :: st) (h a :: st)
| ef_nop : forall op st, (op = 0x61 \/ 0xb0 <= op <= 0xb9)%N -> effect op st st
| ef_ifdup_true : forall a st, truthy a -> effect 0x73 (a :: st) (a :: a :: st)
| ef_ifdup_false : forall a st, ~ truthy a -> effect 0x73 (a :: st) (a :: st)
| ef_depth : forall b st, number (Z.of_nat (List.length st)) b -> effect 0x74 st (b :: st)
| ef_size : forall a b st, number (Z.of_nat (List.length a)) b -> effect 0x82 (a :: st) (b :: a :: st)
| ef_pick : forall a l x r, operand a (Z.of_nat (List.length l)) -> effect 0x79 (a :: l ++ x :: r) (x :: l ++ x :: r)
| ef_roll : forall a l x r, operand a (Z.of_nat (List.length l)) -> effect 0x7a (a :: l ++ x :: r) (x :: l ++ r)
| ef_equal : forall a b v st, verdict (a = b) v -> effect 0x87 (b :: a :: st) (v :: st)
| ef_equalverify : forall a st, effect 0x88 (a :: a :: st) st
| ef_verify : forall a st, truthy a -> effect 0x69 (a :: st) st.

(** ** The machine *)

(** Two stacks, the branches being executed (innermost first), the operations after the last OP_CODESEPARATOR
    executed, and the number of operations counted so far. *)
Record mach := Mach { main : list bytes; side : list bytes; flow : list bool; code : list operation; spent : Z }.
Definition live (fl : list bool) : Prop := forall b, In b fl -> b = true.

Section Script.
Context (ecdsa : bytes -> bytes -> bytes -> bool) (t : tx) (i : nat).

(** The arguments of CHECKMULTISIG: a number and so many keys, a number and so many signatures, and one more. *)
Definition multisig_args (st sigs keys st' : list bytes) : Prop :=
  exists n k extra, st = n :: keys ++ k :: sigs ++ extra :: st' /\
    operand n (Z.of_nat (List.length keys)) /\ operand k (Z.of_nat (List.length sigs)) /\
    (List.length sigs <= List.length keys <= 20)%nat.

(** Executing an operation other than a push, with the operations [rest] after it. *)
Inductive acts (rest : list operation) : N -> mach -> mach -> Prop :=
| act_effect : forall op st st' si fl co n, effect op st st' -> acts rest op (Mach st si fl co n) (Mach st' si fl co n)
| act_toalt : forall a st si fl co n, acts rest 0x6b (Mach (a :: st) si fl co n) (Mach st (a :: si) fl co n)
| act_fromalt : forall a st si fl co n, acts rest 0x6c (Mach st (a :: si) fl co n) (Mach (a :: st) si fl co n)
| act_codeseparator : forall st si fl co n, acts rest 0xab (Mach st si fl co n) (Mach st si fl rest n)
| act_checksig : forall pk sig st v s si fl co n, signed_script [sig] co s -> verdict (signed_by ecdsa t i s pk sig) v ->
    acts rest 0xac (Mach (pk :: sig :: st) si fl co n) (Mach (v :: st) si fl co n)
| act_checksigverify : forall pk sig st s si fl co n, signed_script [sig] co s -> signed_by ecdsa t i s pk sig ->
    acts rest 0xad (Mach (pk :: sig :: st) si fl co n) (Mach st si fl co n)
| act_checkmultisig : forall st sigs keys st' v s si fl co n, multisig_args st sigs keys st' ->
    n + Z.of_nat (List.length keys) <= 201 -> signed_script sigs co s -> verdict (quorum ecdsa t i s sigs keys) v ->
    acts rest 0xae (Mach st si fl co n) (Mach (v :: st') si fl co (n + Z.of_nat (List.length keys)))
| act_checkmultisigverify : forall st sigs keys st' s si fl co n, multisig_args st sigs keys st' ->
    n + Z.of_nat (List.length keys) <= 201 -> signed_script sigs co s -> quorum ecdsa t i s sigs keys ->
    acts rest 0xaf (Mach st si fl co n) (Mach st' si fl co (n + Z.of_nat (List.length keys)))
(** In a branch that is not executed a condition is not looked at, and neither branch is executed. *)
| act_if : forall a b st si fl co n, live fl -> (b = true <-> truthy a) -> acts rest 0x63 (Mach (a :: st) si fl co n) (Mach st si (b :: fl) co n)
| act_notif : forall a b st si fl co n, live fl -> (b = true <-> ~ truthy a) -> acts rest 0x64 (Mach (a :: st) si fl co n) (Mach st si (b :: fl) co n)
| act_if_dead : forall op st si fl co n, (op = 0x63 \/ op = 0x64)%N -> ~ live fl -> acts rest op (Mach st si fl co n) (Mach st si (false :: fl) co n)
| act_else : forall b st si fl co n, acts rest 0x67 (Mach st si (b :: fl) co n) (Mach st si (negb b :: fl) co n)
| act_endif : forall b st si fl co n, acts rest 0x68 (Mach st si (b :: fl) co n) (Mach st si fl co n).

(** Opcodes that make a script fail wherever they are. *)
Definition forbidden (op : N) : Prop :=
  In op [0x65; 0x66; (* VERIF VERNOTIF *) 0x7e; 0x7f; 0x80; 0x81; (* CAT SUBSTR LEFT RIGHT *)
    0x83; 0x84; 0x85; 0x86; (* INVERT AND OR XOR *) 0x8d; 0x8e; (* 2MUL 2DIV *) 0x95; 0x96; 0x97; 0x98; 0x99 (* MUL DIV MOD LSHIFT RSHIFT *)]%N.
Definition room (m : mach) : Prop := Z.of_nat (List.length (main m)) + Z.of_nat (List.length (side m)) <= 1000.
(** Everything above OP_16 is counted, executed or not; at most 201. *)
Definition counts (op : N) (m m' : mach) : Prop :=
  if (0x60 <? op)%N then spent m + 1 <= 201 /\ m' = Mach (main m) (side m) (flow m) (code m) (spent m + 1) else m' = m.
(** IF NOTIF VERIF VERNOTIF ELSE ENDIF are looked at in every branch. *)
Definition controls (op : N) : Prop := (0x63 <= op <= 0x68)%N.

Inductive steps (rest : list operation) : operation -> mach -> mach -> Prop :=
| step_push : forall op d x m, (blen d <= 520)%N -> live (flow m) ->
    steps rest (Op op (Some d) x) m (Mach (d :: main m) (side m) (flow m) (code m) (spent m))
| step_push_dead : forall op d x m, (blen d <= 520)%N -> ~ live (flow m) -> room m ->
    steps rest (Op op (Some d) x) m m
| step_op : forall op x m m1 m', ~ forbidden op -> counts op m m1 -> live (flow m) \/ controls op -> acts rest op m1 m' -> room m' ->
    steps rest (Op op None x) m m'
| step_op_dead : forall op x m m', ~ forbidden op -> counts op m m' -> ~ live (flow m) -> ~ controls op -> room m' ->
    steps rest (Op op None x) m m'.

Inductive runs : list operation -> mach -> mach -> Prop :=
| runs_nil : forall m, runs [] m m
| runs_cons : forall o rest m m1 m2, steps rest o m m1 -> runs rest m1 m2 -> runs (o :: rest) m m2.

(** Script [s] turns the stack [st] into [st'], checking signatures of input [i] of [t]. *)
Definition evaluates (st : list bytes) (s : bytes) (st' : list bytes) : Prop :=
  (blen s <= 10000)%N /\
  exists ops si co n, reads_as s ops /\ runs ops (Mach st [] [] ops 0) (Mach st' si [] co n).

End Script.
