(** Executable model of the script machine:
    lib/python-bitcoinlib/bitcoin/core/scripteval.py (cited as scripteval.py).
    Stacks are lists with the top first: Python's [stack[-k]] is entry [k - 1], [stack.append(v)] is [v :: stack].
    A Python stack that an exception leaves half changed is not represented, only the exception.
    The signature check of key.py:[CECKey.set_pubkey, verify] (OpenSSL) is a parameter
    [ecdsa pubkey hash sig]. *)
From Verif Require Import Base Sha256 Sha1 Ripemd160 Tx_Model Script_Model SigHash_Model.

(** ** Stack access *)

(** scripteval.py, [stack[-k]] for [k >= 1].  For example scripteval.py:195, 264-268, 441-447. *)
Definition sget (k : nat) (s : list bytes) : result bytes :=
  match nth_error s (k - 1) with Some v => Ok v | None => Err IndexError end.
(** scripteval.py:441-447, 603-609, 626-628: [stack[-k] = v]. *)
Fixpoint sset_at (i : nat) (v : bytes) (s : list bytes) : result (list bytes) :=
  match s, i with
  | [], _ => Err IndexError
  | _ :: s', O => Ok (v :: s')
  | x :: s', S i' => do r <- sset_at i' v s'; Ok (x :: r)
  end.
(** scripteval.py:441-447: [stack[-k] = v]. *)
Definition sset (k : nat) (v : bytes) (s : list bytes) : result (list bytes) := sset_at (k - 1) v s.
(** scripteval.py:434-435, 571, 588: [del stack[-k]]. *)
Fixpoint sdel_at (i : nat) (s : list bytes) : result (list bytes) :=
  match s, i with
  | [], _ => Err IndexError
  | _ :: s', O => Ok s'
  | x :: s', S i' => do r <- sdel_at i' s'; Ok (x :: r)
  end.
(** scripteval.py:434-435, 571, 588: [del stack[-k]]. *)
Definition sdel (k : nat) (s : list bytes) : result (list bytes) := sdel_at (k - 1) s.
(** [stack.pop()].  For example scripteval.py:195, 219, 517-518, 544. *)
Definition spop (s : list bytes) : result (bytes * list bytes) :=
  match s with [] => Err IndexError | v :: s' => Ok (v, s') end.
(** scripteval.py:384-386 [check_args]. *)
Definition check_args (n : nat) (s : list bytes) : result unit :=
  if List.length s <? n then Err MissingOpArgumentsError else Ok tt.

(** ** Casts *)

(** scripteval.py:99-103; MAX_NUM_SIZE is 4 (39). *)
Definition CastToBigNum (s : bytes) : result Z :=
  do v <- vch2bn s;
  if (4 <? blen s)%N then Err EvalScriptError else Ok v.

(** scripteval.py:105-113, from index [i] on. *)
Fixpoint CastToBool (s : bytes) : bool :=
  match s with
  | [] => false
  | sv :: s' =>
    if negb (bN sv =? 0)%N then
      if (match s' with [] => true | _ => false end) && (bN sv =? 0x80)%N then false else true
    else CastToBool s'
  end.

(** The strings pushed for True and False, scripteval.py:200-202, 485-487, 521-523, 658-660. *)
Definition of_bool (b : bool) : bytes := if b then [x01] else [x00].
(** [long(condition)].  scripteval.py:235, 238, 280-311. *)
Definition zb (b : bool) : Z := if b then 1%Z else 0%Z.

(** ** Signatures *)

Section Machine.
Context (ecdsa : bytes -> bytes -> bytes -> bool).

(** scripteval.py:116-134 [_CheckSig]; the error message of RawSignatureHash is ignored. *)
Definition CheckSig (sig pubkey script : bytes) (txTo : tx) (inIdx : Z) : result bool :=
  match rev sig with
  | [] => Ok false
  | ht :: body =>
    do (h, err) <- RawSignatureHash script txTo inIdx (Z.of_N (bN ht));
    Ok (ecdsa pubkey h (rev body))
  end.

(** scripteval.py:170-172: signature [k] of the remaining [n] is [stack[-isig - k]]. *)
Fixpoint drop_sigs (n : nat) (isig : nat) (stack : list bytes) (script : bytes) : result bytes :=
  match n with
  | O => Ok script
  | S n' =>
    do sig <- sget isig stack;
    do p <- cscript [IData sig];
    do script <- FindAndDelete script p;
    drop_sigs n' (S isig) stack script
  end.

(** scripteval.py:174-192: the loop; [keys] and [sigs] are the remaining keys_count and
    sigs_count.  [sigs > 0] implies [keys > 0] at the head, so fuel [keys] is enough. *)
Fixpoint match_sigs (fuel : nat) (keys sigs ikey isig : nat) (stack : list bytes) (script : bytes) (txTo : tx) (inIdx : Z) : result bool :=
  match sigs with
  | O => Ok true
  | S sigs' =>
    match fuel with
    | O => Err OutOfFuel
    | S fuel' =>
      do sig <- sget isig stack;
      do pubkey <- sget ikey stack;
      do ok <- CheckSig sig pubkey script txTo inIdx;
      let isig := if ok then S isig else isig in
      let sigs := if ok then sigs' else sigs in
      if keys - 1 <? sigs then Ok false
      else match_sigs fuel' (keys - 1) sigs (S ikey) isig stack script txTo inIdx
    end
  end.

(** scripteval.py:137-202 [_CheckMultiSig]: the new stack and nOpCount.  MAX_SCRIPT_OPCODES is 201.
    At most 20 keys, so after the range checks the counts are natural numbers. *)
Definition CheckMultiSig (opcode : N) (script : bytes) (stack : list bytes) (txTo : tx) (inIdx : Z) (nOpCount : Z) : result (list bytes * Z) :=
  do _ <- (if List.length stack <? 1 then Err MissingOpArgumentsError else Ok tt);
  do v <- sget 1 stack;
  do keys_count <- CastToBigNum v;
  do _ <- (if (keys_count <? 0) || (20 <? keys_count) then Err ArgumentsInvalidError else Ok tt)%Z;
  let keys := Z.to_nat keys_count in
  let ikey := 2 in
  let i := 2 + keys in
  let nOpCount := (nOpCount + keys_count)%Z in
  do _ <- (if (201 <? nOpCount)%Z then Err MaxOpCountError else Ok tt);
  do _ <- (if List.length stack <? i then Err ArgumentsInvalidError else Ok tt);
  do v <- sget i stack;
  do sigs_count <- CastToBigNum v;
  do _ <- (if (sigs_count <? 0) || (keys_count <? sigs_count) then Err ArgumentsInvalidError else Ok tt)%Z;
  let sigs := Z.to_nat sigs_count in
  let isig := i + 1 in
  let i := i + 1 + sigs in
  do _ <- (if List.length stack <? i - 1 then Err ArgumentsInvalidError else
           if List.length stack <? i then Err ArgumentsInvalidError else Ok tt);
  do script <- drop_sigs sigs isig stack script;
  do success <- match_sigs keys keys sigs ikey isig stack script txTo inIdx;
  do _ <- (if negb success && (opcode =? 0xaf)%N then Err VerifyOpFailedError else Ok tt);
  let stack := skipn i stack in
  Ok (if (opcode =? 0xae)%N then of_bool success :: stack else stack, nOpCount).

(** ** Arithmetic *)

(** scripteval.py:206-213 [_ISA_UNOP]. *)
Definition is_unop (op : N) : bool := existsb (N.eqb op) [0x8b; 0x8c; 0x8f; 0x90; 0x91; 0x92]%N.
(** scripteval.py:215-243 [_UnaryOp]. *)
Definition UnaryOp (op : N) (stack : list bytes) : result (list bytes) :=
  do _ <- check_args 1 stack;
  do v <- sget 1 stack;
  do bn <- CastToBigNum v;
  do (_, stack) <- spop stack;
  do bn <- (if (op =? 0x8b)%N then Ok (bn + 1)
            else if (op =? 0x8c)%N then Ok (bn - 1)
            else if (op =? 0x8f)%N then Ok (- bn)
            else if (op =? 0x90)%N then Ok (if bn <? 0 then - bn else bn)
            else if (op =? 0x91)%N then Ok (zb (bn =? 0))
            else if (op =? 0x92)%N then Ok (zb (negb (bn =? 0)))
            else Err AssertionError)%Z;
  do r <- bn2vch bn;
  Ok (r :: stack).

(** scripteval.py:247-261 [_ISA_BINOP]. *)
Definition is_binop (op : N) : bool :=
  existsb (N.eqb op) [0x93; 0x94; 0x9a; 0x9b; 0x9c; 0x9d; 0x9e; 0x9f; 0xa0; 0xa1; 0xa2; 0xa3; 0xa4]%N.
(** scripteval.py:263-330 [_BinOp]. *)
Definition BinOp (op : N) (stack : list bytes) : result (list bytes) :=
  do _ <- check_args 2 stack;
  do v2 <- sget 1 stack;
  do bn2 <- CastToBigNum v2;
  do v1 <- sget 2 stack;
  do bn1 <- CastToBigNum v1;
  let finish (bn : Z) :=
    do (_, stack) <- spop stack;
    do (_, stack) <- spop stack;
    do r <- bn2vch bn;
    Ok (r :: stack) in
  if (op =? 0x93)%N then finish (bn1 + bn2)%Z
  else if (op =? 0x94)%N then finish (bn1 - bn2)%Z
  else if (op =? 0x9a)%N then finish (zb (negb (bn1 =? 0)%Z && negb (bn2 =? 0)%Z))
  else if (op =? 0x9b)%N then finish (zb (negb (bn1 =? 0)%Z || negb (bn2 =? 0)%Z))
  else if (op =? 0x9c)%N then finish (zb (bn1 =? bn2)%Z)
  else if (op =? 0x9d)%N then
    if negb (bn1 =? bn2)%Z then Err VerifyOpFailedError
    else do (_, stack) <- spop stack; do (_, stack) <- spop stack; Ok stack
  else if (op =? 0x9e)%N then finish (zb (negb (bn1 =? bn2)%Z))
  else if (op =? 0x9f)%N then finish (zb (bn1 <? bn2)%Z)
  else if (op =? 0xa0)%N then finish (zb (bn2 <? bn1)%Z)
  else if (op =? 0xa1)%N then finish (zb (bn1 <=? bn2)%Z)
  else if (op =? 0xa2)%N then finish (zb (bn2 <=? bn1)%Z)
  else if (op =? 0xa3)%N then finish (if (bn1 <? bn2)%Z then bn1 else bn2)
  else if (op =? 0xa4)%N then finish (if (bn2 <? bn1)%Z then bn1 else bn2)
  else Err AssertionError.

(** ** The machine *)

(** scripteval.py:353-356 and the argument [stack]: the local variables of [_EvalScript];
    [v_exec] has the innermost block first. *)
Record vm := VM { v_stack : list bytes; v_alt : list bytes; v_exec : list bool; v_begin : nat; v_ops : Z }.

(** scripteval.py:333-337 [_CheckExec]. *)
Definition CheckExec (l : list bool) : bool := forallb (fun b => b) l.

(** script.py:488-491 [DISABLED_OPCODES]. *)
Definition disabled_opcode (op : N) : bool :=
  existsb (N.eqb op) [0x65; 0x66; 0x7e; 0x7f; 0x80; 0x81; 0x83; 0x84; 0x85; 0x86; 0x8d; 0x8e; 0x95; 0x96; 0x97; 0x98; 0x99]%N.

(** The branches that only change the stack: scripteval.py:401-456, 492-503, 515-534, 542-548, 563-589,
    594-628, 635-660.  [None]: the opcode is not one of them. *)
Definition stack_op (sop : N) (stack : list bytes) : option (result (list bytes)) :=
  if ((sop =? 0x4f) || ((0x51 <=? sop) && (sop <=? 0x60)))%N then Some (
    do v <- bn2vch (Z.of_N sop - (0x51 - 1)); Ok (v :: stack))
  else if is_binop sop then Some (BinOp sop stack)
  else if is_unop sop then Some (UnaryOp sop stack)
  else if (sop =? 0x6d)%N then Some (
    do _ <- check_args 2 stack;
    do (_, stack) <- spop stack; do (_, stack) <- spop stack; Ok stack)
  else if (sop =? 0x6e)%N then Some (
    do _ <- check_args 2 stack;
    do v1 <- sget 2 stack; do v2 <- sget 1 stack;
    Ok (v2 :: v1 :: stack))
  else if (sop =? 0x70)%N then Some (
    do _ <- check_args 4 stack;
    do v1 <- sget 4 stack; do v2 <- sget 3 stack;
    Ok (v2 :: v1 :: stack))
  else if (sop =? 0x71)%N then Some (
    do _ <- check_args 6 stack;
    do v1 <- sget 6 stack; do v2 <- sget 5 stack;
    do stack <- sdel 6 stack; do stack <- sdel 5 stack;
    Ok (v2 :: v1 :: stack))
  else if (sop =? 0x72)%N then Some (
    do _ <- check_args 4 stack;
    do tmp <- sget 4 stack;
    do v <- sget 2 stack; do stack <- sset 4 v stack;
    do stack <- sset 2 tmp stack;
    do tmp <- sget 3 stack;
    do v <- sget 1 stack; do stack <- sset 3 v stack;
    sset 1 tmp stack)
  else if (sop =? 0x6f)%N then Some (
    do _ <- check_args 3 stack;
    do v1 <- sget 3 stack; do v2 <- sget 2 stack; do v3 <- sget 1 stack;
    Ok (v3 :: v2 :: v1 :: stack))
  else if (sop =? 0x74)%N then Some (
    do v <- bn2vch (Z.of_nat (List.length stack)); Ok (v :: stack))
  else if (sop =? 0x75)%N then Some (
    do _ <- check_args 1 stack;
    do (_, stack) <- spop stack; Ok stack)
  else if (sop =? 0x76)%N then Some (
    do _ <- check_args 1 stack;
    do v <- sget 1 stack; Ok (v :: stack))
  else if (sop =? 0x87)%N then Some (
    do _ <- check_args 2 stack;
    do (v1, stack) <- spop stack; do (v2, stack) <- spop stack;
    Ok (of_bool (bytes_eqb v1 v2) :: stack))
  else if (sop =? 0x88)%N then Some (
    do _ <- check_args 2 stack;
    do v1 <- sget 1 stack; do v2 <- sget 2 stack;
    if bytes_eqb v1 v2 then do (_, stack) <- spop stack; do (_, stack) <- spop stack; Ok stack
    else Err VerifyOpFailedError)
  else if (sop =? 0xa9)%N then Some (
    do _ <- check_args 1 stack;
    do (v, stack) <- spop stack; Ok (Hash160 v :: stack))
  else if (sop =? 0xaa)%N then Some (
    do _ <- check_args 1 stack;
    do (v, stack) <- spop stack; Ok (Hash v :: stack))
  else if (sop =? 0x73)%N then Some (
    do _ <- check_args 1 stack;
    do vch <- sget 1 stack;
    Ok (if CastToBool vch then vch :: stack else stack))
  else if (sop =? 0x77)%N then Some (
    do _ <- check_args 2 stack; sdel 2 stack)
  else if ((sop =? 0x61) || ((0xb0 <=? sop) && (sop <=? 0xb9)))%N then Some (Ok stack)
  else if (sop =? 0x78)%N then Some (
    do _ <- check_args 2 stack;
    do vch <- sget 2 stack; Ok (vch :: stack))
  else if ((sop =? 0x79) || (sop =? 0x7a))%N then Some (
    do _ <- check_args 2 stack;
    do (v, stack) <- spop stack;
    do n <- CastToBigNum v;
    if ((n <? 0) || (Z.of_nat (List.length stack) <=? n))%Z then Err EvalScriptError
    else
      do vch <- sget (Z.to_nat n + 1) stack;
      do stack <- (if (sop =? 0x7a)%N then sdel (Z.to_nat n + 1) stack else Ok stack);
      Ok (vch :: stack))
  else if (sop =? 0x6a)%N then Some (Err EvalScriptError)
  else if (sop =? 0xa6)%N then Some (
    do _ <- check_args 1 stack;
    do (v, stack) <- spop stack; Ok (ripemd160 v :: stack))
  else if (sop =? 0x7b)%N then Some (
    do _ <- check_args 3 stack;
    do tmp <- sget 3 stack;
    do v <- sget 2 stack; do stack <- sset 3 v stack;
    do stack <- sset 2 tmp stack;
    do tmp <- sget 2 stack;
    do v <- sget 1 stack; do stack <- sset 2 v stack;
    sset 1 tmp stack)
  else if (sop =? 0x82)%N then Some (
    do _ <- check_args 1 stack;
    do v <- sget 1 stack;
    do r <- bn2vch (Z.of_N (blen v)); Ok (r :: stack))
  else if (sop =? 0xa7)%N then Some (
    do _ <- check_args 1 stack;
    do (v, stack) <- spop stack; Ok (sha1 v :: stack))
  else if (sop =? 0xa8)%N then Some (
    do _ <- check_args 1 stack;
    do (v, stack) <- spop stack; Ok (sha256 v :: stack))
  else if (sop =? 0x7c)%N then Some (
    do _ <- check_args 2 stack;
    do tmp <- sget 2 stack;
    do v <- sget 1 stack; do stack <- sset 2 v stack;
    sset 1 tmp stack)
  else if (sop =? 0x7d)%N then Some (
    do _ <- check_args 2 stack;
    do vch <- sget 1 stack;
    (* insert(len(stack) - 2, vch): below the two topmost *)
    Ok (firstn 2 stack ++ vch :: skipn 2 stack))
  else if (sop =? 0x69)%N then Some (
    do _ <- check_args 1 stack;
    do v <- sget 1 stack;
    if CastToBool v then do (_, stack) <- spop stack; Ok stack else Err VerifyOpFailedError)
  else if (sop =? 0xa5)%N then Some (
    do _ <- check_args 3 stack;
    do v <- sget 1 stack; do bn3 <- CastToBigNum v;
    do v <- sget 2 stack; do bn2 <- CastToBigNum v;
    do v <- sget 3 stack; do bn1 <- CastToBigNum v;
    do (_, stack) <- spop stack; do (_, stack) <- spop stack; do (_, stack) <- spop stack;
    Ok (of_bool ((bn2 <=? bn1)%Z && (bn1 <? bn3)%Z) :: stack))
  else None.

(** scripteval.py:401-663: one opcode other than a push, executed.  The branches test distinct
    opcodes, so the ones that change only the stack can be taken first. *)
Definition exec_op (scriptIn : bytes) (txTo : tx) (inIdx : Z) (fExec : bool) (sop : N) (sop_pc : nat) (m : vm) : result vm :=
  match stack_op sop (v_stack m) with
  | Some r => do stack <- r; Ok (VM stack (v_alt m) (v_exec m) (v_begin m) (v_ops m))
  | None =>
    if ((sop =? 0xae) || (sop =? 0xaf))%N then (* 458-460 *)
      do (stack, nOpCount) <- CheckMultiSig sop (skipn (v_begin m) scriptIn) (v_stack m) txTo inIdx (v_ops m);
      Ok (VM stack (v_alt m) (v_exec m) (v_begin m) nOpCount)
    else if ((sop =? 0xac) || (sop =? 0xad))%N then (* 462-487 *)
      do _ <- check_args 2 (v_stack m);
      do vchPubKey <- sget 1 (v_stack m);
      do vchSig <- sget 2 (v_stack m);
      do p <- cscript [IData vchSig];
      do tmpScript <- FindAndDelete (skipn (v_begin m) scriptIn) p;
      do ok <- CheckSig vchSig vchPubKey tmpScript txTo inIdx;
      if negb ok && (sop =? 0xad)%N then Err VerifyOpFailedError
      else
        do (_, stack) <- spop (v_stack m);
        do (_, stack) <- spop stack;
        let stack := if ok then (if negb (sop =? 0xad)%N then of_bool true :: stack else stack) else of_bool false :: stack in
        Ok (VM stack (v_alt m) (v_exec m) (v_begin m) (v_ops m))
    else if (sop =? 0xab)%N then (* 489-490 *)
      Ok (VM (v_stack m) (v_alt m) (v_exec m) sop_pc (v_ops m))
    else if (sop =? 0x67)%N then (* 505-508 *)
      match v_exec m with
      | [] => Err EvalScriptError
      | b :: l => Ok (VM (v_stack m) (v_alt m) (negb b :: l) (v_begin m) (v_ops m))
      end
    else if (sop =? 0x68)%N then (* 510-513 *)
      match v_exec m with
      | [] => Err EvalScriptError
      | b :: l => Ok (VM (v_stack m) (v_alt m) l (v_begin m) (v_ops m))
      end
    else if (sop =? 0x6c)%N then (* 536-540 *)
      match v_alt m with
      | [] => Err MissingOpArgumentsError
      | v :: alt => Ok (VM (v :: v_stack m) alt (v_exec m) (v_begin m) (v_ops m))
      end
    else if ((sop =? 0x63) || (sop =? 0x64))%N then (* 550-560 *)
      if fExec then
        do _ <- check_args 1 (v_stack m);
        do (vch, stack) <- spop (v_stack m);
        let val := CastToBool vch in
        let val := if (sop =? 0x64)%N then negb val else val in
        Ok (VM stack (v_alt m) (val :: v_exec m) (v_begin m) (v_ops m))
      else Ok (VM (v_stack m) (v_alt m) (false :: v_exec m) (v_begin m) (v_ops m))
    else if (sop =? 0x6b)%N then (* 630-633 *)
      do _ <- check_args 1 (v_stack m);
      do (v, stack) <- spop (v_stack m);
      Ok (VM stack (v :: v_alt m) (v_exec m) (v_begin m) (v_ops m))
    else Err EvalScriptError (* 662-663 *)
  end.

(** scripteval.py:666-667; MAX_STACK_ITEMS is 1000 (40). *)
Definition size_limit (m : vm) : result vm :=
  if (1000 <? Z.of_nat (List.length (v_stack m)) + Z.of_nat (List.length (v_alt m)))%Z then Err EvalScriptError else Ok m.

(** scripteval.py:358-667: the body of the loop for one item of [raw_iter()];
    MAX_SCRIPT_OPCODES is 201, MAX_SCRIPT_ELEMENT_SIZE is 520. *)
Definition eval_item (scriptIn : bytes) (txTo : tx) (inIdx : Z) (item : N * option bytes * nat) (m : vm) : result vm :=
  let '(sop, sop_data, sop_pc) := item in
  let fExec := CheckExec (v_exec m) in
  do _ <- (if disabled_opcode sop then Err EvalScriptError else Ok tt);
  let m := if (0x60 <? sop)%N then VM (v_stack m) (v_alt m) (v_exec m) (v_begin m) (v_ops m + 1)%Z else m in
  do _ <- (if (0x60 <? sop)%N && (201 <? v_ops m)%Z then Err MaxOpCountError else Ok tt);
  match sop_data with
  | Some data => (* sop <= OP_PUSHDATA4: exactly then raw_iter yields data *)
    if (520 <? blen data)%N then Err EvalScriptError
    else if fExec then Ok (VM (data :: v_stack m) (v_alt m) (v_exec m) (v_begin m) (v_ops m))
    else size_limit m
  | None =>
    do m <- (if fExec || ((0x63 <=? sop) && (sop <=? 0x68))%N then exec_op scriptIn txTo inIdx fExec sop sop_pc m else Ok m);
    size_limit m
  end.

(** scripteval.py:357: the loop. *)
Fixpoint eval_items (scriptIn : bytes) (txTo : tx) (inIdx : Z) (items : list (N * option bytes * nat)) (m : vm) : result vm :=
  match items with
  | [] => Ok m
  | item :: items' => do m <- eval_item scriptIn txTo inIdx item m; eval_items scriptIn txTo inIdx items' m
  end.

(** scripteval.py:340-676 [_EvalScript]: the new stack; MAX_SCRIPT_SIZE is 10000.  raw_iter is a
    generator, its exception comes after the items it yielded were executed. *)
Definition EvalScript_ (stack : list bytes) (scriptIn : bytes) (txTo : tx) (inIdx : Z) : result (list bytes) :=
  if (10000 <? blen scriptIn)%N then Err EvalScriptError
  else
    let '(items, e) := raw_iter scriptIn in
    do m <- eval_items scriptIn txTo inIdx items (VM stack [] [] 0 0);
    match e with
    | Some e => Err e
    | None => match v_exec m with [] => Ok (v_stack m) | _ => Err EvalScriptError end
    end.

(** scripteval.py:679-697 [EvalScript]; CScriptTruncatedPushDataError is a subclass of CScriptInvalidError
    (script.py:493-501).  The flags are not used by the evaluation. *)
Definition EvalScript (stack : list bytes) (scriptIn : bytes) (txTo : tx) (inIdx : Z) : result (list bytes) :=
  match EvalScript_ stack scriptIn txTo inIdx with
  | Err CScriptInvalidError | Err CScriptTruncatedPushDataError => Err EvalScriptError
  | r => r
  end.

(** scripteval.py:42-45 and script.py:773: five different objects; the name SCRIPT_VERIFY_P2SH is defined
    in both modules. *)
Inductive flag := EvalP2SH | EvalSTRICTENC | EvalEVEN_S | EvalNOCACHE | ScriptP2SH.
(** [f in flags] (scripteval.py:42-45). *)
Definition flag_eqb (a b : flag) : bool :=
  match a, b with
  | EvalP2SH, EvalP2SH | EvalSTRICTENC, EvalSTRICTENC | EvalEVEN_S, EvalEVEN_S | EvalNOCACHE, EvalNOCACHE | ScriptP2SH, ScriptP2SH => true
  | _, _ => false
  end.

(** scripteval.py:702-740 [VerifyScript]. *)
Definition VerifyScript (scriptSig scriptPubKey : bytes) (txTo : tx) (inIdx : Z) (flags : list flag) : result unit :=
  do stack <- EvalScript [] scriptSig txTo inIdx;
  let stackCopy := stack in
  do stack <- EvalScript stack scriptPubKey txTo inIdx;
  do _ <- (match stack with
           | [] => Err VerifyScriptError
           | v :: _ => if CastToBool v then Ok tt else Err VerifyScriptError
           end);
  if existsb (flag_eqb EvalP2SH) flags && is_p2sh scriptPubKey then
    do _ <- (if is_push_only scriptSig then Ok tt else Err VerifyScriptError);
    do (pubKey2, stackCopy) <- (match stackCopy with [] => Err AssertionError | v :: s => Ok (v, s) end);
    do stackCopy <- EvalScript stackCopy pubKey2 txTo inIdx;
    match stackCopy with
    | [] => Err VerifyScriptError
    | v :: _ => if CastToBool v then Ok tt else Err VerifyScriptError
    end
  else Ok tt.

(** scripteval.py:746-767 [VerifySignature]; no flags are passed on. *)
Definition VerifySignature (txFrom txTo : tx) (inIdx : Z) : result unit :=
  do _ <- (if (inIdx <? 0)%Z then Err VerifySignatureError else Ok tt);
  do _ <- (if (Z.of_nat (List.length (t_vin txTo)) <=? inIdx)%Z then Err VerifySignatureError else Ok tt);
  do txin <- match nth_error (t_vin txTo) (Z.to_nat inIdx) with Some x => Ok x | None => Err IndexError end;
  do _ <- (if (o_n (i_prevout txin) <? 0)%Z then Err VerifySignatureError else Ok tt);
  do _ <- (if (Z.of_nat (List.length (t_vout txFrom)) <=? o_n (i_prevout txin))%Z then Err VerifySignatureError else Ok tt);
  do txout <- match nth_error (t_vout txFrom) (Z.to_nat (o_n (i_prevout txin))) with Some x => Ok x | None => Err IndexError end;
  do h <- tx_GetHash txFrom;
  do _ <- (if negb (bytes_eqb (o_hash (i_prevout txin)) h) then Err VerifySignatureError else Ok tt);
  VerifyScript (i_scriptSig txin) (o_scriptPubKey txout) txTo inIdx [].

End Machine.
