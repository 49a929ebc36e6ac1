(** Executable model of transactions as Python objects: identity, sharing, setting attributes,
    cached hashes.  lib/python-bitcoinlib/bitcoin/core/__init__.py (cited as core.py),
    lib/python-bitcoinlib/bitcoin/core/serialize.py (bserialize.py) and
    lib/python-bitcoinlib/bitcoin/core/script.py (script.py). *)
From Verif Require Import Base PySlice Sha256 Tx_Model Script_Model Block_Model SigHash_Model Money_Model.

(** ** The store *)

(** Which object: the classes of core.py:121-381 have slots only, so an object is what its slots hold. *)
Definition ref := nat.
(** core.py:123, 182, 251, 305: the slots; scripts and hashes are bytes, which cannot change.
    [OSeq] is a Python list or tuple, as found in vin and vout (core.py:319-320, 366-372).  Only
    references to objects of the model can be put into slots that hold objects. *)
Inductive obj :=
| OPoint (h : bytes) (n : Z)
| OInput (prevout : ref) (script : bytes) (seq : Z)
| OOutput (v : Z) (script : bytes)
| OTrans (vin vout : ref) (lock ver : Z)
| OSeq (l : list ref).
(** core.py:121-381: an object, whether it is of the class CX or CMutableX (for [OSeq]: tuple or
    list), and the two slots _cached_GetHash and _cached__hash__ (bserialize.py:142). *)
Record cell := Cell { c_cls : cls; c_obj : obj; c_hash : option bytes; c_pyhash : option Z }.
(** All objects there are, core.py:121-381; nothing is ever collected. *)
Definition store := list cell.

(** core.py:182: the default argument COutPoint() is one object, made when the class is. *)
Definition default_point : ref := 0.
(** core.py:125, 182: the objects there are at the beginning. *)
Definition start : store := [Cell Imm (OPoint (repeat x00 32) 0xffffffff) None None].

(** A call that may change objects, as any method of core.py:121-381; what was done before an exception stays done. *)
Definition M (A : Type) := store -> result A * store.
(** core.py:121-381: a value without doing anything. *)
Definition ret {A} (a : A) : M A := fun s => (Ok a, s).
(** core.py:127: an exception. *)
Definition raise {A} (e : exn) : M A := fun s => (Err e, s).
(** core.py:121-381: something that does not touch the objects. *)
Definition pure {A} (r : result A) : M A := fun s => (r, s).
(** core.py:121-381: one statement after the other. *)
Definition andthen {A B} (m : M A) (f : A -> M B) : M B := fun s =>
  match m s with (Ok a, s') => f a s' | (Err e, s') => (Err e, s') end.
Notation "'act' x <- m ; k" := (andthen m (fun x => k))
  (at level 200, x pattern, m at level 100, k at level 200, right associativity).

(** core.py:317-320: a new object, with nothing cached. *)
Definition alloc (c : cls) (o : obj) : M ref := fun s => (Ok (List.length s), s ++ [Cell c o None None]).
(** core.py:205: the object a reference is to.  (There are no others, a program cannot make references up.) *)
Definition look (r : ref) : M cell := fun s => match nth_error s r with Some c => (Ok c, s) | None => (Err NameError, s) end.
(** core.py:113: changing an object. *)
Fixpoint replace (s : store) (r : ref) (c : cell) : store :=
  match s, r with
  | [], _ => []
  | _ :: s', O => c :: s'
  | d :: s', S r' => d :: replace s' r' c
  end.
(** core.py:113: as a statement. *)
Definition put (r : ref) (c : cell) : M unit := fun s => (Ok tt, replace s r c).

(** core.py:319, 378: [ [f(x) for x in l] ]. *)
Fixpoint each {A B} (f : A -> M B) (l : list A) : M (list B) :=
  match l with
  | [] => ret []
  | x :: l' => act y <- f x; act ys <- each f l'; ret (y :: ys)
  end.

(** ** Reading *)

(** core.py:139-142: the slots of an outpoint; any other object has no attribute hash. *)
Definition point_at (s : store) (r : ref) : result outpoint :=
  match nth_error s r with Some (Cell _ (OPoint h n) _ _) => Ok (mkOutPoint h n) | _ => Err AttributeError end.
(** core.py:199-202: the slots of an input. *)
Definition input_at (s : store) (r : ref) : result txin :=
  match nth_error s r with
  | Some (Cell _ (OInput p sc q) _ _) => do o <- point_at s p; Ok (mkTxIn o sc q)
  | _ => Err AttributeError
  end.
(** core.py:263-265: the slots of an output. *)
Definition output_at (s : store) (r : ref) : result txout :=
  match nth_error s r with Some (Cell _ (OOutput v sc) _ _) => Ok (mkTxOut v sc) | _ => Err AttributeError end.
(** bserialize.py:237-240: what a list or tuple holds; other objects have no len. *)
Definition seq_at (s : store) (r : ref) : result (list ref) :=
  match nth_error s r with Some (Cell _ (OSeq l) _ _) => Ok l | _ => Err TypeError end.
(** core.py:330-334: all of a transaction.  (Here before anything is written: a part of a wrong kind is
    reported before a number that does not fit.) *)
Definition tx_at (s : store) (r : ref) : result tx :=
  match nth_error s r with
  | Some (Cell _ (OTrans vin vout lock ver) _ _) =>
    do li <- seq_at s vin;
    do vi <- mapM (input_at s) li;
    do lo <- seq_at s vout;
    do vo <- mapM (output_at s) lo;
    Ok (mkTx vi vo lock ver)
  | _ => Err AttributeError
  end.

(** bserialize.py:99-103 [serialize] of any object; lists and tuples have no such method. *)
Definition serialize (s : store) (r : ref) : result bytes :=
  match nth_error s r with
  | Some (Cell _ (OPoint _ _) _ _) => do o <- point_at s r; outpoint_ser o
  | Some (Cell _ (OInput _ _ _) _ _) => do i <- input_at s r; txin_ser i
  | Some (Cell _ (OOutput _ _) _ _) => do o <- output_at s r; txout_ser o
  | Some (Cell _ (OTrans _ _ _ _) _ _) => do t <- tx_at s r; tx_ser t
  | _ => Err AttributeError
  end.

(** ** Making objects *)

(** core.py:125-131, for both classes. *)
Definition new_point (c : cls) (h : bytes) (n : Z) : M ref :=
  act o <- pure (outpoint_new h n); alloc c (OPoint (o_hash o) (o_n o)).
(** core.py:182-190 [CTxIn.__init__] and 228-236 [CMutableTxIn.__init__]; without an outpoint the first
    takes the one default object, the second makes a new mutable one. *)
Definition new_input (c : cls) (prevout : option ref) (script : bytes) (q : Z) : M ref :=
  if negb ((0 <=? q) && (q <=? 0xffffffff))%Z then raise ValueError
  else
    act p <- match prevout, c with
             | Some p, _ => ret p
             | None, Imm => ret default_point
             | None, Mut => new_point Mut (repeat x00 32) 0xffffffff
             end;
    alloc c (OInput p script q).
(** core.py:253-255. *)
Definition new_output (c : cls) (v : Z) (script : bytes) : M ref := alloc c (OOutput v script).

(** core.py:153-164 [COutPoint.from_outpoint]: the name [output] is not defined; 171-174 [CMutableOutPoint.from_outpoint]. *)
Definition from_outpoint (c : cls) (r : ref) : M ref :=
  match c with
  | Imm => raise NameError
  | Mut =>
    act x <- look r;
    match c_obj x with OPoint h n => new_point Mut h n | _ => raise AttributeError end
  end.
(** core.py:210-221 [CTxIn.from_txin]: what is of the class is returned, else COutPoint.from_txout, which
    does not exist, is asked for; 238-242 [CMutableTxIn.from_txin]. *)
Definition from_txin (c : cls) (r : ref) : M ref :=
  act x <- look r;
  match c with
  | Imm => match c_cls x, c_obj x with Imm, OInput _ _ _ => ret r | _, _ => raise AttributeError end
  | Mut =>
    match c_obj x with
    | OInput p sc q => act p' <- from_outpoint Mut p; new_input Mut (Some p') sc q
    | _ => raise AttributeError
    end
  end.
(** core.py:280-291 [CTxOut.from_txout] and 298-301 [CMutableTxOut.from_txout]. *)
Definition from_txout (c : cls) (r : ref) : M ref :=
  act x <- look r;
  match c_obj x with
  | OOutput v sc => match c, c_cls x with Imm, Imm => ret r | _, _ => new_output c v sc end
  | _ => raise AttributeError
  end.
(** core.py:319: iterating over an argument. *)
Definition iterate (r : ref) : M (list ref) :=
  act x <- look r; match c_obj x with OSeq l => ret l | _ => raise TypeError end.
(** core.py:307-320 [CTransaction.__init__] and 361-373 [CMutableTransaction.__init__], which keeps the
    lists it is given; None stands for the default argument. *)
Definition new_tx (c : cls) (vin vout : option ref) (lock ver : Z) : M ref :=
  if negb ((0 <=? lock) && (lock <=? 0xffffffff))%Z then raise ValueError
  else
    match c with
    | Imm =>
      act li <- match vin with Some r => iterate r | None => ret [] end;
      act li <- each (from_txin Imm) li;
      act vi <- alloc Imm (OSeq li);
      act lo <- match vout with Some r => iterate r | None => ret [] end;
      act lo <- each (from_txout Imm) lo;
      act vo <- alloc Imm (OSeq lo);
      alloc Imm (OTrans vi vo lock ver)
    | Mut =>
      act vi <- match vin with Some r => ret r | None => alloc Mut (OSeq []) end;
      act vo <- match vout with Some r => ret r | None => alloc Mut (OSeq []) end;
      alloc Mut (OTrans vi vo lock ver)
    end.
(** core.py:343-353 [CTransaction.from_tx] and 375-381 [CMutableTransaction.from_tx]. *)
Definition from_tx (c : cls) (r : ref) : M ref :=
  act x <- look r;
  match c_obj x with
  | OTrans vin vout lock ver =>
    match c, c_cls x with
    | Imm, Imm => ret r
    | Imm, Mut => new_tx Imm (Some vin) (Some vout) lock ver
    | Mut, _ =>
      act li <- iterate vin;
      act li <- each (from_txin Mut) li;
      act vi <- alloc Mut (OSeq li);
      act lo <- iterate vout;
      act lo <- each (from_txout Mut) lo;
      act vo <- alloc Mut (OSeq lo);
      new_tx Mut (Some vi) (Some vo) lock ver
    end
  | _ => raise AttributeError
  end.

(** core.py:192-197 [CTxIn.stream_deserialize]: the objects for an input that was read. *)
Definition load_input (i : txin) : M ref :=
  act p <- new_point Imm (o_hash (i_prevout i)) (o_n (i_prevout i)); new_input Imm (Some p) (i_scriptSig i) (i_nSequence i).
(** core.py:322-328 [stream_deserialize] of both transaction classes: the inputs and outputs are of the
    immutable classes in any case.  (The objects are made after everything was read.) *)
Definition load_tx (c : cls) (b : bytes) : M ref :=
  act t <- pure (bdeserialize tx_de false b);
  act li <- each load_input (t_vin t);
  act vi <- alloc Mut (OSeq li);
  act lo <- each (fun o => new_output Imm (o_nValue o) (o_scriptPubKey o)) (t_vout t);
  act vo <- alloc Mut (OSeq lo);
  new_tx c (Some vi) (Some vo) (t_nLockTime t) (t_nVersion t).

(** ** Changing objects *)

(** The slots, with what is to be put there (core.py:123, 182, 251, 305). *)
Inductive field :=
| FHash (b : bytes) | FN (z : Z) | FPrevout (r : ref) | FScriptSig (b : bytes) | FSequence (z : Z)
| FValue (z : Z) | FScriptPubKey (b : bytes) | FVin (r : ref) | FVout (r : ref) | FLockTime (z : Z) | FVersion (z : Z).
(** core.py:113 with 123, 182, 251, 305: [object.__setattr__]; there are no attributes besides the slots. *)
Definition with_field (o : obj) (f : field) : option obj :=
  match o, f with
  | OPoint h n, FHash b => Some (OPoint b n)
  | OPoint h n, FN z => Some (OPoint h z)
  | OInput p sc q, FPrevout r => Some (OInput r sc q)
  | OInput p sc q, FScriptSig b => Some (OInput p b q)
  | OInput p sc q, FSequence z => Some (OInput p sc z)
  | OOutput v sc, FValue z => Some (OOutput z sc)
  | OOutput v sc, FScriptPubKey b => Some (OOutput v b)
  | OTrans vi vo l ve, FVin r => Some (OTrans r vo l ve)
  | OTrans vi vo l ve, FVout r => Some (OTrans vi r l ve)
  | OTrans vi vo l ve, FLockTime z => Some (OTrans vi vo z ve)
  | OTrans vi vo l ve, FVersion z => Some (OTrans vi vo l z)
  | _, _ => None
  end.
(** core.py:110-119 and bserialize.py:144-145 [__setattr__]: AttributeError if the class is immutable or has no such slot. *)
Definition set_attr (r : ref) (f : field) : M unit :=
  act x <- look r;
  match c_cls x, with_field (c_obj x) f with
  | Mut, Some o => put r (Cell (c_cls x) o (c_hash x) (c_pyhash x))
  | _, _ => raise AttributeError
  end.
(** Any change of a list in place, as at script.py:833-836; tuples (core.py:319-320) cannot be changed. *)
Definition change (r : ref) (l : list ref) : M unit :=
  act x <- look r;
  match c_obj x, c_cls x with
  | OSeq _, Mut => put r (Cell Mut (OSeq l) (c_hash x) (c_pyhash x))
  | OSeq _, Imm => raise TypeError
  | _, _ => raise AttributeError
  end.
(** script.py:835 [l.append(x)]. *)
Definition append (r : ref) (x : ref) : M unit := act l <- iterate r; change r (l ++ [x]).

(** ** Hashes *)

(** bserialize.py:99-103 as a call. *)
Definition serialize_ (r : ref) : M bytes := fun s => (serialize s r, s).
(** bserialize.py:123-125 and 150-157 [GetHash]; core.py:116 takes the first for the mutable classes. *)
Definition GetHash (r : ref) : M bytes :=
  act x <- look r;
  match c_cls x, c_hash x with
  | Imm, Some h => ret h
  | Imm, None =>
    act b <- serialize_ r;
    act _ <- put r (Cell (c_cls x) (c_obj x) (Some (Hash b)) (c_pyhash x));
    ret (Hash b)
  | Mut, _ => act b <- serialize_ r; ret (Hash b)
  end.

Section Hashing.
(** Python's hash of a byte string, which differs from run to run. *)
Context (pyhash : bytes -> Z).

(** bserialize.py:136-137 and 159-165 [__hash__]; core.py:117 takes the first for the mutable classes.
    (Of lists and tuples it is not asked.) *)
Definition hash_of (r : ref) : M Z :=
  act x <- look r;
  match c_cls x, c_pyhash x with
  | Imm, Some h => ret h
  | Imm, None =>
    act b <- serialize_ r;
    act _ <- put r (Cell (c_cls x) (c_obj x) (c_hash x) (Some (pyhash b)));
    ret (pyhash b)
  | Mut, _ => act b <- serialize_ r; ret (pyhash b)
  end.

(** Which of the four pairs of classes (core.py:121, 176, 245, 303). *)
Definition family (o : obj) : N := match o with OPoint _ _ => 1 | OInput _ _ _ => 2 | OOutput _ _ => 3 | OTrans _ _ _ _ => 4 | OSeq _ => 0 end.
(** bserialize.py:127-131 [__eq__]: CMutableX derives from CX, and its objects are asked first if on the
    right; objects of classes that are not related are not equal.  (Lists and tuples are not compared.) *)
Definition equal (a b : ref) : M bool :=
  act x <- look a;
  act y <- look b;
  if (family (c_obj x) =? 0)%N || (family (c_obj y) =? 0)%N then raise NotImplementedError
  else if negb (family (c_obj x) =? family (c_obj y))%N then ret false
  else
    match c_cls x, c_cls y with
    | Imm, Mut => act v <- serialize_ b; act u <- serialize_ a; ret (bytes_eqb v u)
    | _, _ => act u <- serialize_ a; act v <- serialize_ b; ret (bytes_eqb u v)
    end.

(** ** Signature hashes *)

(** script.py:816-817. *)
Definition clear_scripts (l : list ref) : M unit := act _ <- each (fun r => set_attr r (FScriptSig [])) l; ret tt.
(** script.py:823-825 and 838-840. *)
Fixpoint zero_others (inIdx i : Z) (l : list ref) : M unit :=
  match l with
  | [] => ret tt
  | r :: l' => act _ <- (if (i =? inIdx)%Z then ret tt else set_attr r (FSequence 0)); zero_others inIdx (i + 1) l'
  end.
(** core.py:330-334: the list in the slot vin, or vout. *)
Definition slot (vin : bool) (r : ref) : M ref :=
  act x <- look r; match c_obj x with OTrans vi vo _ _ => ret (if vin then vi else vo) | _ => raise AttributeError end.
(** script.py:834-835. *)
Fixpoint append_defaults (r : ref) (k : nat) : M unit :=
  match k with
  | O => ret tt
  | S k' => act o <- new_output Imm (-1) []; act _ <- append r o; append_defaults r k'
  end.
(** script.py:801-852 [RawSignatureHash] on objects; the second component tells whether an error message is returned. *)
Definition raw_signature_hash (script : bytes) (txTo : ref) (inIdx hashtype : Z) : M (bytes * bool) :=
  act v <- slot true txTo;
  act l <- iterate v;
  if (Z.of_nat (List.length l) <=? inIdx)%Z then ret (HASH_ONE, true)
  else
    act txtmp <- from_tx Mut txTo;
    act v <- slot true txtmp;
    act li <- iterate v;
    act _ <- clear_scripts li;
    act sc <- pure (FindAndDelete script [xab]);
    act i <- pure (py_index li inIdx);
    act _ <- set_attr i (FScriptSig sc);
    let finish : M (bytes * bool) :=
      act _ <- (if (Z.land hashtype 0x80 =? 0)%Z then ret tt
                else act v <- slot true txtmp; act li <- iterate v; act tmp <- pure (py_index li inIdx);
                     act n <- alloc Mut (OSeq []); act _ <- set_attr txtmp (FVin n); append n tmp);
      act b <- serialize_ txtmp;
      act h <- pure (pack_u 4 hashtype);
      ret (Hash (b ++ h), false) in
    if (Z.land hashtype 0x1f =? 2)%Z then
      act n <- alloc Mut (OSeq []);
      act _ <- set_attr txtmp (FVout n);
      act v <- slot true txtmp;
      act li <- iterate v;
      act _ <- zero_others inIdx 0 li;
      finish
    else if (Z.land hashtype 0x1f =? 3)%Z then
      act w <- slot false txtmp;
      act lo <- iterate w;
      if (Z.of_nat (List.length lo) <=? inIdx)%Z then ret (HASH_ONE, true)
      else
        act tmp <- pure (py_index lo inIdx);
        act n <- alloc Mut (OSeq []);
        act _ <- set_attr txtmp (FVout n);
        act _ <- append_defaults n (Z.to_nat inIdx);
        act _ <- append n tmp;
        act v <- slot true txtmp;
        act li <- iterate v;
        act _ <- zero_others inIdx 0 li;
        finish
    else finish.

(** ** Programs *)

(** What a program can do with these objects (core.py:121-381, bserialize.py:99-165, script.py:801-852). *)
Inductive op :=
| NewPoint (c : cls) (h : bytes) (n : Z)
| NewInput (c : cls) (prevout : option ref) (script : bytes) (q : Z)
| NewOutput (c : cls) (v : Z) (script : bytes)
| NewSeq (c : cls) (l : list ref)
| NewTx (c : cls) (vin vout : option ref) (lock ver : Z)
| LoadTx (c : cls) (b : bytes)
| FromOutpoint (c : cls) (r : ref) | FromTxin (c : cls) (r : ref) | FromTxout (c : cls) (r : ref) | FromTx (c : cls) (r : ref)
| SetAttr (r : ref) (f : field)
| Change (r : ref) (l : list ref)
| Serialize (r : ref) | AskHash (r : ref) | AskPyHash (r : ref) | Equal (a b : ref)
| SigHash (script : bytes) (r : ref) (inIdx hashtype : Z).
(** core.py:121-381, bserialize.py:99-165: what comes out of it. *)
Inductive out := VRef (r : ref) | VBytes (b : bytes) | VInt (z : Z) | VBool (b : bool) | VPair (b : bytes) (e : bool) | VNone.
(** core.py:121-381: the value of a call as an [out]. *)
Definition giving {A} (f : A -> out) (m : M A) : M out := act a <- m; ret (f a).
(** core.py:205, 319: the objects named in it. *)
Definition named (o : op) : list ref :=
  let opt (x : option ref) := match x with Some r => [r] | None => [] end in
  match o with
  | NewInput _ p _ _ => opt p
  | NewSeq _ l => l
  | NewTx _ vi vo _ _ => opt vi ++ opt vo
  | FromOutpoint _ r | FromTxin _ r | FromTxout _ r | FromTx _ r => [r]
  | SetAttr r f => r :: match f with FPrevout x | FVin x | FVout x => [x] | _ => [] end
  | Change r l => r :: l
  | Serialize r | AskHash r | AskPyHash r => [r]
  | Equal a b => [a; b]
  | SigHash _ r _ _ => [r]
  | NewPoint _ _ _ | NewOutput _ _ _ | LoadTx _ _ => []
  end.
(** core.py:121-381, bserialize.py:99-165, script.py:801-852: one thing done with objects that there are. *)
Definition act_on (o : op) : M out :=
  match o with
  | NewPoint c h n => giving VRef (new_point c h n)
  | NewInput c p sc q => giving VRef (new_input c p sc q)
  | NewOutput c v sc => giving VRef (new_output c v sc)
  | NewSeq c l => giving VRef (alloc c (OSeq l))
  | NewTx c vi vo l v => giving VRef (new_tx c vi vo l v)
  | LoadTx c b => giving VRef (load_tx c b)
  | FromOutpoint c r => giving VRef (from_outpoint c r)
  | FromTxin c r => giving VRef (from_txin c r)
  | FromTxout c r => giving VRef (from_txout c r)
  | FromTx c r => giving VRef (from_tx c r)
  | SetAttr r f => giving (fun _ => VNone) (set_attr r f)
  | Change r l => giving (fun _ => VNone) (change r l)
  | Serialize r => giving VBytes (serialize_ r)
  | AskHash r => giving VBytes (GetHash r)
  | AskPyHash r => giving VInt (hash_of r)
  | Equal a b => giving VBool (equal a b)
  | SigHash sc r i h => giving (fun p => VPair (fst p) (snd p)) (raw_signature_hash sc r i h)
  end.
(** core.py:121-381: the same; a program cannot name an object that there is not yet. *)
Definition step (o : op) : M out := fun s =>
  if forallb (fun r => (r <? List.length s)%nat) (named o) then act_on o s else (Err NameError, s).
(** core.py:121-381: a program is a list of them; it may go on after an exception. *)
Fixpoint run (l : list op) (s : store) : list (result out) * store :=
  match l with
  | [] => ([], s)
  | o :: l' => let '(v, s1) := step o s in let '(vs, s2) := run l' s1 in (v :: vs, s2)
  end.
End Hashing.
