(** Executable model of the objects of lib/python-proofmarshal/proofmarshal/proof.py (cited as
    proof.py) and proofchains/core/bitcoin.py (cited as pbitcoin.py): references, views that share their
    original, attributes fetched on demand, hashes kept after they were computed.
    [Proof_Model] describes the same code with views as values; here a view is an object, and a
    program may keep any reference it was given. *)
From Verif Require Import Base Sha256 Serialize_Model Tx_Model Proof_Model Cache_Model.

(** ** Objects *)

(** A reference to a proof object; what an attribute holds: a value that is not a proof, or such
    a reference.  proof.py:44-62, 99-106, 218-227: objects are handed around by reference. *)
Definition ref := nat.
(** proof.py:54, 144: what an attribute is set to. *)
Inductive hval := HLeaf (v : val) | HRef (r : ref).

(** The slots of an instance (proof.py:40): class, __orig_instance, the serialized attributes set
    so far, is_pruned, is_fully_pruned, and data_hash and hash once they are known. *)
Record obj := Obj {
  b_class : cid; b_orig : option ref; b_attrs : list (string * hval);
  b_pruned : bool; b_fully : bool; b_dhash : option bytes; b_hash : option bytes }.

(** All objects, in the order of their creation, and SERIALIZED_ATTRS_BY_NAME of all classes
    (proof.py:42, 46-47). *)
Record state := St { s_heap : list obj; s_cache : cache }.

(** Code that changes the state and may raise; the state stays changed then.  Used for all of proof.py:44-230. *)
Definition M (A : Type) : Type := state -> result A * state.
(** [return a] (proof.py:62, 106, 113, 118, 149). *)
Definition ret {A} (a : A) : M A := fun s => (Ok a, s).
(** [raise e] (proof.py:125, 127, 249). *)
Definition raise {A} (e : exn) : M A := fun s => (Err e, s).
(** A step that does not touch the state, such as [check_instance] (proof.py:53). *)
Definition lift {A} (r : result A) : M A := fun s => (r, s).
(** One statement after another, stopping at an exception (proof.py:44-230). *)
Definition mbind {A B} (m : M A) (k : A -> M B) : M B :=
  fun s => match m s with (Ok a, s') => k a s' | (Err e, s') => (Err e, s') end.
Notation "'let!' x ':=' m 'in' k" := (mbind m (fun x => k)) (at level 200, x name, m at level 100, k at level 200).

(** Looking at an object.  There are no dangling references in Python.
    Used wherever proof.py:72-230 reads a slot of an instance. *)
Definition fetch (r : ref) : M obj :=
  fun s => match nth_error (s_heap s) r with Some o => (Ok o, s) | None => (Err OutOfFuel, s) end.
(** object.__new__ followed by object.__setattr__ of the slots.  proof.py:50-62, 100-106, 218-227. *)
Definition alloc (o : obj) : M ref := fun s => (Ok (List.length (s_heap s)), St (s_heap s ++ [o]) (s_cache s)).
(** object.__setattr__ on an object.  proof.py:112, 117, 144, 148. *)
Definition update (r : ref) (f : obj -> obj) : M unit :=
  fun s => (Ok tt, match nth_error (s_heap s) r with
                   | Some o => St (set_nth r (f o) (s_heap s)) (s_cache s)
                   | None => s
                   end).

(** proof.py:144, 148: object.__setattr__(self, name, value); is_fully_pruned = False. *)
Definition with_attr (name : string) (x : hval) (o : obj) : obj :=
  Obj (b_class o) (b_orig o) (b_attrs o ++ [(name, x)]) (b_pruned o) false (b_dhash o) (b_hash o).
(** proof.py:112, 117. *)
Definition with_hash (full : bool) (d : bytes) (o : obj) : obj :=
  if full then Obj (b_class o) (b_orig o) (b_attrs o) (b_pruned o) (b_fully o) (b_dhash o) (Some d)
  else Obj (b_class o) (b_orig o) (b_attrs o) (b_pruned o) (b_fully o) (Some d) (b_hash o).

Section Objects.
Context (ct : ctable).

(** ** Pruning and attributes *)

(** proof.py:91-106 [prune]. *)
Definition hprune (r : ref) : M ref :=
  let! o := fetch r in alloc (Obj (b_class o) (Some r) [] true true None None).

(** proof.py:120-149, [getattr(r, name)] for a name other than hash and data_hash.  Line 123 raises TypeError
    when no instance of the class was made yet ([name in None]).  Originals are
    older than their views, so [S r] is enough fuel. *)
Fixpoint hget (fuel : nat) (r : ref) (name : string) : M hval :=
  match fuel with
  | O => raise OutOfFuel
  | S fuel' =>
    let! o := fetch r in
    match assoc name (b_attrs o) with
    | Some x => ret x
    | None =>
      match b_orig o with
      | None => fun s =>
        match cached (s_cache s) (c_supers (ct (b_class o))) with
        | None => (Err TypeError, s)
        | Some attrs => (Err (if existsb (fun a => String.eqb (fst a) name) attrs then PrunedError else AttributeError), s)
        end
      | Some p =>
        let! y := hget fuel' p name in
        let! x := match y with HLeaf v => ret (HLeaf v) | HRef c => let! k := hprune c in ret (HRef k) end in
        let! _ := update r (with_attr name x) in
        ret x
      end
    end
  end.
(** proof.py:108-149: [getattr(r, name)] with enough fuel. *)
Definition getattr (r : ref) (name : string) : M hval := hget (S r) r name.

(** ** Hashes *)

(** What a serializer for values that are not proofs makes of a proof: any proof is as bad as
    another.  proof.py:167, 185. *)
Definition as_leaf (x : hval) : val := match x with HLeaf v => v | HRef _ => PHash 0 [] end.

(** proof.py:158-169: the attributes one after the other; [H] is the hash of a sub-proof. *)
Fixpoint dh_loop (H : ref -> M bytes) (r : ref) (attrs : list (string * ser)) : M bytes :=
  match attrs with
  | [] => ret []
  | (name, sr) :: attrs' =>
    let! x := getattr r name in
    let! p := match sr with
              | SerProof _ | SerUnion _ => match x with HRef c => H c | HLeaf _ => raise AttributeError end
              | _ => lift (ser_leaf sr (as_leaf x))
              end in
    let! q := dh_loop H r attrs' in
    ret (p ++ q)
  end.

(** proof.py:108-118 with 151-177 and pbitcoin.py:69-77: the attribute [hash] (if [full]) or [data_hash].
    Sub-proofs and originals are older than the objects that refer to them, and hash
    refers to data_hash of the same object, so twice the reference is enough fuel. *)
Fixpoint hhash (fuel : nat) (full : bool) (r : ref) : M bytes :=
  match fuel with
  | O => raise OutOfFuel
  | S fuel' =>
    let! o := fetch r in
    match (if full then b_hash o else b_dhash o) with
    | Some d => ret d
    | None =>
      let! d :=
        match b_orig o with
        | Some p => hhash fuel' full p
        | None =>
          if full then
            match c_hash (ct (b_class o)) with
            | HTag t =>
              let! d := hhash fuel' false r in
              match t with Some t => ret (tag_hash t d) | None => raise TypeError end
            | HTx =>
              if b_pruned o then let! _ := hhash fuel' false r in raise TypeError
              else
                let! x := getattr r "tx" in
                match x with HLeaf (VTx t) => let! h := lift (tx_GetHash t) in ret (xor_pad h) | _ => raise AttributeError end
            end
          else let! m := dh_loop (hhash fuel' true) r (c_attrs (ct (b_class o))) in ret (sha256 m)
        end in
      let! _ := update r (with_hash full d) in
      ret d
    end
  end.
(** proof.py:110-113: [r.data_hash]. *)
Definition data_hash_attr (r : ref) : M bytes := hhash (2 * r + 2) false r.
(** proof.py:115-118: [r.hash]. *)
Definition hash_attr (r : ref) : M bytes := hhash (2 * r + 2) true r.

(** ** Construction *)

(** The class of what is given, for isinstance: all that [check] looks at in a proof.  proof.py:53, 246, 302. *)
Definition shadow (h : list obj) (x : hval) : val :=
  match x with
  | HLeaf v => v
  | HRef r => match nth_error h r with Some o => PHash (b_class o) [] | None => VBits [] end
  end.

(** proof.py:51-57: the attributes, and whether one of those declared with a proof class is pruned. *)
Fixpoint new_loop (attrs : list (string * ser)) (kw : list (string * hval)) : M (list (string * hval) * bool) :=
  match attrs with
  | [] => ret ([], false)
  | (name, sr) :: attrs' =>
    let! x := match assoc name kw with Some x => ret x | None => raise KeyError end in
    let! _ := (fun s => (check ct sr (shadow (s_heap s) x), s)) in
    let! p := match sr with
              | SerProof _ => match x with HRef c => let! o := fetch c in ret (b_pruned o) | HLeaf _ => raise AttributeError end
              | _ => ret false
              end in
    let! q := new_loop attrs' kw in
    ret ((name, x) :: fst q, p || snd q)
  end.

(** proof.py:44-62 [Proof.__new__(cls, **kwargs)]. *)
Definition hnew (c : cid) (kw : list (string * hval)) : M ref :=
  let! attrs := (fun s => let '(a, ca) := attrs_for ct (s_cache s) c in (Ok a, St (s_heap s) ca)) in
  let! q := new_loop attrs kw in
  alloc (Obj c None (fst q) (snd q) false None None).

(** ** Serialization *)

(** proof.py:269-276 and 321-330: the number of the class of an object. *)
Definition hvariant (o : obj) : result bytes := ser_variant ct (PHash (b_class o) []).
(** proof.py:269-276, 321-330: the number as written. *)
Definition hunion (cs : list cid) (o : obj) : result bytes :=
  match union_index ct cs (PHash (b_class o) []) with
  | Some i => Ok (write_varuint (Z.of_nat i))
  | None => Err SerializerTypeError
  end.

(** proof.py:182-185 [_ctx_serialize]: the attributes one after the other; [W] writes a sub-proof. *)
Fixpoint ser_loop (W : ref -> M bytes) (r : ref) (attrs : list (string * ser)) : M bytes :=
  match attrs with
  | [] => ret []
  | (name, sr) :: attrs' =>
    let! x := getattr r name in
    let! p := match sr with
              | SerProof _ => match x with HRef c => W c | HLeaf _ => raise AttributeError end
              | SerUnion cs =>
                match x with
                | HRef c => let! o := fetch c in let! i := lift (hunion cs o) in let! b := W c in ret (i ++ b)
                | HLeaf _ => raise SerializerTypeError
                end
              | _ => lift (ser_leaf sr (as_leaf x))
              end in
    let! q := ser_loop W r attrs' in
    ret (p ++ q)
  end.

(** proof.py:187-194 [ctx_serialize].  The originals of the sub-proofs of a view are sub-proofs of its
    original and older than that, so [S r] is enough fuel. *)
Fixpoint hser (fuel : nat) (r : ref) : M bytes :=
  match fuel with
  | O => raise OutOfFuel
  | S fuel' =>
    let! o := fetch r in
    if b_fully o then let! d := data_hash_attr r in ret (xff :: d)
    else
      let! i := lift (hvariant o) in
      let! b := ser_loop (hser fuel') r (c_attrs (ct (b_class o))) in
      ret (x00 :: i ++ b)
  end.
(** proof.py:197-201 [serialize]. *)
Definition serialize_of (r : ref) : M bytes := hser (S r) r.

(** ** Deserialization *)

(** The loop of proof.py:203-211; [D] reads a sub-proof. *)
Fixpoint de_loop (D : cid -> bytes -> M (ref * bytes)) (attrs : list (string * ser)) (s : bytes) : M (list (string * hval) * bytes) :=
  match attrs with
  | [] => ret ([], s)
  | (name, sr) :: attrs' =>
    let! p := match sr with
              | SerProof c => let! q := D c s in ret (HRef (fst q), snd q)
              | SerUnion cs =>
                let! i := lift (read_varuint s) in
                match (if (fst i <? N.of_nat (List.length cs))%N then nth_error cs (N.to_nat (fst i)) else None) with
                | Some c => let! q := D c (snd i) in ret (HRef (fst q), snd q)
                | None => raise NameError
                end
              | _ => let! q := lift (de_leaf sr s) in ret (HLeaf (fst q), snd q)
              end in
    let! q := de_loop D attrs' (snd p) in
    ret ((name, fst p) :: fst q, snd q)
  end.

(** proof.py:213-230, 280-290 [ctx_deserialize], [_ctx_deserialize]; as [de_proof]. *)
Fixpoint hde (fuel : nat) (c : cid) (s : bytes) : M (ref * bytes) :=
  match fuel with
  | O => raise OutOfFuel
  | S fuel' =>
    let! f := lift (read_bool s) in
    if fst f : bool then
      let! d := lift (fd_read 32 (snd f)) in
      let! r := alloc (Obj c None [] true true (Some (fst d)) None) in
      ret (r, snd d)
    else
      let! u := match c_kind (ct c) with
                | Plain => ret (c, snd f)
                | Variant u =>
                  let! i := lift (read_varuint (snd f)) in
                  match (if (fst i <? N.of_nat (List.length u))%N then nth_error u (N.to_nat (fst i)) else None) with
                  | Some k => ret (k, snd i)
                  | None => raise NameError
                  end
                end in
      let! kw := de_loop (hde fuel') (c_attrs (ct (fst u))) (snd u) in
      let! r := hnew (fst u) (fst kw) in
      ret (r, snd kw)
  end.
(** serialize.py:276-282 [cls.deserialize(buf)]. *)
Definition load (c : cid) (buf : bytes) : M ref := let! p := hde (S (List.length buf)) c buf in ret (fst p).

(** ** Programs *)

(** A program keeps what it was given: the k-th command of it gives handle number k, if it gives a
    proof.  [AUse i]: what handle [i] refers to.  The variables of a program outside /repo that uses proof.py:31-330. *)
Definition env := list (option ref).
(** An argument such a program gives to proof.py:44 or 72: a value of its own, or a proof it was given. *)
Inductive arg := ALeaf (v : val) | AUse (i : nat).

(** What can be done with proofs (proof.py:44-230): x.name, x.prune(), x.hash, x.data_hash, x.is_pruned,
    x.is_fully_pruned, x == y, x.serialize(), cls( **kwargs), cls.deserialize(buf).  The name in [CGet] is that of a
    serialized attribute or of nothing: methods and the other slots are not read with it. *)
Inductive cmd :=
| CGet (i : nat) (name : string) | CPrune (i : nat) | CHash (i : nat) | CDataHash (i : nat)
| CIsPruned (i : nat) | CIsFully (i : nat) | CEq (i j : nat) | CSer (i : nat)
| CNew (c : cid) (kw : list (string * arg)) | CLoad (c : cid) (buf : bytes).

(** What the program sees of the outcome: a value, a proof of some class, or an exception.
    For any use of proof.py:31-330. *)
Inductive out := ULeaf (v : val) | UProof (c : cid) | UBytes (b : bytes) | UBool (b : bool) | UErr (e : exn).

(** On the side of the user of proof.py:44-230: a name that was never bound raises NameError. *)
Definition handle (e : env) (i : nat) : result ref :=
  match nth_error e i with Some (Some r) => Ok r | _ => Err NameError end.
(** On the side of the user of proof.py:44-230: an argument. *)
Definition argument (e : env) (a : arg) : result hval :=
  match a with
  | ALeaf v => if is_proof v then Err NameError else Ok (HLeaf v)
  | AUse i => do r <- handle e i; Ok (HRef r)
  end.
(** On the side of the user of proof.py:44: keyword arguments. *)
Fixpoint arguments (e : env) (kw : list (string * arg)) : result (list (string * hval)) :=
  match kw with
  | [] => Ok []
  | (n, a) :: kw' => do x <- argument e a; do r <- arguments e kw'; Ok ((n, x) :: r)
  end.

(** What a reference looks like to the program, and the handle it gets.
    Used for proof.py:108-149, where the value may or may not be a proof. *)
Definition give (x : hval) : M (out * option ref) :=
  match x with
  | HLeaf v => ret (ULeaf v, None)
  | HRef r => let! o := fetch r in ret (UProof (b_class o), Some r)
  end.
(** The same for proof.py:44-62, 91-106, 213-230, which return a proof. *)
Definition give_ref (m : M ref) : M (out * option ref) := let! r := m in give (HRef r).
(** The same for the bytes returned by proof.py:110-118, 197-201. *)
Definition give_bytes (m : M bytes) : M (out * option ref) := let! b := m in ret (UBytes b, None).

(** One command (proof.py:44-230, 72-77 for ==). *)
Definition command (e : env) (c : cmd) : M (out * option ref) :=
  match c with
  | CGet i name => let! r := lift (handle e i) in let! x := getattr r name in give x
  | CPrune i => let! r := lift (handle e i) in give_ref (hprune r)
  | CHash i => let! r := lift (handle e i) in give_bytes (hash_attr r)
  | CDataHash i => let! r := lift (handle e i) in give_bytes (data_hash_attr r)
  | CIsPruned i => let! r := lift (handle e i) in let! o := fetch r in ret (UBool (b_pruned o), None)
  | CIsFully i => let! r := lift (handle e i) in let! o := fetch r in ret (UBool (b_fully o), None)
  | CEq i j =>
    let! a := lift (handle e i) in
    let! b := lift (handle e j) in
    let! x := hash_attr a in let! y := hash_attr b in ret (UBool (bytes_eqb x y), None)
  | CSer i => let! r := lift (handle e i) in give_bytes (serialize_of r)
  | CNew c kw => let! kw := lift (arguments e kw) in give_ref (hnew c kw)
  | CLoad c buf => give_ref (load c buf)
  end.

(** The outcome of one command, the state and the handles afterwards.
    One call by a program outside /repo into proof.py:31-330. *)
Definition exec (s : state) (e : env) (c : cmd) : out * state * env :=
  match command e c s with
  | (Ok (u, h), s') => (u, s', e ++ [h])
  | (Err x, s') => (UErr x, s', e ++ [None])
  end.

(** A sequence of commands.  A program that decides what to do next from what it has seen issues
    one of these sequences.  Any number of such calls into proof.py:31-330. *)
Fixpoint run_all (s : state) (e : env) (p : list cmd) : list out * state * env :=
  match p with
  | [] => ([], s, e)
  | c :: p' =>
    let '(u, s, e) := exec s e c in
    let '(us, s, e) := run_all s e p' in
    (u :: us, s, e)
  end.

End Objects.

(** A process before it made any proof.  proof.py:42: no class has SERIALIZED_ATTRS_BY_NAME yet. *)
Definition start : state := St [] empty_cache.
