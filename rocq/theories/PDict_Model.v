(** Executable model of dictionaries and sets with proofs as keys: what [__hash__] and [__eq__] of
    lib/python-proofmarshal/proofmarshal/proof.py:72-83 (cited as proof.py) are for. *)
From Verif Require Import Base Serialize_Model Proof_Model Cache_Model Heap_Model.

Section PDict.
Context (ct : ctable) (pyhash : bytes -> Z) {V : Type}.

(** A dictionary of the interpreter with keys that have proof.py:72-83: the hash a key had when it was put in, the key
    and the value.  (Entries are looked through in the order they were made; the interpreter's order
    depends on the hashes.  A set is a dictionary without values.) *)
Definition pdict := list (Z * ref * V).

(** proof.py:79-83 [__hash__]; [pyhash] is Python's hash of a byte string, which differs from run to run. *)
Definition py_hash (r : ref) : M Z := let! h := hash_attr ct r in ret (pyhash h).
(** The test of a key that has the right hash: identity, then proof.py:72-74. *)
Definition psame (r' r : ref) : M bool :=
  if r' =? r then ret true else let! x := hash_attr ct r' in let! y := hash_attr ct r in ret (bytes_eqb x y).
(** The place of a key in the dictionary, proof.py:72-83. *)
Fixpoint plocate (h : Z) (r : ref) (d : pdict) : M (option nat) :=
  match d with
  | [] => ret None
  | (h', r', _) :: d' =>
    let! b := if (h' =? h)%Z then psame r' r else ret false in
    if b : bool then ret (Some O) else let! i := plocate h r d' in ret (option_map S i)
  end.
(** [d[k] = v] with keys of proof.py:72-83; a key that is there stays. *)
Fixpoint pset_at (i : nat) (v : V) (d : pdict) : pdict :=
  match d, i with
  | [], _ => []
  | (h, k, _) :: d', O => (h, k, v) :: d'
  | e :: d', S i' => e :: pset_at i' v d'
  end.
(** [del d[k]] with keys of proof.py:72-83. *)
Fixpoint pdrop_at (i : nat) (d : pdict) : pdict :=
  match d, i with
  | [], _ => []
  | _ :: d', O => d'
  | e :: d', S i' => e :: pdrop_at i' d'
  end.

(** What is done with one dictionary, and with the proofs (proof.py:44-230); keys are what handles refer to. *)
Inductive pop := PSet (i : nat) (v : V) | PGet (i : nat) | PDel (i : nat) | PCmd (c : cmd).
(** proof.py:72-83: what comes out of it. *)
Inductive pout := PVal (v : V) | PNone | POut (o : out) | PErr (e : exn).
(** proof.py:72-83: hash and place of a key. *)
Definition find_key (e : env) (i : nat) (d : pdict) : M (Z * ref * option nat) :=
  let! r := lift (handle e i) in let! h := py_hash r in let! p := plocate h r d in ret (h, r, p).
(** One of these statements (proof.py:44-230); KeyError if there is no such key.  Every statement takes one number for a handle. *)
Definition pstep (o : pop) (d : pdict) (s : state) (e : env) : pout * pdict * state * env :=
  let at_key i (f : Z -> ref -> option nat -> pout * pdict) :=
    match find_key e i d s with
    | (Ok (h, r, p), s') => let '(u, d') := f h r p in (u, d', s', e ++ [None])
    | (Err x, s') => (PErr x, d, s', e ++ [None])
    end in
  match o with
  | PSet i v => at_key i (fun h r p => (PNone, match p with Some n => pset_at n v d | None => d ++ [(h, r, v)] end))
  | PGet i => at_key i (fun _ _ p => (match p with
                                      | Some n => match nth_error d n with Some (_, _, v) => PVal v | None => PErr KeyError end
                                      | None => PErr KeyError end, d))
  | PDel i => at_key i (fun _ _ p => match p with Some n => (PNone, pdrop_at n d) | None => (PErr KeyError, d) end)
  | PCmd c => let '(u, s', e') := exec ct s e c in (POut u, d, s', e')
  end.
(** proof.py:44-230: a program. *)
Fixpoint prun (l : list pop) (d : pdict) (s : state) (e : env) : list pout :=
  match l with
  | [] => []
  | o :: l' => let '(u, d1, s1, e1) := pstep o d s e in u :: prun l' d1 s1 e1
  end.
End PDict.
Arguments pdict V : clear implicits.
Arguments pop V : clear implicits.
Arguments pout V : clear implicits.
