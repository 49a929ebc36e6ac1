(** Executable model of dictionaries and sets with transactions and their parts as keys: what
    [__hash__] and [__eq__] of lib/python-bitcoinlib/bitcoin/core/serialize.py:127-137, 159-165
    (bserialize.py) are for. *)
From Verif Require Import Base Tx_Model Money_Model TxObj_Model.

Section Dict.
Context (pyhash : bytes -> Z) {V : Type}.

(** A dictionary (of the Python interpreter) with keys that have bserialize.py:127-137: the hash a key had when it was put in, the key
    and the value.  (Entries are looked through in the order they were made; the interpreter's order
    depends on the hashes.  A set is a dictionary without values.) *)
Definition dict := list (Z * ref * V).

(** The test of a key that has the right hash: identity, then bserialize.py:127-131. *)
Definition same (k' k : ref) : M bool := if (k' =? k)%nat then ret true else equal k' k.
(** The place of a key in the dictionary, bserialize.py:127-137. *)
Fixpoint locate (h : Z) (k : ref) (d : dict) : M (option nat) :=
  match d with
  | [] => ret None
  | (h', k', _) :: d' =>
    if (h' =? h)%Z then
      act b <- same k' k;
      if b then ret (Some O) else act i <- locate h k d'; ret (option_map S i)
    else act i <- locate h k d'; ret (option_map S i)
  end.
(** Hash and place, bserialize.py:136-137, 159-165. *)
Definition hash_and_locate (k : ref) (d : dict) : M (Z * option nat) :=
  act h <- hash_of pyhash k; act i <- locate h k d; ret (h, i).

(** [d[k] = v] with keys of bserialize.py:127-137; a key that is there stays. *)
Fixpoint set_at (i : nat) (v : V) (d : dict) : dict :=
  match d, i with
  | [], _ => []
  | (h, k, _) :: d', O => (h, k, v) :: d'
  | e :: d', S i' => e :: set_at i' v d'
  end.
(** [del d[k]] with keys of bserialize.py:127-137. *)
Fixpoint drop_at {A} (i : nat) (d : list A) : list A :=
  match d, i with
  | [], _ => []
  | _ :: d', O => d'
  | e :: d', S i' => e :: drop_at i' d'
  end.

(** What is done with one dictionary, and with the objects (bserialize.py:84-165). *)
Inductive dop := DSet (k : ref) (v : V) | DGet (k : ref) | DDel (k : ref) | DOp (o : op).
(** bserialize.py:84-165: what comes out of it. *)
Inductive dout := DVal (v : V) | DNone | DOut (o : out).
(** bserialize.py:84-165: one of these statements; KeyError if there is no such key. *)
Definition dstep (o : dop) (d : dict) (s : store) : result dout * (dict * store) :=
  let at_key k (f : Z -> option nat -> result dout * dict) :=
    if (k <? List.length s)%nat then
      match hash_and_locate k d s with
      | (Ok (h, i), s') => let '(r, d') := f h i in (r, (d', s'))
      | (Err e, s') => (Err e, (d, s'))
      end
    else (Err NameError, (d, s)) in
  match o with
  | DSet k v => at_key k (fun h i => (Ok DNone, match i with Some i => set_at i v d | None => d ++ [(h, k, v)] end))
  | DGet k => at_key k (fun _ i => (match i with
                                    | Some i => match nth_error d i with Some (_, _, v) => Ok (DVal v) | None => Err KeyError end
                                    | None => Err KeyError end, d))
  | DDel k => at_key k (fun _ i => match i with Some i => (Ok DNone, drop_at i d) | None => (Err KeyError, d) end)
  | DOp o => let '(r, s') := step pyhash o s in (do x <- r; Ok (DOut x), (d, s'))
  end.
(** bserialize.py:84-165: a program. *)
Fixpoint drun (l : list dop) (d : dict) (s : store) : list (result dout) * (dict * store) :=
  match l with
  | [] => ([], (d, s))
  | o :: l' => let '(v, (d1, s1)) := dstep o d s in let '(vs, x) := drun l' d1 s1 in (v :: vs, x)
  end.
End Dict.
Arguments dict V : clear implicits.
Arguments dop V : clear implicits.
Arguments dout V : clear implicits.
