(** Executable model of the class-level cache used by [Proof.__new__]
    (lib/python-proofmarshal/proofmarshal/proof.py:42-62, cited as proof.py). *)
From Verif Require Import Base Proof_Model.

(** SERIALIZED_ATTRS_BY_NAME as set on the classes themselves (proof.py:42, 47). *)
Definition cache := cid -> option (list (string * ser)).
(** proof.py:42: None for every class at the start. *)
Definition empty_cache : cache := fun _ => None.

(** The attribute lookup [cls.SERIALIZED_ATTRS_BY_NAME] (proof.py:46, 51): the first class in
    the method resolution order ([c_supers]) that has a value of its own; Proof itself has
    None (42). *)
Fixpoint cached (ca : cache) (mro : list cid) : option (list (string * ser)) :=
  match mro with
  | [] => None
  | c :: mro' => match ca c with Some a => Some a | None => cached ca mro' end
  end.

(** proof.py:46-47: the attributes the new instance gets, and the cache afterwards. *)
Definition attrs_for (ct : ctable) (ca : cache) (c : cid) : list (string * ser) * cache :=
  match cached ca (c_supers (ct c)) with
  | Some a => (a, ca)
  | None => (c_attrs (ct c), fun d => if Nat.eqb d c then Some (c_attrs (ct c)) else ca d)
  end.

(** proof.py:44-62 [Proof.__new__(cls, **kwargs)]: the attributes of the new instance or an
    exception, and the cache afterwards. *)
Definition new (ct : ctable) (ca : cache) (c : cid) (kw : list (string * val)) : result (list (string * val)) * cache :=
  let '(attrs, ca') := attrs_for ct ca c in
  (do vs <- construct_loop ct attrs kw; Ok (combine (map fst attrs) vs), ca').

(** The cache after a sequence of instantiations (successful or not).
    Any program that calls the classes of proof.py:44-62. *)
Definition after (ct : ctable) (h : list (cid * list (string * val))) : cache :=
  fold_left (fun ca x => snd (new ct ca (fst x) (snd x))) h empty_cache.
