(** The methods of lib/python-proofmarshal/proofmarshal/mmr.py (cited as mmr.py) on a pruned copy of a MMR: what they
    give, and the copy afterwards, with the attributes that were read for them (Proof_Model.v). *)
From Verif Require Import Base Serialize_Model Proof_Model Mmr_Model.
Local Open Scope Z_scope.

(** A method: its outcome and the object after it.  proof.py:120-149: reading attributes changes a pruned copy. *)
Definition vmeth (A : Type) := val -> result A * val.
(** Python: return (in mmr.py:397-414). *)
Definition vret {A} (a : A) : vmeth A := fun self => (Ok a, self).
(** Python: raise (in mmr.py:294-414). *)
Definition vraise {A} (e : exn) : vmeth A := fun self => (Err e, self).
(** Python: one statement after the other (in mmr.py:397-414). *)
Definition vbind {A B} (m : vmeth A) (f : A -> vmeth B) : vmeth B :=
  fun self => match m self with (Ok a, self) => f a self | (Err e, self) => (Err e, self) end.
Notation "'let*' x := m 'in' f" := (vbind m (fun x => f)) (at level 200, x name, f at level 200).

Section View.
Context (ct : ctable).
(** [self.name] for an attribute: proof.py:120-149. *)
Definition vattr (name : string) : vmeth val :=
  fun self => match get ct self name with Ok (x, self) => (Ok x, self) | Err e => (Err e, self) end.
(** [self.name.m()]: the method [m] of the object the attribute holds.  proof.py:120-149: it changes in its place. *)
Definition vin {A} (name : string) (m : vmeth A) : vmeth A :=
  fun self => match get ct self name with
              | Ok (x, self) => let '(r, x) := m x in (r, put_back ct self name x)
              | Err e => (Err e, self)
              end.

(** [len(self)]: mmr.py:291-292, 333-334, 394-395.  [t] is the MMR that was pruned; it tells the class of [self]. *)
Definition vlen (t : mmr) : vmeth Z :=
  match t with
  | Empty => vret 0
  | Leaf _ => vret 1
  | Inner _ _ _ => let* n := vattr "length" in match n with VPrim (PyInt n) => fun self => (py_len n, self) | _ => vraise TypeError end
  | Pruned _ _ => vraise PrunedError
  end.

(** [self[idx]] with an integer: mmr.py:294-296, 336-342, 397-414.  The MMR that was pruned is
    taken to be complete.  Line 411 reads [self.right] before the length of [self.left]; both have been read before. *)
Fixpoint vgetitem (t : mmr) (idx : Z) : vmeth val :=
  match t with
  | Empty => vraise IndexError
  | Leaf _ => if (idx =? 0) || (idx =? -1) then vattr "value" else vraise IndexError
  | Inner l r _ =>
    let* idx := if idx <? 0 then let* n := vlen t in vret (n + idx) else vret idx in
    let* n := vlen t in
    if negb ((0 <=? idx) && (idx <? n)) then vraise IndexError
    else
      let* nl := vin "left" (vlen l) in
      if (0 <=? idx) && (idx <? nl) then vin "left" (vgetitem l idx)
      else
        let* nl := vin "left" (vlen l) in
        if negb (nl <=? idx) then vraise AssertionError
        else
          let* nl' := vin "left" (vlen l) in
          let* nr := vin "right" (vlen r) in
          if idx <? nl' + nr then let* nl'' := vin "left" (vlen l) in vin "right" (vgetitem r (idx - nl''))
          else vraise AssertionError
  | Pruned _ _ => vraise PrunedError
  end.
End View.
