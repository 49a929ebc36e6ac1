(** What a dictionary with proofs as keys should do. *)
From Verif Require Import Base Serialize_Model Proof_Model Proof_Spec Heap_Model Heap_Spec PDict_Model.

(** A map from hashes of proofs to values. *)
Definition hmap (V : Type) := bytes -> option V.
Definition nothing {V} : hmap V := fun _ => None.
Definition assigned {V} (m : hmap V) (h : bytes) (v : option V) : hmap V := fun h' => if bytes_eqb h h' then v else m h'.

(** The hash of the value of a handle. *)
Definition key_of (ct : ctable) (e : list (option val)) (i : nat) : result bytes := do v <- vhandle e i; phash ct v.

(** The outcomes of a program if proofs are plain values (as in Heap_Spec: nothing is shared, nothing changes,
    pruning is the identity) and the dictionary is a map of their hashes. *)
Fixpoint pexpected {V} (ct : ctable) (l : list (pop V)) (m : hmap V) (e : list (option val)) : list (pout V) :=
  match l with
  | [] => []
  | PCmd c :: l' => POut (fst (vexec ct e c)) :: pexpected ct l' m (snd (vexec ct e c))
  | PSet i v :: l' =>
    match key_of ct e i with Ok _ => PNone | Err x => PErr x end
    :: pexpected ct l' (match key_of ct e i with Ok h => assigned m h (Some v) | Err _ => m end) (e ++ [None])
  | PGet i :: l' =>
    match key_of ct e i with Ok h => match m h with Some v => PVal v | None => PErr KeyError end | Err x => PErr x end
    :: pexpected ct l' m (e ++ [None])
  | PDel i :: l' =>
    match key_of ct e i with Ok h => match m h with Some _ => PNone | None => PErr KeyError end | Err x => PErr x end
    :: pexpected ct l' (match key_of ct e i with Ok h => assigned m h None | Err _ => m end) (e ++ [None])
  end.

(** The same outcomes; what is seen of the commands that depend on what is pruned does not count. *)
Fixpoint same_pouts {V} (l : list (pop V)) (us ws : list (pout V)) : Prop :=
  match l, us, ws with
  | [], [], [] => True
  | PCmd c :: l', POut u :: us', POut w :: ws' => (pure c -> same_out c u w) /\ same_pouts l' us' ws'
  | _ :: l', u :: us', w :: ws' => u = w /\ same_pouts l' us' ws'
  | _, _, _ => False
  end.
Definition pinstantiates {V} (ct : ctable) (made : cid -> Prop) (o : pop V) : Prop := match o with PCmd c => instantiates ct made c | _ => True end.
