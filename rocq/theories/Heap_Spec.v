(** What users of proof objects rely on, independently of how Heap_Model works. *)
From Verif Require Import Base Serialize_Model Proof_Model Proof_Spec Heap_Model.

(** The classes of a program and those of them it makes instances of ([made]): attribute names are
    distinct, a class is a subclass of itself, TxProof has the attribute tx; the superclasses of a class that are
    instantiated have the same attributes; the classes of sub-proofs are instantiated. *)
Record program_table (ct : ctable) (made : cid -> Prop) : Prop := {
  pt_names : forall c, NoDup (map fst (c_attrs (ct c)));
  pt_self : forall c, subclass ct c c;
  pt_tx : forall c, c_hash (ct c) = HTx -> c_attrs (ct c) = [("tx"%string, SerTx)];
  pt_apart : forall c d d', made d -> made d' -> subclass ct c d -> subclass ct c d' -> c_attrs (ct d) = c_attrs (ct d');
  pt_subs : forall c name sr k, In (name, sr) (c_attrs (ct c)) -> standing ct sr k -> made k }.

(** The command instantiates such classes only. *)
Definition instantiates (ct : ctable) (made : cid -> Prop) (c : cmd) : Prop :=
  match c with
  | CNew k _ => made k
  | CLoad k _ => forall d, declared ct k d -> made d
  | _ => True
  end.

(** ** Proofs as values *)

(** The commands whose outcome does not depend on what is pruned. *)
Definition pure (c : cmd) : Prop := match c with CIsPruned _ | CIsFully _ | CSer _ => False | _ => True end.

(** What the same commands do with values: nothing is shared, nothing changes, pruning is the identity. *)
Definition vhandle (e : list (option val)) (i : nat) : result val :=
  match nth_error e i with Some (Some v) => Ok v | _ => Err NameError end.
Definition vargument (e : list (option val)) (a : arg) : result val :=
  match a with ALeaf v => if is_proof v then Err NameError else Ok v | AUse i => vhandle e i end.
Fixpoint varguments (e : list (option val)) (kw : list (string * arg)) : result (list (string * val)) :=
  match kw with
  | [] => Ok []
  | (n, a) :: kw' => do x <- vargument e a; do r <- varguments e kw'; Ok ((n, x) :: r)
  end.
Definition vgive (v : val) : out * option val :=
  match class_of v with Some c => (UProof c, Some v) | None => (ULeaf v, None) end.
Definition vcommand (ct : ctable) (e : list (option val)) (c : cmd) : result (out * option val) :=
  match c with
  | CGet i name => do v <- vhandle e i; do f <- peek ct v name; Ok (vgive f)
  | CPrune i => do v <- vhandle e i; Ok (vgive v)
  | CHash i => do v <- vhandle e i; do b <- phash ct v; Ok (UBytes b, None)
  | CDataHash i => do v <- vhandle e i; do b <- data_hash ct v; Ok (UBytes b, None)
  | CEq i j => do v <- vhandle e i; do w <- vhandle e j; do a <- phash ct v; do b <- phash ct w; Ok (UBool (bytes_eqb a b), None)
  | CNew c kw => do vkw <- varguments e kw; do v <- construct ct c vkw; Ok (vgive v)
  | CLoad c buf => do v <- deserialize ct c buf; Ok (vgive v)
  | CIsPruned _ | CIsFully _ | CSer _ => Ok (UBool true, None)
  end.
Definition vexec (ct : ctable) (e : list (option val)) (c : cmd) : out * list (option val) :=
  match vcommand ct e c with Ok (u, h) => (u, e ++ [h]) | Err x => (UErr x, e ++ [None]) end.
Fixpoint vrun (ct : ctable) (e : list (option val)) (p : list cmd) : list out :=
  match p with
  | [] => []
  | c :: p' => let '(u, e) := vexec ct e c in u :: vrun ct e p'
  end.

(** The same outcome; when an attribute cannot be read, the kind of the exception does not count. *)
Definition unreadable (e : exn) : Prop := e = TypeError \/ e = PrunedError \/ e = AttributeError.
Definition same_out (c : cmd) (u w : out) : Prop :=
  u = w \/ match c, u, w with CGet _ _, UErr e, UErr e' => unreadable e /\ unreadable e' | _, _, _ => False end.
(** The same outcome of every command of a program that does not depend on what is pruned. *)
Fixpoint same_outs (p : list cmd) (us ws : list out) : Prop :=
  match p, us, ws with
  | [], [], [] => True
  | c :: p', u :: us', w :: ws' => (pure c -> same_out c u w) /\ same_outs p' us' ws'
  | _, _, _ => False
  end.

(** ** States of a process *)

(** A process that has run some program. *)
Definition reach (ct : ctable) (made : cid -> Prop) (s : state) (e : env) : Prop :=
  exists p us, Forall (instantiates ct made) p /\ run_all ct start [] p = (us, s, e).

(** What the program would see if it issued the command now. *)
Definition outcome (ct : ctable) (s : state) (e : env) (c : cmd) : out := fst (fst (exec ct s e c)).

(** The handles the command uses have been given. *)
Definition known (n : nat) (c : cmd) : Prop :=
  match c with
  | CGet i _ | CPrune i | CHash i | CDataHash i | CIsPruned i | CIsFully i | CSer i => i < n
  | CEq i j => i < n /\ j < n
  | CNew _ kw => forall name i, In (name, AUse i) kw -> i < n
  | CLoad _ _ => True
  end.

(** Commands that look at a proof. *)
Definition looks (c : cmd) : Prop := match c with CGet _ _ | CHash _ | CDataHash _ | CEq _ _ | CIsPruned _ => True | _ => False end.

(** Two users of the same process, each with handles of their own, taking turns. *)
Fixpoint turns (ct : ctable) (s : state) (ea eb : env) (p : list (bool * cmd)) : state * env * env :=
  match p with
  | [] => (s, ea, eb)
  | (true, c) :: p' => let '(_, s, ea) := exec ct s ea c in turns ct s ea eb p'
  | (false, c) :: p' => let '(_, s, eb) := exec ct s eb c in turns ct s ea eb p'
  end.

(** No attribute is declared with a union. *)
Definition no_unions (ct : ctable) : Prop := forall c name cs, ~ In (name, SerUnion cs) (c_attrs (ct c)).

(** The values of the handles of a program run on values. *)
Fixpoint venv (ct : ctable) (e : list (option val)) (p : list cmd) : list (option val) :=
  match p with [] => e | c :: p' => venv ct (snd (vexec ct e c)) p' end.

(** The handles with another proof in place of one of them. *)
Definition instead (e : env) (i : nat) (x : option ref) : env := firstn i e ++ x :: skipn (S i) e.

(** The i-th command of the program gives a proof that was read from bytes, or made from such proofs, or
    an attribute of such a proof; prune() has no part in it. *)
Inductive made_whole (p : list cmd) : nat -> Prop :=
| MW_load i c buf : nth_error p i = Some (CLoad c buf) -> made_whole p i
| MW_new i c kw : nth_error p i = Some (CNew c kw) -> (forall name j, In (name, AUse j) kw -> made_whole p j) -> made_whole p i
| MW_get i j name : nth_error p i = Some (CGet j name) -> made_whole p j -> made_whole p i.
