(** What a dictionary with transactions, inputs, outputs and outpoints as keys should do. *)
From Verif Require Import Base Tx_Model Money_Model TxObj_Model TxObj_Spec Dict_Model.

(** What a key stands for: which kind of object it is, and the bytes it serializes to. *)
Definition kind (o : obj) : N := match o with OPoint _ _ => 1 | OInput _ _ _ => 2 | OOutput _ _ => 3 | OTrans _ _ _ _ => 4 | OSeq _ => 0 end.
Definition content (s : store) (k : ref) : result (N * bytes) :=
  match nth_error s k with Some c => do b <- serialize s k; Ok (kind (c_obj c), b) | None => Err NameError end.

(** A map from contents to values. *)
Definition cmap (V : Type) := N * bytes -> option V.
Definition no_entries {V} : cmap V := fun _ => None.
Definition ceqb (a b : N * bytes) : bool := (fst a =? fst b)%N && bytes_eqb (snd a) (snd b).
Definition assign {V} (m : cmap V) (c : N * bytes) (v : option V) : cmap V := fun c' => if ceqb c c' then v else m c'.

(** The results of a program if the dictionary is a map of contents: the value is the one last given to
    an object with the contents that the key has now.  The objects are those of the program; using one as
    key does with them what asking for its Python hash does. *)
Fixpoint expected {V} (pyhash : bytes -> Z) (l : list (dop V)) (m : cmap V) (s : store) : list (result (dout V)) :=
  match l with
  | [] => []
  | DOp o :: l' => (do x <- fst (step pyhash o s); Ok (DOut x)) :: expected pyhash l' m (snd (step pyhash o s))
  | DSet k v :: l' =>
    (do c <- content s k; Ok DNone)
    :: expected pyhash l' (match content s k with Ok c => assign m c (Some v) | Err _ => m end) (snd (step pyhash (AskPyHash k) s))
  | DGet k :: l' =>
    (do c <- content s k; match m c with Some v => Ok (DVal v) | None => Err KeyError end)
    :: expected pyhash l' m (snd (step pyhash (AskPyHash k) s))
  | DDel k :: l' =>
    (do c <- content s k; match m c with Some v => Ok DNone | None => Err KeyError end)
    :: expected pyhash l' (match content s k with Ok c => assign m c None | Err _ => m end) (snd (step pyhash (AskPyHash k) s))
  end.

(** Keys that are stored are immutable throughout when they are; keys that are looked up or deleted may
    also be of a mutable class. *)
Fixpoint good_keys {V} (pyhash : bytes -> Z) (l : list (dop V)) (s : store) : Prop :=
  match l with
  | [] => True
  | DOp o :: l' => good_keys pyhash l' (snd (step pyhash o s))
  | DSet k v :: l' => throughout Imm s k /\ good_keys pyhash l' (snd (step pyhash (AskPyHash k) s))
  | DGet k :: l' | DDel k :: l' => (throughout Imm s k \/ has_class Mut s k) /\ good_keys pyhash l' (snd (step pyhash (AskPyHash k) s))
  end.

(** The claim C164 in full. *)
Definition good_dictionary : Prop := forall pyhash (prog : list (dop Z)) s, reached pyhash s ->
  fst (drun pyhash prog [] s) = expected pyhash prog no_entries s.
