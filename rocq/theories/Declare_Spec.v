(** Vocabulary for C184: declarations of classes that make sense. *)
From Verif Require Import Base Serialize_Model Proof_Model Proof_Spec Declare_Model.
Local Open Scope string_scope.
Local Open Scope list_scope.

(** A serializer that refers to classes declared before, the first [n] of the table: to a class that has no variants, or to one with
    variants but not to a variant itself; a union of classes without variants, none a subclass of one before it, with different HASHTAGs. *)
Definition refers (T : ctable) (n : nat) (sr : ser) : Prop :=
  match sr with
  | SerProof b => b < n /\ forall u, c_kind (T b) = Variant u -> ~ In b u
  | SerUnion cs => (forall m, In m cs -> m < n /\ c_kind (T m) = Plain) /\
      forall i j m m', j < i -> nth_error cs i = Some m -> nth_error cs j = Some m' ->
        ~ subclass T m m' /\ exists t t', c_hash (T m) = HTag (Some t) /\ c_hash (T m') = HTag (Some t') /\ t <> t'
  | _ => True
  end.
(** The HASHTAG has 16 bytes, and the tags derived from it for the three kinds of nodes are different (by C14 they are, unless a
    collision of SHA256 cut to 16 bytes can be given). *)
Definition marked (tag : option bytes) (subs : list string) : Prop :=
  exists t, tag = Some t /\ List.length t = 16 /\ NoDup (map (fun s => tag_derive (uuid s) t) subs).

Definition sensible (w : world) (d : decl) : Prop :=
  let T := table_of w in let n := List.length w in
  match d with
  | DClass p attrs tag =>
    (forall b, p = Some b -> b < n /\ c_kind (T b) = Plain /\ c_hash (T b) <> HTx) /\
    (forall a, attrs = Some a -> NoDup (map fst a) /\ Forall (fun x => refers T n (snd x)) a) /\
    (forall t, tag = Some t -> List.length t = 16)
  | DTx _ => True
  | DMmr b tag value => b = MMR /\ refers T n value /\
    marked tag ["390de307-8787-47b7-b25d-250aba02b1e5"; "4ea09c8e-87f5-4978-a829-78d42ab8638a"; "a7ca25ce-8fee-4063-b022-96b2dbcb392e"]
  | DMbt b tag key value => b = MBT /\ refers T n key /\ refers T n value /\
    marked tag ["ca380e10-c7d5-44df-aef0-55bce2125329"; "f5cc855e-9d21-4f8d-ab42-7883c765c323"; "66d74741-0ffd-4178-9a79-641a45e23dda"]
  | DGumap b tag fseal fwit seal wit key value => b = GUMAP /\ refers T n (SerUnion [fseal; seal]) /\ refers T n (SerUnion [fwit; wit]) /\
    refers T n key /\ refers T n value /\
    marked tag ["dae47bef-d9a3-4971-a6a4-1c67c5f02c11"; "0c60f344-9109-4930-aec1-432c5750fcba"; "6893cac7-e834-49cd-8e95-77707b0499b5"]
  end.

(** The classes after a program of such declarations. *)
Inductive declared_by : list decl -> world -> Prop :=
| db_library : declared_by [] library
| db_more : forall ds w d w', declared_by ds w -> sensible w d -> declare w d = Ok w' -> declared_by (ds ++ [d]) w'.
