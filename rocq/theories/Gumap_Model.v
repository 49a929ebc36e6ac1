(** Executable model of proofchains/core/uniquebits/gumap.py (cited as gumap.py). *)
From Verif Require Import Base Bits_Model Serialize_Model Tx_Model Proof_Model Proof_Spec Merbinner_Model Chain_Model.
Local Open Scope string_scope.
Local Open Scope list_scope.
Local Open Scope nat_scope.

(** gumap.py:18-32 and 35-157: a subclass of GuMap, its three variants, its KEY_SERIALIZER,
    VALUE_SERIALIZER, SEAL_CLASS and WITNESS_CLASS, the function key2prefix and the method
    verify_hash of WITNESS_CLASS.  Simplified: key2prefix either returns Bits or raises (the
    default of gumap.py:28-29 returns bytes, of which only common_prefix is ever asked: an
    AttributeError). *)
Record gumap := Gumap { g_base : cid; g_unused : cid; g_leaf : cid; g_inner : cid; g_key : ser; g_value : ser;
  g_seal : cid; g_wit : cid; g_prefix : val -> result (list bool); g_verify : bytes -> prog (result unit) }.

(** A method called on the object found at [path].  Used for gumap.py:76, 102, 141, 150, 154. *)
Fixpoint under {R} (path : list string) (p : prog R) : prog R :=
  match p with
  | Ret r => Ret r
  | Get q k => Get (path ++ q) (fun o => under path (k o))
  | Hsh q k => Hsh (path ++ q) (fun h => under path (k h))
  end.

(** gumap.py:93-96 and 145-148: CONTENTS_HASHTAG. *)
Definition contents_tag (ct : ctable) (c : cid) (id : string) : result bytes :=
  match c_hash (ct c) with HTag (Some t) => Ok (tag_derive (uuid id) t) | _ => Err TypeError end.
(** gumap.py:96. *)
Definition leaf_contents (ct : ctable) (G : gumap) := contents_tag ct (g_leaf G) "59c17f37-7e26-4aea-8a5b-7c0db66af35b".
(** gumap.py:148. *)
Definition inner_contents (ct : ctable) (G : gumap) := contents_tag ct (g_inner G) "b925044d-320e-4c1f-9ef8-20614d260676".

(** gumap.py:83-91: [get_hash] of a proof or of a member of a union (proof.py:179-180,
    317-319), [serialize] of anything else. *)
Definition part_of (ct : ctable) (sr : ser) (v : val) : result bytes :=
  match sr with SerProof _ | SerUnion _ => phash ct v | _ => ser_leaf sr v end.
(** gumap.py:83-91 for an attribute of the node. *)
Definition part_at {R} (sr : ser) (path : list string) (k : bytes -> prog (result R)) : prog (result R) :=
  match sr with
  | SerProof _ | SerUnion _ => proof_at path (fun _ => hash_at path k)
  | _ => value_at path (fun v => then_do (ser_leaf sr v) k)
  end.

(** gumap.py:41, 74-76, 139-141: where the attribute or property [seal] of a node of class [c] is. *)
Definition seal_path (G : gumap) (c : cid) : option (list string) :=
  if c =? g_unused G then Some ["seal"]
  else if (c =? g_leaf G) || (c =? g_inner G) then Some ["witness"; "seal"] else None.

(** gumap.py:150: [node.seal.hash] of the node at [path]. *)
Definition seal_hash_at {R} (G : gumap) (path : list string) (k : bytes -> prog (result R)) : prog (result R) :=
  proof_at path (fun c => match seal_path G c with
    | Some s => proof_at (path ++ s) (fun _ => hash_at (path ++ s) k)
    | None => Ret (Err AttributeError)
    end).

(** [witness.verify_hash(h)] of the witness of class [c].  gumap.py:102, 154, with seal.py:61-62 and 95-103. *)
Definition witness_verify_hash (P : chain) (G : gumap) (c : cid) (h : bytes) : prog (result unit) :=
  if c =? p_fwit P then fake_verify_hash h else if c =? g_wit G then g_verify G h else Ret (Err AttributeError).

(** gumap.py:101-102 [LeafPrefix.verify] with 78-99 [__calc_sealed_hash]. *)
Definition leaf_verify (ct : ctable) (P : chain) (G : gumap) : prog (result unit) :=
  proof_at ["witness"] (fun c =>
  part_at (g_key G) ["key"] (fun kb =>
  part_at (g_value G) ["value"] (fun xb =>
  then_do (leaf_contents ct G) (fun t =>
  under ["witness"] (witness_verify_hash P G c (tag_hash t (kb ++ xb))))))).

(** gumap.py:153-154 [InnerPrefix.verify] with 143-151 [__calc_sealed_hash]. *)
Definition inner_verify (ct : ctable) (P : chain) (G : gumap) : prog (result unit) :=
  proof_at ["witness"] (fun c =>
  then_do (inner_contents ct G) (fun t =>
  seal_hash_at G ["left"] (fun hl =>
  seal_hash_at G ["right"] (fun hr =>
  under ["witness"] (witness_verify_hash P G c (tag_hash t (hl ++ hr))))))).

(** [node.verify()]: gumap.py:45-46 for an unused prefix; a node of the base class, which is
    what a fully pruned node is, has no such method. *)
Definition node_verify (ct : ctable) (P : chain) (G : gumap) : prog (result unit) :=
  proof_at [] (fun c =>
    if c =? g_unused G then Ret (Ok tt) else if c =? g_leaf G then leaf_verify ct P G
    else if c =? g_inner G then inner_verify ct P G else Ret (Err AttributeError)).

(** [node.seal].  gumap.py:39 (an attribute), 74-76, 139-141. *)
Definition node_seal (ct : ctable) (G : gumap) (v : val) : result val :=
  match class_of v with
  | None => Err AttributeError
  | Some c => if c =? g_unused G then peek ct v "seal"
      else if (c =? g_leaf G) || (c =? g_inner G) then do w <- peek ct v "witness"; peek ct w "seal" else Err AttributeError
  end.

(** [node.prefix]: gumap.py:40, 70-72, 112. *)
Definition node_prefix (ct : ctable) (G : gumap) (v : val) : result (list bool) :=
  match class_of v with
  | None => Err AttributeError
  | Some c => if (c =? g_unused G) || (c =? g_inner G) then do b <- peek ct v "prefix"; match b with VBits l => Ok l | _ => Err AttributeError end
      else if c =? g_leaf G then do k <- peek ct v "key"; g_prefix G k else Err AttributeError
  end.

(** gumap.py:78-99 and 143-151 [__calc_sealed_hash] as called by the constructors. *)
Definition leaf_hash (ct : ctable) (G : gumap) (key value : val) : result bytes :=
  do kb <- part_of ct (g_key G) key; do xb <- part_of ct (g_value G) value;
  do t <- leaf_contents ct G; Ok (tag_hash t (kb ++ xb)).
(** gumap.py:143-151, as called in 123 and 134. *)
Definition inner_hash (ct : ctable) (G : gumap) (left right : val) : result bytes :=
  do t <- inner_contents ct G;
  do sl <- node_seal ct G left; do hl <- phash ct sl;
  do sr <- node_seal ct G right; do hr <- phash ct sr; Ok (tag_hash t (hl ++ hr)).

(** gumap.py:62-67 [LeafPrefix.from_unused_prefix]. *)
Definition leaf_from_unused (ct : ctable) (G : gumap) (unused key value : val) (make : val -> bytes -> result val) : result val :=
  do s <- node_seal ct G unused; do h <- leaf_hash ct G key value; do w <- make s h;
  construct ct (g_leaf G) [("witness", w); ("key", key); ("value", value)].

(** gumap.py:119-126 [InnerPrefix.from_unused_prefix]. *)
Definition inner_from_unused (ct : ctable) (G : gumap) (unused left right : val) (make : val -> bytes -> result val) : result val :=
  do s <- node_seal ct G unused; do h <- inner_hash ct G left right; do w <- make s h;
  do p <- node_prefix ct G unused;
  construct ct (g_inner G) [("prefix", VBits p); ("witness", w); ("left", left); ("right", right)].

(** gumap.py:127-137 [InnerPrefix.from_children].  [Bits.common_prefix] (bits.py:247-290) is
    the longest common prefix of the bits (C05). *)
Definition from_children (ct : ctable) (P : chain) (G : gumap) (left right : val) : result val :=
  do pl <- node_prefix ct G left; do pr <- node_prefix ct G right;
  do h <- inner_hash ct G left right; do w <- fake_from_hash ct P h;
  construct ct (g_inner G) [("prefix", VBits (common_prefix pl pr)); ("witness", w); ("left", left); ("right", right)].
