(** Vocabulary for C186: how the hash of a globally unique map, and what its witnesses commit to, are computed by hand. *)
From Verif Require Import Base Sha256 Serialize_Model Proof_Model Gumap_Model Gumap_Spec TreeRecipe_Spec.

(** The marks of the three kinds of node, and of the contents of the two closed kinds. *)
Definition unused_mark : bytes := [xda; xe4; x7b; xef; xd9; xa3; x49; x71; xa6; xa4; x1c; x67; xc5; xf0; x2c; x11].
Definition closed_leaf_mark : bytes := [x0c; x60; xf3; x44; x91; x09; x49; x30; xae; xc1; x43; x2c; x57; x50; xfc; xba].
Definition closed_inner_mark : bytes := [x68; x93; xca; xc7; xe8; x34; x49; xcd; x8e; x95; x77; x70; x7b; x04; x99; xb5].
Definition leaf_contents_mark : bytes := [x59; xc1; x7f; x37; x7e; x26; x4a; xea; x8a; x5b; x7c; x0d; xb6; x6a; xf3; x5b].
Definition inner_contents_mark : bytes := [xb9; x25; x04; x4d; x32; x0e; x4c; x1f; x9e; xf8; x20; x61; x4d; x26; x06; x76].

(** [sub s h]: the seal or witness [s] has the hash [h]; [kenc], [venc]: what a key and a value contribute; [t]: the HASHTAG of the map class. *)
Inductive gumap_hash (sub kenc venc : val -> bytes -> Prop) (G : gumap) (t : bytes) : val -> bytes -> Prop :=
| gh_unused : forall p s bp hs, packed p bp -> sub s hs -> gumap_hash sub kenc venc G t (Unused G p s) (sha256 (marked_with unused_mark t ++ sha256 (bp ++ hs)))
| gh_leaf : forall w k x hw kb xb, sub w hw -> kenc k kb -> venc x xb ->
    gumap_hash sub kenc venc G t (Leaf G w k x) (sha256 (marked_with closed_leaf_mark t ++ sha256 (hw ++ kb ++ xb)))
| gh_inner : forall p w l r bp hw hl hr, packed p bp -> sub w hw -> gumap_hash sub kenc venc G t l hl -> gumap_hash sub kenc venc G t r hr ->
    gumap_hash sub kenc venc G t (Inner G p w l r) (sha256 (marked_with closed_inner_mark t ++ sha256 (bp ++ hw ++ hl ++ hr))).

(** The digest that the witness of a closed node has to commit to. *)
Inductive contents_digest (sub kenc venc : val -> bytes -> Prop) (ct : ctable) (G : gumap) (t : bytes) : val -> val -> bytes -> Prop :=
| cd_leaf : forall w k x kb xb, kenc k kb -> venc x xb ->
    contents_digest sub kenc venc ct G t (Leaf G w k x) w (sha256 (marked_with leaf_contents_mark (marked_with closed_leaf_mark t) ++ kb ++ xb))
| cd_inner : forall p w l r sl sr hl hr, has_seal ct G l sl -> has_seal ct G r sr -> sub sl hl -> sub sr hr ->
    contents_digest sub kenc venc ct G t (Inner G p w l r) w (sha256 (marked_with inner_contents_mark (marked_with closed_inner_mark t) ++ hl ++ hr)).
