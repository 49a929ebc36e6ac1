(** Vocabulary for C181. *)
From Verif Require Import Base MsgNew_Model.
Local Open Scope Z_scope.

(** The nonce of a ping or pong that fits into its 8 bytes. *)
Definition whole (c : msg_class) : Prop := match c with NewPing n | NewPong n => 0 <= n < 2 ^ 64 | _ => True end.
