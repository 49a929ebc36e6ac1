(** Hex conversions of lib/python-bitcoinlib/bitcoin/core/__init__.py (cited as core.py);
    the Python 3 versions.  A [str] is a Coq string; characters outside ASCII, which no hex
    string contains, are not represented. *)
From Verif Require Import Base.

(** One hex digit as accepted by binascii.unhexlify.  Used for core.py:36, 40, 56, 64. *)
Definition hex_digit (c : ascii) : option N :=
  let n := N_of_ascii c in
  if ((48 <=? n) && (n <=? 57))%N then Some (n - 48)%N
  else if ((65 <=? n) && (n <=? 70))%N then Some (n - 55)%N
  else if ((97 <=? n) && (n <=? 102))%N then Some (n - 87)%N
  else None.

(** core.py:38-40 [x(h)]: binascii.Error, a subclass of ValueError, for an odd number of digits
    or a character that is no digit. *)
Fixpoint x_hex (h : string) : result bytes :=
  match h with
  | EmptyString => Ok []
  | String a (String b h') =>
    match hex_digit a, hex_digit b with
    | Some u, Some v => do r <- x_hex h'; Ok (Nb (u * 16 + v) :: r)
    | _, _ => Err ValueError
    end
  | String _ EmptyString => Err ValueError
  end.

(** core.py:46-48 [b2x(b)]. *)
Definition b2x (b : bytes) : string := to_hex b.
(** core.py:58-64 [lx(h)]. *)
Definition lx (h : string) : result bytes := do b <- x_hex h; Ok (rev b).
(** core.py:74-80 [b2lx(b)]. *)
Definition b2lx (b : bytes) : string := to_hex (rev b).
