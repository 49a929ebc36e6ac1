(** Common vocabulary: bytes, exceptions as values, little helpers.

    Nothing in this file models a particular function of /repo; it fixes how
    Python values are represented:
      - Python [bytes]            -> [bytes := list byte]
      - Python [int]              -> [Z] (or [N] where the code only ever has naturals)
      - a raised exception        -> [Err e]
      - a generator / iterable    -> [list] *)
From Coq Require Export String Ascii.
From Coq.Strings Require Export Byte.
From Coq Require Export List NArith ZArith Lia Bool.
From Coq Require Import ZifyBool ZifyNat ZifyN.
Export ListNotations.
#[global] Open Scope list_scope.

(** Objects of class bytes, as in lib/python-proofmarshal/proofmarshal/serialize.py:170-171. *)
Definition bytes := list byte.

(** Exception classes.  Builtins, then those of
    lib/python-proofmarshal/proofmarshal/serialize.py:62-73,
    lib/python-proofmarshal/proofmarshal/proof.py:25-29 and
    lib/python-bitcoinlib/bitcoin/core/serialize.py:48-62,
    lib/python-bitcoinlib/bitcoin/core/script.py:493-501; SystemExit is what argparse's
    parser.error and parser.exit raise.  Then
    lib/python-bitcoinlib/bitcoin/core/__init__.py:581-582, 630-634 and 673-674,
    lib/python-bitcoinlib/bitcoin/base58.py:31-39 and 95-97,
    lib/python-bitcoinlib/bitcoin/wallet.py:31-32 and 225-226,
    lib/python-bitcoinlib/bitcoin/core/scripteval.py:47-97, 699-700 and 743-744.
    [OutOfFuel] is not a Python exception: it marks a model recursion whose
    fuel ran out, and theorems exclude it explicitly. *)
Inductive exn :=
| AssertionError | IndexError | KeyError | TypeError | ValueError | NameError
| AttributeError | NotImplementedError | OverflowError | StopIteration | StructError
| RecursionError
| DeserializationError | TruncationError | SerializerTypeError | SerializerValueError
| PrunedError
| SerializationError | SerializationTruncationError | DeserializationExtraDataError
| CScriptInvalidError | CScriptTruncatedPushDataError
| SystemExit
| ZeroDivisionError
| CheckTransactionError | CheckProofOfWorkError | CheckBlockHeaderError | CheckBlockError
| InvalidBase58Error | Base58ChecksumError | CBitcoinAddressError | CBitcoinSecretError
| EvalScriptError | MaxOpCountError | MissingOpArgumentsError | ArgumentsInvalidError | VerifyOpFailedError
| VerifyScriptError | VerifySignatureError
| UnboundLocalError | UnicodeDecodeError | OSError
| OutOfFuel.

(** What a call of any function of /repo gives: a value, or an exception it raises; e.g. lib/python-proofmarshal/proofmarshal/serialize.py:183-188. *)
Inductive result (A : Type) :=
| Ok (a : A)
| Err (e : exn).
Arguments Ok {A} a.
Arguments Err {A} e.

(** One statement after another, stopping at an exception; e.g. lib/python-proofmarshal/proofmarshal/serialize.py:183-188. *)
Definition bind {A B} (r : result A) (f : A -> result B) : result B :=
  match r with Ok a => f a | Err e => Err e end.

Declare Scope result_scope.
Notation "'do' x <- r ; k" := (bind r (fun x => k))
  (at level 200, x pattern, r at level 100, k at level 200, right associativity) : result_scope.
#[global] Open Scope result_scope.

(** [assert c]: Python's assert statement.  As in proofchains/core/uniquebits/singleuseseal.py:62. *)
Definition assert (c : bool) : result unit := if c then Ok tt else Err AssertionError.

(** Whether a call returned (lib/python-proofmarshal/proofmarshal/serialize.py:183-188); only for stating properties. *)
Definition is_ok {A} (r : result A) : bool := match r with Ok _ => true | Err _ => false end.

(** Bytes and integers.  A byte as an int (lib/python-proofmarshal/proofmarshal/serialize.py:192). *)
Definition bN (b : byte) : N := Byte.to_N b.
(** The same as an integer (lib/python-proofmarshal/proofmarshal/serialize.py:192). *)
Definition bZ (b : byte) : Z := Z.of_N (bN b).

(** Byte with value [n mod 256] (total); where Python would raise for an
    integer outside 0..255 use [pybyte]. *)
Definition Nb (n : N) : byte :=
  match Byte.of_N (n mod 256) with Some b => b | None => x00 end.

(** [bytes([i])], as in lib/python-proofmarshal/proofmarshal/serialize.py:165: ValueError unless 0 <= i < 256. *)
Definition pybyte (n : N) : result byte :=
  match Byte.of_N n with Some b => Ok b | None => Err ValueError end.

(** [==] of two bytes, for the next definition (proofchains/core/uniquebits/singleuseseal.py:62). *)
Definition byte_eqb (a b : byte) : bool := Byte.eqb a b.

(** [==] of two bytes objects, as in proofchains/core/uniquebits/singleuseseal.py:62. *)
Fixpoint bytes_eqb (a b : bytes) : bool :=
  match a, b with
  | [], [] => true
  | x :: a', y :: b' => Byte.eqb x y && bytes_eqb a' b'
  | _, _ => false
  end.

(** [len(b)], as in lib/python-proofmarshal/proofmarshal/serialize.py:185, 321. *)
Definition blen (b : bytes) : N := N.of_nat (List.length b).

(** Hex literals (for constants and test vectors).
    Such as the UUIDs in proofchains/core/uniquebits/singleuseseal.py:48, 55. *)
Definition hexval (c : ascii) : N :=
  let n := N_of_ascii c in
  if (n <? 58)%N then (n - 48)%N else if (n <? 91)%N then (n - 55)%N else (n - 87)%N.

(** A bytes literal in hex, for constants such as lib/python-proofmarshal/proofmarshal/serialize.py:455. *)
Fixpoint hex (s : string) : bytes :=
  match s with
  | String a (String b s') => Nb (hexval a * 16 + hexval b) :: hex s'
  | _ => []
  end.

(** One digit, for the next definition (lib/python-proofmarshal/proofmarshal/serialize.py:460). *)
Definition hexdigit (n : N) : ascii :=
  if (n <? 10)%N then ascii_of_N (n + 48) else ascii_of_N (n + 87).

(** binascii.hexlify, as in lib/python-proofmarshal/proofmarshal/serialize.py:460 and lib/python-bitcoinlib/bitcoin/core/__init__.py:38-64. *)
Fixpoint to_hex (b : bytes) : string :=
  match b with
  | [] => EmptyString
  | x :: b' => String (hexdigit (bN x / 16)) (String (hexdigit (bN x mod 16)) (to_hex b'))
  end.

(** Text literal as bytes.  Such as bverack in lib/python-bitcoinlib/bitcoin/messages.py:166. *)
Fixpoint str (s : string) : bytes :=
  match s with
  | EmptyString => []
  | String a s' => Nb (N_of_ascii a) :: str s'
  end.

(** A UUID literal with dashes, as the 16 bytes of uuid.UUID(tag).bytes
    (lib/python-proofmarshal/proofmarshal/serialize.py:447-448). *)
Fixpoint strip_dashes (s : string) : string :=
  match s with
  | EmptyString => EmptyString
  | String a s' => if Ascii.eqb a "-"%char then strip_dashes s' else String a (strip_dashes s')
  end.
(** uuid.UUID(tag).bytes (lib/python-proofmarshal/proofmarshal/serialize.py:447-448). *)
Definition uuid (s : string) : bytes := hex (strip_dashes s).

(** ** Basic lemmas *)

Lemma byte_eqb_eq a b : Byte.eqb a b = true <-> a = b.
Proof. split; [apply Byte.byte_dec_bl | apply Byte.byte_dec_lb]. Qed.

Lemma bytes_eqb_eq a b : bytes_eqb a b = true <-> a = b.
Proof.
  revert b; induction a as [|x a IH]; intros [|y b]; cbn; try (split; congruence).
  rewrite andb_true_iff, byte_eqb_eq, IH. split; [intros [-> ->]; reflexivity | intros H; inversion H; auto].
Qed.

Lemma bytes_eqb_refl a : bytes_eqb a a = true.
Proof. apply bytes_eqb_eq; reflexivity. Qed.

Lemma bytes_eqb_neq a b : bytes_eqb a b = false <-> a <> b.
Proof. rewrite <- bytes_eqb_eq. destruct (bytes_eqb a b); split; congruence. Qed.

(** Equality of bytes is decidable; for proofs about comparisons such as proofchains/core/uniquebits/singleuseseal.py:62. *)
Definition bytes_eq_dec (a b : bytes) : {a = b} + {a <> b} := list_eq_dec Byte.byte_eq_dec a b.

Lemma bN_lt b : (bN b < 256)%N.
Proof. unfold bN. pose proof (Byte.to_N_bounded b). lia. Qed.

Lemma bN_inj a b : bN a = bN b -> a = b.
Proof.
  unfold bN; intros H. pose proof (Byte.of_to_N a) as Ha. pose proof (Byte.of_to_N b) as Hb.
  rewrite H in Ha. congruence.
Qed.

Lemma bN_Nb n : bN (Nb n) = (n mod 256)%N.
Proof.
  unfold bN, Nb. destruct (Byte.of_N (n mod 256)) eqn:E.
  - apply Byte.to_of_N in E. exact E.
  - exfalso. apply Byte.of_N_None_iff in E.
    pose proof (N.mod_lt n 256 ltac:(discriminate)). lia.
Qed.

Lemma Nb_bN b : Nb (bN b) = b.
Proof. apply bN_inj. rewrite bN_Nb. apply N.mod_small, bN_lt. Qed.

Lemma bN_Nb_small n : (n < 256)%N -> bN (Nb n) = n.
Proof. intros H. rewrite bN_Nb. apply N.mod_small; exact H. Qed.

Lemma pybyte_ok n : (n < 256)%N -> pybyte n = Ok (Nb n).
Proof.
  intros H. unfold pybyte, Nb. rewrite N.mod_small by exact H.
  destruct (Byte.of_N n) eqn:E; [reflexivity|]. apply Byte.of_N_None_iff in E. lia.
Qed.

(** All bytes, for exhaustive sweeps.
    For proofs about single bytes (lib/python-proofmarshal/proofmarshal/serialize.py:192-200). *)
Definition all_bytes : list byte := map (fun n => Nb (N.of_nat n)) (seq 0 256).

Lemma all_bytes_complete b : In b all_bytes.
Proof.
  unfold all_bytes. apply in_map_iff. exists (N.to_nat (bN b)). split.
  - rewrite N2Nat.id. apply Nb_bN.
  - apply in_seq. pose proof (bN_lt b). lia.
Qed.

Lemma forall_bytes (P : byte -> bool) :
  forallb P all_bytes = true -> forall b, P b = true.
Proof. intros H b. rewrite forallb_forall in H. apply H, all_bytes_complete. Qed.

Lemma bind_ok {A B} (r : result A) (f : A -> result B) b :
  bind r f = Ok b -> exists a, r = Ok a /\ f a = Ok b.
Proof. destruct r; cbn; [eauto | discriminate]. Qed.

Lemma blen_app a b : blen (a ++ b) = (blen a + blen b)%N.
Proof. unfold blen. rewrite app_length. lia. Qed.

Lemma blen_nil : blen [] = 0%N. Proof. reflexivity. Qed.

Lemma blen_cons x b : blen (x :: b) = N.succ (blen b).
Proof. unfold blen. cbn [List.length]. lia. Qed.

Lemma app_inj_len {A} (a b c d : list A) :
  List.length a = List.length b -> a ++ c = b ++ d -> a = b /\ c = d.
Proof.
  revert b; induction a as [|x a IH]; intros [|y b] Hl He; cbn in *; try discriminate; auto.
  inversion He; subst. destruct (IH b) as [-> ->]; auto.
Qed.

Lemma skipn_skipn' {A} m n (l : list A) : skipn m (skipn n l) = skipn (n + m) l.
Proof.
  revert l; induction n as [|n IH]; intros l; [reflexivity|].
  destruct l as [|x l]; [rewrite !skipn_nil; reflexivity|]. cbn. apply IH.
Qed.
