(** [ctx_deserialize] of proof classes with a count of its calls.
    proof.py = lib/python-proofmarshal/proofmarshal/proof.py. *)
From Verif Require Import Base Serialize_Model Proof_Model.
Local Open Scope list_scope.

(** proof.py:213-230, 280-290 [ctx_deserialize] with the number of calls of it, this one included;
    the rest as in [de_proof]. *)
Fixpoint cde_proof (ct : ctable) (fuel : nat) (c : cid) (s : bytes) : result (val * bytes) * nat :=
  match fuel with
  | O => (Err OutOfFuel, 0)
  | S fuel' =>
    match read_bool s with
    | Err e => (Err e, 1)
    | Ok (true, s) => (do (dh, s) <- fd_read 32 s; Ok (PHash c dh, s), 1)
    | Ok (false, s) =>
      match match c_kind (ct c) with
            | Plain => Ok (c, s)
            | Variant u =>
              do (i, s) <- read_varuint s;
              match (if (i <? N.of_nat (List.length u))%N then nth_error u (N.to_nat i) else None) with
              | Some uc => Ok (uc, s)
              | None => Err NameError
              end
            end with
      | Err e => (Err e, 1)
      | Ok (uc, s) =>
        let '(r, n) := (fix go (attrs : list (string * ser)) (s : bytes) : result (list (string * val) * bytes) * nat :=
          match attrs with
          | [] => (Ok ([], s), 0)
          | (name, sr) :: attrs' =>
            let '(r, n) := match sr with
                           | SerProof c' => cde_proof ct fuel' c' s
                           | SerUnion cs =>
                             match read_varuint s with
                             | Err e => (Err e, 0)
                             | Ok (i, s) =>
                               match (if (i <? N.of_nat (List.length cs))%N then nth_error cs (N.to_nat i) else None) with
                               | Some c' => cde_proof ct fuel' c' s
                               | None => (Err NameError, 0)
                               end
                             end
                           | _ => (de_leaf sr s, 0)
                           end in
            match r with
            | Err e => (Err e, n)
            | Ok (v, s) => let '(r', m) := go attrs' s in (do (l, s) <- r'; Ok ((name, v) :: l, s), n + m)
            end
          end) (c_attrs (ct uc)) s in
        (do (kw, s) <- r; do p <- construct ct uc kw; Ok (p, s), S n)
      end
    end
  end.

(** serialize.py:276-282 [cls.deserialize(buf)] with the count. *)
Definition cdeserialize (ct : ctable) (c : cid) (buf : bytes) : result val * nat :=
  let '(r, n) := cde_proof ct (S (List.length buf)) c buf in (do (p, _) <- r; Ok p, n).
