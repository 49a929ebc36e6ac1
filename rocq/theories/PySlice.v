(** Python's slice semantics: [slice.indices] and list/tuple slicing (CPython
    Objects/sliceobject.c PySlice_AdjustIndices).  Not code of /repo; used by
    lib/python-proofmarshal/proofmarshal/bits.py:154-173 and
    lib/python-proofmarshal/proofmarshal/mmr.py:298-302,344-358,416-444. *)
From Verif Require Import Base.
Local Open Scope Z_scope.

(** The object made by [x[a:b:c]] (lib/python-proofmarshal/proofmarshal/bits.py:154-173 and mmr.py:296-301). *)
Record slice := Slice { sl_start : option Z; sl_stop : option Z; sl_step : option Z }.

(** Clamp one bound of a slice.  (lib/python-proofmarshal/proofmarshal/bits.py:154-173 and mmr.py:296-301) *)
Definition adjust (len lower upper : Z) (dflt : Z) (x : option Z) : Z :=
  match x with
  | None => dflt
  | Some v => if v <? 0 then Z.max (v + len) lower else Z.min v upper
  end.

(** [idx.indices(len)].  (lib/python-proofmarshal/proofmarshal/bits.py:154-173 and mmr.py:296-301) *)
Definition slice_indices (s : slice) (len : Z) : result (Z * Z * Z) :=
  let step := match sl_step s with None => 1 | Some v => v end in
  if step =? 0 then Err ValueError
  else
    let neg := step <? 0 in
    let lower := if neg then -1 else 0 in
    let upper := if neg then len - 1 else len in
    Ok (adjust len lower upper (if neg then upper else lower) (sl_start s),
        adjust len lower upper (if neg then lower else upper) (sl_stop s),
        step).

(** The elements of [range(start, stop, step)], step nonzero.
    (lib/python-proofmarshal/proofmarshal/bits.py:154-173 and mmr.py:296-301) *)
Definition range_count (start stop step : Z) : Z :=
  if 0 <? step then (if start <? stop then (stop - start - 1) / step + 1 else 0)
  else (if stop <? start then (start - stop - 1) / (- step) + 1 else 0).
(** [list(range(start, stop, step))] (lib/python-proofmarshal/proofmarshal/bits.py:154-173 and mmr.py:296-301). *)
Definition py_range (start stop step : Z) : list Z :=
  map (fun k => start + Z.of_nat k * step) (seq 0 (Z.to_nat (range_count start stop step))).

(** [l[start:stop:step]] for a Python list or tuple; an index outside the list
    cannot arise, [nth_error] makes that visible rather than defaulting.
    (lib/python-proofmarshal/proofmarshal/bits.py:154-173 and mmr.py:296-301) *)
Definition znth {A} (l : list A) (i : Z) : option A :=
  if i <? 0 then None else nth_error l (Z.to_nat i).

(** The items at these indices (lib/python-proofmarshal/proofmarshal/bits.py:154-173 and mmr.py:296-301). *)
Fixpoint pick {A} (l : list A) (is : list Z) : option (list A) :=
  match is with
  | [] => Some []
  | i :: is' =>
    match znth l i, pick l is' with
    | Some x, Some xs => Some (x :: xs)
    | _, _ => None
    end
  end.

(** [l[a:b:c]] (lib/python-proofmarshal/proofmarshal/bits.py:154-173 and mmr.py:296-301). *)
Definition py_slice {A} (l : list A) (s : slice) : result (list A) :=
  do (start, stop, step) <- slice_indices s (Z.of_nat (List.length l));
  match pick l (py_range start stop step) with
  | Some r => Ok r
  | None => Err IndexError
  end.

(** [l[i]] for a Python list: negative indices count from the end.
    (lib/python-proofmarshal/proofmarshal/bits.py:154-173 and mmr.py:296-301) *)
Definition py_index {A} (l : list A) (i : Z) : result A :=
  let j := if i <? 0 then i + Z.of_nat (List.length l) else i in
  match znth l j with Some x => Ok x | None => Err IndexError end.
