(** Properties C109-C117: proof objects with references, views and kept hashes (Heap_Model.v). *)
From Verif Require Import Base Sha256 Serialize_Model Serialize_Spec Tx_Model Proof_Model Proof_Spec Cache_Model Proof_Examples
  Heap_Model Heap_Spec Heap_Inv Heap_Run Heap_Main Heap_Replay Heap_Use Heap_Examples.
Open Scope string_scope.
Open Scope list_scope.

(** ** C109: programs cannot tell proof objects from plain values *)
Theorem C109_objects_are_values : forall ct made p us s e, program_table ct made -> Forall (instantiates ct made) p -> run_all ct start [] p = (us, s, e) -> same_outs p us (vrun ct [] p).
Proof. intros ct made p us s e PT I E. exact (proj2 (proj2 (proj2 (run_ok ct made PT p start [] [] us s e (start_sound ct made) (Forall2_nil _) I E)))). Qed.
(** A Bar is made, pruned, looked into through the copy, and compared with the copy. *)
Example C109_instance : program_table shop concrete /\ let p := make_bar ++ [CPrune 2; CGet 3 "left"; CGet 4 "n"; CEq 2 3; CGet 3 "nothing"] in
  Forall (instantiates shop concrete) p /\ fst (fst (run_all shop start [] p)) =
  [UProof FOO; UProof FOO; UProof BAR; UProof BAR; UProof FOO; ULeaf (VPrim (PyInt 1)); UBool true; UErr AttributeError].
Proof. split; [exact shop_program|]. split; [repeat constructor; cbn; discriminate|vm_compute; reflexivity]. Qed.
Print Assumptions C109_objects_are_values.

(** ** C110: what a proof has shown, it shows ever after *)
Theorem C110_looks_again : forall ct made s e c u s1 e1 p us s2 e2 u' s3 e3, program_table ct made -> reach ct made s e -> looks c -> known (List.length e) c ->
  exec ct s e c = (u, s1, e1) -> (match c with CGet _ _ => u <> UErr TypeError | _ => True end) ->
  Forall (instantiates ct made) p -> run_all ct s1 e1 p = (us, s2, e2) -> exec ct s2 e2 c = (u', s3, e3) ->
  u' = u /\ nth_error e3 (List.length e2) = nth_error e1 (List.length e).
Proof. intros ct made s e c u s1 e1 p us s2 e2 u' s3 e3 PT. exact (looks_again ct made PT s e c u s1 e1 p us s2 e2 u' s3 e3). Qed.
(** The copy of a Bar gives the same object for left before and after a lot of use. *)
Example C110_instance : let p := make_bar ++ [CPrune 2] in reach shop concrete (after shop p) (held shop p) /\
  let '(u, s1, e1) := exec shop (after shop p) (held shop p) (CGet 3 "left") in let '(_, s2, e2) := run_all shop s1 e1 [CGet 4 "n"; CHash 3; CSer 3; CPrune 3] in let '(u', s3, e3) := exec shop s2 e2 (CGet 3 "left") in
  u = UProof FOO /\ u' = UProof FOO /\ nth_error e1 4 = Some (Some 4) /\ nth_error e3 9 = Some (Some 4).
Proof. split; [apply reach_after; repeat constructor; cbn; discriminate|vm_compute; auto]. Qed.
Print Assumptions C110_looks_again.

(** ** C111: a pruned copy in place of the original *)
Theorem C111_copy_in_place : forall ct made s e i c s1 k p us s2 e2 us' s3 e3, program_table ct made -> reach ct made s e -> exec ct s e (CPrune i) = (UProof c, s1, e ++ [Some k]) ->
  Forall (instantiates ct made) p -> run_all ct s1 e p = (us, s2, e2) -> run_all ct s1 (instead e i (Some k)) p = (us', s3, e3) -> same_outs p us' us.
Proof. intros ct made s e i c s1 k p us s2 e2 us' s3 e3 PT. exact (copy_same ct made PT s e i c s1 k p us s2 e2 us' s3 e3). Qed.
(** A program reads and builds with a Bar or its copy: the same outcomes, except for the serialized form. *)
Example C111_instance : let s := after shop make_bar in let e := held shop make_bar in reach shop concrete s e /\
  let '(u, s1, e1) := exec shop s e (CPrune 2) in let p := [CGet 2 "right"; CGet 3 "n"; CNew BAR [("left", AUse 3); ("right", AUse 3); ("nonproof_attr", int_arg 9)]; CEq 5 2; CSer 2] in
  let us := fst (fst (run_all shop s1 e p)) in let us' := fst (fst (run_all shop s1 (instead e 2 (Some 3)) p)) in
  u = UProof BAR /\ e1 = e ++ [Some 3] /\ firstn 4 us = [UProof FOO; ULeaf (VPrim (PyInt 2)); UProof BAR; UBool false] /\ firstn 4 us' = firstn 4 us /\ map size us = [0; 0; 0; 0; 6] /\ map size us' = [0; 0; 0; 0; 37].
Proof. split; [apply reach_after; repeat constructor; cbn; discriminate|vm_compute; repeat split]. Qed.
Print Assumptions C111_copy_in_place.

(** ** C112: only reading attributes changes what is pruned *)
Theorem C112_only_reads : forall ct made s e us s' e' p d j, program_table ct made -> reach ct made s e -> Forall (instantiates ct made) p -> Forall (fun c => match c with CGet _ _ => False | _ => True end) p ->
  run_all ct s e p = (us, s', e') -> j < List.length e -> d = CIsPruned j \/ d = CIsFully j \/ d = CSer j -> outcome ct s' e' d = outcome ct s e d.
Proof. intros ct made s e us s' e' p d j PT. exact (only_reads ct made PT s e us s' e' p d j). Qed.
(** Hashing, comparing, serializing and pruning the copy of a Bar leave it fully pruned; one read does not. *)
Example C112_instance : let p := make_bar ++ [CPrune 2] in let s := after shop p in let e := held shop p in reach shop concrete s e /\
  let '(_, s1, e1) := run_all shop s e [CHash 3; CEq 2 3; CSer 3; CPrune 3; CDataHash 2; CNew BAR [("left", AUse 0); ("right", AUse 0); ("nonproof_attr", int_arg 9)]] in
  outcome shop s e (CIsFully 3) = UBool true /\ outcome shop s1 e1 (CIsFully 3) = UBool true /\ let '(_, s2, e2) := exec shop s1 e1 (CGet 3 "right") in outcome shop s2 e2 (CIsFully 3) = UBool false.
Proof. split; [apply reach_after; repeat constructor; cbn; discriminate|vm_compute; auto]. Qed.
Print Assumptions C112_only_reads.

(** ** C113: a fresh pruned copy belongs to its owner alone *)
Theorem C113_isolated : forall ct made s e i c s1 k sched s2 ea eb p us s3 eb' d, program_table ct made ->
  reach ct made s e -> exec ct s e (CPrune i) = (UProof c, s1, e ++ [Some k]) ->
  Forall (instantiates ct made) (map snd sched) -> turns ct s1 [Some k] e sched = (s2, ea, eb) ->
  Forall (instantiates ct made) p -> run_all ct s2 eb p = (us, s3, eb') -> instantiates ct made d ->
  (pure d -> same_out d (outcome ct s3 ea d) (outcome ct s2 ea d)) /\ (~ pure d -> outcome ct s3 ea d = outcome ct s2 ea d).
Proof. intros ct made s e i c s1 k sched s2 ea eb p us s3 eb' d PT. exact (isolated ct made PT s e i c s1 k sched s2 ea eb p us s3 eb' d). Qed.
(** Two users of the same Bar: one has a copy of their own and has read left.n, the other reads right.n of
    the original and of another copy. *)
Example C113_instance : let s := after shop make_bar in let e := held shop make_bar in reach shop concrete s e /\
  let '(u, s1, e1) := exec shop s e (CPrune 2) in u = UProof BAR /\ e1 = e ++ [Some 3] /\
  let '(s2, ea, eb) := turns shop s1 [Some 3] e [(true, CGet 0 "left"); (false, CPrune 2); (true, CGet 1 "n"); (false, CGet 3 "right")] in
  let '(_, s3, eb') := run_all shop s2 eb [CGet 4 "n"; CGet 3 "left"; CGet 2 "right"] in
  let '(_, s4, ea') := run_all shop s2 ea [CGet 0 "right"; CGet 3 "n"] in
  size (outcome shop s2 ea (CSer 0)) = 37 /\ size (outcome shop s3 ea (CSer 0)) = 37 /\ size (outcome shop s4 ea' (CSer 0)) = 6 /\ size (outcome shop s2 eb (CSer 3)) = 68 /\ size (outcome shop s3 eb' (CSer 3)) = 37.
Proof. split; [apply reach_after; repeat constructor; cbn; discriminate|vm_compute; repeat split]. Qed.
Print Assumptions C113_isolated.

(** ** C114: a proof that says it is not pruned serializes the same ever after *)

(** Not so: is_pruned does not look at attributes declared with a union.
    x = Foo(n=1); z = Either(u=x.prune()); z.serialize(); z.u.n; z.serialize() *)
Theorem C114_unpruned_refuted : exists ct made s e i p us s' e', program_table ct made /\ reach ct made s e /\ outcome ct s e (CIsPruned i) = UBool false /\
  Forall (instantiates ct made) p /\ run_all ct s e p = (us, s', e') /\ outcome ct s' e' (CSer i) <> outcome ct s e (CSer i).
Proof.
  set (p := [CNew FOO [("n", int_arg 1)]; CPrune 0; CNew EITHER [("u", AUse 1)]]). exists store, every, (after store p), (held store p), 2, [CGet 2 "u"; CGet 3 "n"].
  destruct (run_all store (after store p) (held store p) [CGet 2 "u"; CGet 3 "n"]) as [[us s'] e'] eqn:E. exists us, s', e'.
  split; [exact store_program|]. split; [apply reach_after, all_every|]. split; [vm_compute; reflexivity|]. split; [apply all_every|]. split; [reflexivity|].
  assert (X : size (outcome store (after store p) (held store p) (CSer 2)) = 35) by (vm_compute; reflexivity).
  assert (Y : size (outcome store (snd (fst (run_all store (after store p) (held store p) [CGet 2 "u"; CGet 3 "n"]))) (snd (run_all store (after store p) (held store p) [CGet 2 "u"; CGet 3 "n"])) (CSer 2)) = 4) by (vm_compute; reflexivity).
  rewrite E in Y. cbn [fst snd] in Y. intros Z. rewrite Z, X in Y. discriminate Y.
Qed.
Print Assumptions C114_unpruned_refuted.

(** It does when no attribute is declared with a union. *)
Theorem C114_unpruned_partial : forall ct made s e us s' e' p i, program_table ct made -> no_unions ct -> reach ct made s e -> outcome ct s e (CIsPruned i) = UBool false ->
  Forall (instantiates ct made) p -> run_all ct s e p = (us, s', e') -> outcome ct s' e' (CSer i) = outcome ct s e (CSer i).
Proof. intros ct made s e us s' e' p i PT. exact (unpruned_kept ct made PT s e us s' e' p i). Qed.
Example C114_instance : program_table stall every /\ no_unions stall /\ let s := after stall make_bar in let e := held stall make_bar in reach stall every s e /\ outcome stall s e (CIsPruned 2) = UBool false /\
  let '(_, s', e') := run_all stall s e [CGet 2 "left"; CPrune 2; CGet 4 "right"; CGet 5 "n"; CPrune 0; CGet 7 "n"] in outcome stall s' e' (CSer 2) = UBytes (hex "000001000203").
Proof. split; [exact stall_program|]. split; [exact stall_unions|]. split; [apply reach_after, all_every|]. vm_compute. auto. Qed.
Print Assumptions C114_unpruned_partial.

(** ** C115: the use of a pruned copy does not show in what it is a copy of *)

(** Not so when that is a pruned copy itself: x = Foo(n=1); y = x.prune(); z = y.prune(); z.n; y.serialize() *)
Theorem C115_original_refuted : exists ct made p us s e i s1 k q us' s2 e2, program_table ct made /\ Forall (instantiates ct made) p /\ run_all ct start [] p = (us, s, e) /\
  exec ct s e (CPrune i) = (UProof FOO, s1, e ++ [Some k]) /\ Forall (instantiates ct made) q /\ run_all ct s1 [Some k] q = (us', s2, e2) /\ outcome ct s2 e (CSer i) <> outcome ct s1 e (CSer i).
Proof.
  set (p := [CNew FOO [("n", int_arg 1)]; CPrune 0]). destruct (run_all store start [] p) as [[us s] e] eqn:E. assert (Es : after store p = s) by (unfold after; rewrite E; reflexivity). assert (Ee : held store p = e) by (unfold held; rewrite E; reflexivity).
  destruct (exec store s e (CPrune 1)) as [[u s1] e1] eqn:E1. destruct (run_all store s1 [Some 2] [CGet 0 "n"]) as [[us' s2] e2] eqn:E2. exists store, every, p, us, s, e, 1, s1, 2, [CGet 0 "n"], us', s2, e2.
  split; [exact store_program|]. split; [apply all_every|]. split; [exact E|]. subst s e. split; [rewrite E1; revert E1; vm_compute; intros E1; inversion E1; reflexivity|]. split; [apply all_every|]. split; [exact E2|].
  assert (S1 : s1 = snd (fst (exec store (after store p) (held store p) (CPrune 1)))) by (rewrite E1; reflexivity). subst s1.
  assert (S2 : s2 = snd (fst (run_all store (snd (fst (exec store (after store p) (held store p) (CPrune 1)))) [Some 2] [CGet 0 "n"]))) by (rewrite E2; reflexivity). subst s2.
  assert (X : size (outcome store (snd (fst (exec store (after store p) (held store p) (CPrune 1)))) (held store p) (CSer 1)) = 33) by (vm_compute; reflexivity).
  assert (Y : size (outcome store (snd (fst (run_all store (snd (fst (exec store (after store p) (held store p) (CPrune 1)))) [Some 2] [CGet 0 "n"]))) (held store p) (CSer 1)) = 2) by (vm_compute; reflexivity).
  intros Z. rewrite Z, X in Y. discriminate Y.
Qed.
Print Assumptions C115_original_refuted.

(** It does not show in proofs that were read from bytes or made from such, whatever is done with them and with others. *)
Theorem C115_original_partial : forall ct made p us s e i q us' s' e' d, program_table ct made -> Forall (instantiates ct made) p -> run_all ct start [] p = (us, s, e) -> made_whole p i ->
  Forall (instantiates ct made) q -> run_all ct s e q = (us', s', e') -> d = CIsPruned i \/ d = CIsFully i \/ d = CSer i -> outcome ct s' e' d = outcome ct s e d.
Proof. intros ct made p us s e i q us' s' e' d PT. exact (whole_kept ct made PT p us s e i q us' s' e' d). Qed.
(** A Bar one of whose parts came as a hash only; a copy of it is used. *)
Example C115_instance : let p := [CNew FOO [("n", int_arg 1)]; CLoad FOO (xff :: repeat x07 32); CNew BAR [("left", AUse 0); ("right", AUse 1); ("nonproof_attr", int_arg 3)]] in made_whole p 2 /\
  fst (fst (run_all shop start [] p)) = [UProof FOO; UProof FOO; UProof BAR] /\ let '(us, s', e') := run_all shop (after shop p) (held shop p) [CPrune 2; CGet 3 "left"; CGet 4 "n"; CGet 3 "right"; CHash 3; CIsPruned 2] in
  firstn 3 us = [UProof BAR; UProof FOO; ULeaf (VPrim (PyInt 1))] /\ nth_error us 5 = Some (UBool true) /\ outcome shop s' e' (CSer 2) = UBytes (hex "000001" ++ xff :: repeat x07 32 ++ hex "03").
Proof.
  split; [|vm_compute; repeat split]. eapply MW_new; [reflexivity|]. intros name j [X|[X|[X|[]]]]; inversion X; subst; [|eapply MW_load; reflexivity]. eapply MW_new; [reflexivity|]. intros n0 j0 [Y|[]]; discriminate Y.
Qed.
Print Assumptions C115_original_partial.

(** ** C116: what was done with a pruned copy can be done with what is sent of it *)
Theorem C116_receiver_can_do_the_same : forall ct made c o h p us0 s e i u s1 k q us s2 e2, program_table ct made -> wf_table ct -> plain_table ct -> plain_tagged ct c ->
  Forall (instantiates ct made) p -> run_all ct start [] p = (us0, s, e) -> nth_error (venv ct [] p) i = Some (Some o) -> fits ct bits_survive (SerProof c) o -> phash ct o = Ok h ->
  exec ct s e (CPrune i) = (u, s1, e ++ [k]) -> Forall (instantiates ct made) q -> run_all ct s1 [k] q = (us, s2, e2) ->
  exists buf, outcome ct s2 e2 (CSer 0) = UBytes buf /\
  forall made' t f w t1 x, program_table ct made' -> reach ct made' t f -> instantiates ct made' (CLoad c buf) -> Forall (instantiates ct made') q -> exec ct t f (CLoad c buf) = (w, t1, f ++ [x]) ->
    w = UProof c /\ outcome ct t1 [x] (CHash 0) = UBytes h /\ forall us' t2 f2, run_all ct t1 [x] q = (us', t2, f2) -> same_outs q us us'.
Proof. intros ct made c o h p us0 s e i u s1 k q us s2 e2 PT. exact (send ct made PT c o h p us0 s e i u s1 k q us s2 e2). Qed.
(** The sender reads left.n of the copy of a Bar, and builds a Foo; the receiver, who gets right as a hash only, can as well. *)
Example C116_instance : program_table store every /\ wf_table store /\ plain_table store /\ plain_tagged store BAR /\
  nth_error (venv store [] make_bar) 2 = Some (Some (bar (foo 1) (foo 2) 3)) /\ fits store bits_survive (SerProof BAR) (bar (foo 1) (foo 2) 3) /\
  let q := [CGet 0 "left"; CGet 1 "n"; CNew FOO [("n", int_arg 1)]; CEq 1 3; CGet 0 "nonproof_attr"; CGet 0 "nothing"] in
  let '(u, s1, e1) := exec store (after store make_bar) (held store make_bar) (CPrune 2) in e1 = held store make_bar ++ [Some 3] /\ let '(us, s2, e2) := run_all store s1 [Some 3] q in
  us = [UProof FOO; ULeaf (VPrim (PyInt 1)); UProof FOO; UBool true; ULeaf (VPrim (PyInt 3)); UErr AttributeError] /\
  match outcome store s2 e2 (CSer 0) with
  | UBytes buf => let '(w, t1, f1) := exec store start [] (CLoad BAR buf) in w = UProof BAR /\ f1 = [Some 2] /\ fst (fst (run_all store t1 [Some 2] q)) = us /\ outcome store t1 [Some 2] (CGet 0 "right") = UProof FOO
  | _ => False end.
Proof.
  split; [exact store_program|]. split; [exact store_wf|]. split; [exact store_plain|]. split; [apply store_tagged; right; left; reflexivity|]. split; [vm_compute; reflexivity|]. split; [|vm_compute; repeat split].
  repeat (first [apply F_full; [reflexivity|cbn [c_attrs store shop]] | apply FA_cons | apply FA_nil | apply F_prim; cbn; lia]).
Qed.
Print Assumptions C116_receiver_can_do_the_same.

(** ** C117: reading an attribute that was pruned away raises PrunedError *)

(** Not so in a process that has not made an instance of the class: f = Foo.deserialize(b'\xff' + 32 bytes); f.n *)
Theorem C117_pruned_error_refuted : exists ct made s e i c name, program_table ct made /\ reach ct made s e /\ outcome ct s e (CPrune i) = UProof c /\ In name (map fst (c_attrs (ct c))) /\ outcome ct s e (CGet i name) = UErr TypeError.
Proof.
  exists shop, concrete, (after shop [CLoad FOO (xff :: repeat x07 32)]), (held shop [CLoad FOO (xff :: repeat x07 32)]), 0, FOO, "n". split; [exact shop_program|].
  split; [apply reach_after; constructor; [|constructor]; cbn; unfold declared; cbn; intros d ->; split; discriminate|]. split; [vm_compute; reflexivity|]. split; [left; reflexivity|vm_compute; reflexivity].
Qed.
Print Assumptions C117_pruned_error_refuted.

(** It does as soon as there is a proof of the class that is not fully pruned. *)
Theorem C117_pruned_error_partial : forall ct made s e i j c name x, program_table ct made -> reach ct made s e -> outcome ct s e (CPrune i) = UProof c -> outcome ct s e (CPrune j) = UProof c -> outcome ct s e (CIsFully j) = UBool false ->
  outcome ct s e (CGet i name) = UErr x -> (In name (map fst (c_attrs (ct c))) -> x = PrunedError) /\ (~ In name (map fst (c_attrs (ct c))) -> x = AttributeError).
Proof. intros ct made s e i j c name x PT. exact (pruned_error ct made PT s e i j c name x). Qed.
Example C117_instance : let p := [CLoad FOO (xff :: repeat x07 32); CNew FOO [("n", int_arg 1)]] in let s := after shop p in let e := held shop p in reach shop concrete s e /\
  outcome shop s e (CPrune 0) = UProof FOO /\ outcome shop s e (CPrune 1) = UProof FOO /\ outcome shop s e (CIsFully 1) = UBool false /\ outcome shop s e (CGet 0 "n") = UErr PrunedError /\ outcome shop s e (CGet 0 "m") = UErr AttributeError.
Proof.
  split; [apply reach_after; constructor; [|constructor; [|constructor]]; cbn; [unfold declared; cbn; intros d ->; split; discriminate|split; discriminate]|vm_compute; repeat split].
Qed.
Print Assumptions C117_pruned_error_partial.
