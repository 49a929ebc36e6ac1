(** A small library that meets the description of Key_Spec.v, for examples and counterexamples.  It is no model of code in /repo. *)
From Verif Require Import Base Sha256 Tx_Model Tx_Spec Script_Model Key_Model Key_Spec.

(** A point is one byte; that of a secret is its last byte, unless that is zero. *)
Definition toy_point (s : bytes) : option Byte.byte :=
  match rev s with x :: _ => if bytes_eqb [x] [x00] then None else Some x | [] => None end.
Definition toy_text (c : bool) (p : Byte.byte) : bytes := if c then x02 :: p :: repeat x00 31 else x04 :: p :: repeat x00 63.
Definition toy_read (b : bytes) : option Byte.byte :=
  match b with
  | _ :: p :: _ => if (bytes_eqb b (toy_text true p) || bytes_eqb b (toy_text false p))%bool then Some p else None
  | _ => None
  end.
Lemma toy_point_read c p : toy_read (toy_text c p) = Some p.
Proof. destruct c; unfold toy_text, toy_read; rewrite bytes_eqb_refl; [reflexivity|rewrite orb_true_r; reflexivity]. Qed.
Lemma toy_point_length c p : List.length (toy_text c p) = (if c then 33 else 65)%nat.
Proof. destruct c; reflexivity. Qed.
Definition toy_sig (p : Byte.byte) (h : bytes) : bytes := sha256 (p :: h).
Definition toy_curve : curve :=
  Curve Byte.byte toy_point toy_text toy_read (fun p h sig => sig = toy_sig p h) toy_point_read toy_point_length.

(** The state of a key: a secret, a point and the form.  A public key that cannot be read leaves a point behind, as
    OpenSSL does, and random numbers 7 make signing fail. *)
Record toy := Toy { toy_secret : option bytes; toy_held : option Byte.byte; toy_form : bool }.
Definition toy_ssl : openssl := {|
  EC_KEY := toy;
  ec_new := Toy None None false;
  ec_derive s k := match toy_point s with Some p => Some (Toy (Some s) (Some p) (toy_form k)) | None => None end;
  ec_form c k := Toy (toy_secret k) (toy_held k) c;
  ec_i2o k := match toy_held k with Some p => toy_text (toy_form k) p | None => [] end;
  ec_o2i b k := match toy_read b with Some p => (true, Toy (toy_secret k) (Some p) (toy_form k)) | None => (false, Toy (toy_secret k) (Some x00) (toy_form k)) end;
  ec_sign k h r := match toy_secret k with
    | Some s => match toy_point s with Some p => if (r =? 7)%N then None else Some (toy_sig p h) | None => None end
    | None => None end;
  ec_verify k h sig := match toy_held k with Some p => if bytes_eqb sig (toy_sig p h) then 1%Z else 0%Z | None => (-1)%Z end |}.

Definition toy_library : library toy_curve toy_ssl.
Proof.
  apply (Library toy_curve toy_ssl toy_secret toy_held toy_form).
  - intros s k p H. cbn [ec_derive toy_ssl]. cbn [point_of toy_curve] in H. rewrite H. eexists. split; [reflexivity|]. auto.
  - intros c k. auto.
  - intros k p H. cbn [ec_i2o toy_ssl]. rewrite H. reflexivity.
  - intros b k p H. cbn [ec_o2i toy_ssl]. cbn [read_point toy_curve] in H. rewrite H. eexists. split; [reflexivity|]. auto.
  - intros b k H. cbn [ec_o2i toy_ssl]. cbn [read_point toy_curve] in H. rewrite H. reflexivity.
  - intros k s p h r sig Hs Hp Lh E. cbn [ec_sign toy_ssl] in E. rewrite Hs in E. cbn [point_of toy_curve] in Hp. rewrite Hp in E.
    destruct (r =? 7)%N; [discriminate|]. assert (sig = toy_sig p h) as -> by congruence. split; [reflexivity|].
    unfold toy_sig, blen. rewrite sha256_length. cbv. discriminate.
  - intros k p h sig H. cbn [ec_verify toy_ssl valid_sig toy_curve]. rewrite H. split.
    + destruct (bytes_eqb sig (toy_sig p h)) eqn:E; [|discriminate]. intros _. apply bytes_eqb_eq, E.
    + intros ->. rewrite bytes_eqb_refl. reflexivity.
Defined.

(** The secret of the examples. *)
Definition toy_key : bytes := sha256 [x61].
