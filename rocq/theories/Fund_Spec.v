(** Vocabulary: a closing transaction that is funded and signed before it is witnessed. *)
From Verif Require Import Base Serialize_Model Serialize_Spec Tx_Model Tx_Spec Proof_Model Proof_Spec Hex_Model Chain_Model Chain_Spec.
Local Open Scope list_scope.

(** mkclosetx, given the seals in [files], prints the hex of the unsigned transaction [t]. *)
Definition printed (ct : ctable) (P : chain) (digest : bytes) (files : list bytes) (meth : string) (t : tx) : Prop :=
  exists raw, cmd_mkclosetx ct P digest files meth = Ok (b2x raw) /\ bdeserialize tx_de false raw = Ok t.

(** [t'] is [t] after a wallet has worked on it: everything spent by [t] is still spent and every
    output is still there.  Inputs and outputs may have been added anywhere and reordered, and the
    input scripts, the sequence numbers, the lock time and the version may be any. *)
Definition funded (t t' : tx) : Prop :=
  wf_tx t' /\ (Z.of_nat (List.length (t_vin t')) <= 2 ^ 32)%Z /\ (Z.of_nat (List.length (t_vout t')) <= 2 ^ 32)%Z /\
  incl (map i_prevout (t_vin t)) (map i_prevout (t_vin t')) /\ incl (t_vout t) (t_vout t').

(** Files holding these seals. *)
Definition seal_files (ct : ctable) (P : chain) (files : list bytes) (ons : list (outpoint * bytes)) : Prop :=
  Forall2 (fun f on => deserialize ct (p_bseal P) f = Ok (Seal P (fst on) (snd on))) files ons.

(** mkwitness succeeds with this transaction, and verifywitness accepts every file with the digest. *)
Definition witnessed (ct : ctable) (P : chain) (raw : bytes) (files : list bytes) (digest : bytes) : Prop :=
  exists ws, cmd_mkwitness ct P raw files = Ok ws /\ List.length ws = List.length files /\ Forall (fun w => cmd_verifywitness ct P w (Some digest) = Ok tt) ws.

(** The claim C163 in full. *)
Definition funding_allowed : Prop := forall ct P digest files ons meth t t' raw, is_chain ct P -> wf_table ct -> variant_table ct ->
  seal_files ct P files ons -> List.length digest = 32 -> method meth -> printed ct P digest files meth t -> funded t t' -> tx_ser t' = Ok raw ->
  witnessed ct P raw files digest.
