(** Vocabulary: closing transactions that the network accepts, and wallets that sign them. *)
From Verif Require Import Base Sha256 Ripemd160 Tx_Model Tx_Spec Proof_Model Proof_Spec Block_Model Block_Spec Script_Model SigHash_Model ScriptEval_Model
  Base58_Model Key_Model Key_Spec Chain_Model Chain_Spec Fund_Spec.
Local Open Scope list_scope.

(** How many seals a transaction of at most a million bytes has room for. *)
Definition most_seals (meth : string) : Z := if String.eqb meth "op_return" then 24388 else 24389.

(** The claim C172 in full: different seals of outputs that can exist, not too many of them, are
    closed by a valid transaction. *)
Definition closing_is_valid : Prop := forall ct P digest files ons meth t, is_chain ct P -> wf_table ct -> variant_table ct ->
  seal_files ct P files ons -> files <> [] -> (Z.of_nat (List.length files) <= most_seals meth)%Z -> List.length digest = 32%nat -> method meth ->
  NoDup ons -> Forall (fun on => ~ null_outpoint (fst on)) ons -> printed ct P digest files meth t -> CheckTransaction t = Ok tt.

(** The scriptSig [ss] that the owner of a key makes for input [i] of [t], if the output that the
    input spends has the script [spk] of the address of the key: a signature of the whole
    transaction and the public key.  The signature is not, with its type byte, the hash of the key
    (it would be cut out of the script before hashing). *)
Definition owner_signs (G : curve) (L : openssl) (pr : prefixes) (t : tx) (i : nat) (spk ss : bytes) : Prop :=
  exists mem secret p c k a r h sig, List.length secret = 32%nat /\ point_of G secret = Some p /\ ckey_new L mem secret c = Ok k /\
    address_of_pubkey L pr (pub L k) = Ok a /\ to_scriptPubKey pr a = Ok spk /\
    SignatureHash spk t (Z.of_nat i) 1 = Ok h /\ sign L k h r = Ok sig /\ sig ++ [x01] <> Hash160 (p_bytes L (pub L k)) /\
    cscript [IData (sig ++ [x01]); IData (p_bytes L (pub L k))] = Ok ss.

(** [t'] is [t] with every input signed by the owner of the output it spends; [paid o] is the
    script of the output that the outpoint [o] names. *)
Definition signed_by_owners (G : curve) (L : openssl) (pr : prefixes) (paid : outpoint -> bytes) (t t' : tx) : Prop :=
  same_but_scripts t t' /\
  forall i x, nth_error (t_vin t') i = Some x -> owner_signs G L pr t i (paid (i_prevout x)) (i_scriptSig x).
