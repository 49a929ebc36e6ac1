(** C188: the printed form of unsigned alerts. *)
From Verif Require Import Base Base58_Model Money_Model Net_Model Repr_Model UAlert_Model UAlert_Proofs.

(** The property: the text of an alert tells its contents. *)
Definition text_tells_alert : Prop := forall a a', ualert_repr a = ualert_repr a' -> a = a'.
(** False: the alerts and the versions that it is about are not printed. *)
Definition cancelling : alert_fields := mkAlertFields (mkUalert 1 1329620535 1329792435 1010 1009) [1015%Z] 10000 61000 [str "/Satoshi:0.7.2/"] 100 (str "don't") (str "See bitcoin.org/feb20") [x00; xff].
Definition not_cancelling : alert_fields := mkAlertFields (mkUalert 1 1329620535 1329792435 1010 1009) [] 10000 61000 [] 100 (str "don't") (str "See bitcoin.org/feb20") [x00; xff].
Theorem C188_text_refuted : ~ text_tells_alert.
Proof. intros F. assert (E : cancelling = not_cancelling) by (apply F; vm_compute; reflexivity). discriminate E. Qed.
Print Assumptions C188_text_refuted.

(** Missing: setCancel and setSubVer.  The text tells all other attributes, and nothing else. *)
Theorem C188_text_partial : forall a a', ualert_repr a = ualert_repr a' <->
  f_head a = f_head a' /\ f_nMinVer a = f_nMinVer a' /\ f_nMaxVer a = f_nMaxVer a' /\ f_nPriority a = f_nPriority a' /\
  f_strComment a = f_strComment a' /\ f_strStatusBar a = f_strStatusBar a' /\ f_strReserved a = f_strReserved a'.
Proof. intros a a'. split; [apply alert_text|]. intros (? & ? & ? & ? & ? & ? & ?). apply alert_text_same; assumption. Qed.
Print Assumptions C188_text_partial.

(** The texts are those that Python's % operator gives. *)
Example C188_instance :
  ualert_repr new_alert = T "CUnsignedAlert(nVersion 1, nRelayUntil 0, nExpiration 0, nID 0, nCancel 0, nMinVer 0, nMaxVer 0, nPriority 0, strComment b'', strStatusBar b'', strReserved b'')" /\
  ualert_repr cancelling = T "CUnsignedAlert(nVersion 1, nRelayUntil 1329620535, nExpiration 1329792435, nID 1010, nCancel 1009, nMinVer 10000, nMaxVer 61000, nPriority 100, strComment b""don't"", strStatusBar b'See bitcoin.org/feb20', strReserved b'\x00\xff')".
Proof. split; vm_compute; reflexivity. Qed.
