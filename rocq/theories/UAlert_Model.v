(** Executable model of the printed form of an unsigned alert, CUnsignedAlert of lib/python-bitcoinlib/bitcoin/net.py (cited as net.py). *)
From Verif Require Import Base Base58_Model Money_Model Net_Model Repr_Model.

(** net.py:106-120 [CUnsignedAlert.__init__]: all attributes, those of [ualert] first.  Simplified: numbers are integers and texts bytes objects,
    as in the constructor; setSubVer is a list of bytes objects (its element type is never fixed by net.py). *)
Record alert_fields := mkAlertFields {
  f_head : ualert; f_setCancel : list Z; f_nMinVer : Z; f_nMaxVer : Z; f_setSubVer : list bytes; f_nPriority : Z;
  f_strComment : bytes; f_strStatusBar : bytes; f_strReserved : bytes }.
(** net.py:107-120: a new object. *)
Definition new_alert : alert_fields := mkAlertFields (mkUalert 1 0 0 0 0) [] 0 0 [] 0 [] [] [].
(** net.py:155-156 [__repr__]; %d of an integer, %s of a bytes object. *)
Definition ualert_repr (a : alert_fields) : text :=
  let h := f_head a in
  T "CUnsignedAlert(nVersion " ++ fmt_i (u_nVersion h) ++ T ", nRelayUntil " ++ fmt_i (u_nRelayUntil h) ++
  T ", nExpiration " ++ fmt_i (u_nExpiration h) ++ T ", nID " ++ fmt_i (u_nID h) ++ T ", nCancel " ++ fmt_i (u_nCancel h) ++
  T ", nMinVer " ++ fmt_i (f_nMinVer a) ++ T ", nMaxVer " ++ fmt_i (f_nMaxVer a) ++ T ", nPriority " ++ fmt_i (f_nPriority a) ++
  T ", strComment " ++ bytes_repr (f_strComment a) ++ T ", strStatusBar " ++ bytes_repr (f_strStatusBar a) ++
  T ", strReserved " ++ bytes_repr (f_strReserved a) ++ T ")".
