(** What the commands are given and what they show. *)
From Verif Require Import GoBase Utf Address PduMode Tpdu UserData Sms SpecCollect Collector Cmd.

(** The TPDU octets in an argument of smsdeliver: the argument is their hex
    form, behind the SMSC address with the flag -p. *)
Definition payload (pm : bool) (a tb : bytes) : Prop :=
  exists b, hex_decode a = Ok b /\
    if pm then exists smsc, pdu_unmarshal b = Ok {| p_smsc := smsc; p_tpdu := tb |} else tb = b.

(** The argument carries the TPDU [t], sent to a mobile station. *)
Definition shows (pm : bool) (a : bytes) (t : tpdu) : Prop :=
  exists tb, payload pm a tb /\ unmarshal tb false = Ok t.

(** The argument is a part of a concatenated message that is not a DELIVER
    TPDU. *)
Definition report_part (pm : bool) (a : bytes) : Prop :=
  exists t, shows pm a t /\ tpdu_type t <> SmsDeliver /\
    exists n i r, tpdu_concat_info t = Some (n, i, r) /\ 2 <= n.

(** The argument [a] was made from the TPDU [p] by marshalling. *)
Definition printed (pm : bool) (p : tpdu) (a : bytes) : Prop :=
  exists b, tpdu_marshal p = Ok b /\ payload pm a b.
