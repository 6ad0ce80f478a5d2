(** Which of the TPDUs that Unmarshal returns MarshalBinary can write so that
    they are read back the same: all but those with the oddities listed. *)
From Verif Require Import GoBase SpecTime SpecVP SpecSegment SpecTpdu SpecSegTpdu Dcs FirstOctet GoTime ValidityPeriod
  UserData Tpdu Sms.

(** A time within 1970 to 2069, its own time zone counting.  Unmarshal leaves
    this only for dates that do not exist, such as month 0 of 1970. *)
Definition in_century (t : gotime) : Prop := 0 <= t_unix t + t_off t < century.

(** A validity period that is not five minutes in a relative format (see C24),
    not 100 hours or more in the hh:mm:ss format, and not outside the century. *)
Definition vp_again (v : validity) : Prop :=
  (vp_format v = VpfAbsolute -> in_century (vp_time v)) /\
  (vp_format v = VpfRelative -> vp_duration v <> minutes 5) /\
  (vp_format v = VpfEnhanced -> vp_efi v mod 8 = 1 -> vp_duration v <> minutes 5) /\
  (vp_format v = VpfEnhanced -> vp_efi v mod 8 = 3 -> vp_duration v < hours 100).

(** User data of a known alphabet, with elements if a header is announced and there is any, and
    with a header that did not run past its declared length so far that header
    and message exceed what their length octets can say. *)
Definition ud_again (t : tpdu) : Prop :=
  (exists a, tpdu_alphabet t = Ok a) /\
  (fo_udhi (FO t) = true -> UDH t = None -> UD t = []) /\
  forall l, UDH t = Some l -> len (elements l) <= 255 /\
    (if (match tpdu_alphabet t with Ok a => a =? Alpha7Bit | _ => false end)
     then cdiv (8 * header_size (UDH t)) 7 + len (UD t) <= 255
     else header_size (UDH t) + len (UD t) <= 255).

Definition again (t : tpdu) : Prop :=
  let st := tpdu_type t in
  (st = SmsDeliver -> in_century (SCTS t) /\ ud_again t) /\
  (st = SmsSubmit -> vp_again (VP t) /\ ud_again t) /\
  (st = SmsCommand -> fo_udhi (FO t) = true -> UDH t = None /\ UD t = []) /\
  (st = SmsDeliverReport -> FCS t <> 0 /\ (pi_udl (PI t) = true -> ud_again t)) /\
  (st = SmsSubmitReport -> FCS t <> 0 /\ in_century (SCTS t) /\ (pi_udl (PI t) = true -> ud_again t)) /\
  (st = SmsStatusReport -> in_century (SCTS t) /\ in_century (DT t) /\ (pi_udl (PI t) = true -> ud_again t)).

(** The octets are a TPDU that is marshalled, and read back the same. *)
Definition survives (src : bytes) (mo : bool) : Prop :=
  exists t b, unmarshal src mo = Ok t /\ tpdu_marshal t = Ok b /\ unmarshal b mo = Ok t.
