(** What a TPDU read from the wire is made of. *)
From Verif Require Import GoBase Dcs FirstOctet Address UserData Tpdu SpecDigits SpecSegment SpecTpdu.

(** Every one-octet field holds an octet. *)
Definition octet_fields (t : tpdu) : Prop :=
  is_byte (FO t) /\ is_byte (FCS t) /\ is_byte (MR t) /\ is_byte (CT t) /\ is_byte (MN t) /\
  is_byte (PI t) /\ is_byte (ST t) /\ is_byte (PID t) /\ is_byte (DCS t).

(** An address has an octet for its type, and is a string of octets: digits,
    unless it is alphanumeric. *)
Definition addr_sound (a : address) : Prop :=
  is_byte (a_toa a) /\ Forall is_byte (a_addr a) /\
  (addr_ton a <> TonAlphanumeric -> Forall is_semi_digit (a_addr a) /\ len (a_addr a) <= 255).
Definition addresses_sound (t : tpdu) : Prop :=
  addr_sound (OA t) /\ addr_sound (DA t) /\ addr_sound (RA t).

(** A header, if any, was announced by the first octet and has at least one
    element; the message is made of units of its alphabet. *)
Definition ud_sound (t : tpdu) : Prop :=
  match UDH t with
  | Some l => fo_udhi (FO t) = true /\ l <> [] /\ Forall ie_fits l
  | None => True
  end /\
  (UD t = [] \/
   (tpdu_alphabet t = Ok Alpha7Bit /\ Forall is_septet (UD t)) \/
   (tpdu_alphabet t = Ok Alpha8Bit /\ Forall is_byte (UD t)) \/
   (tpdu_alphabet t = Ok AlphaUCS2 /\ Forall is_byte (UD t) /\ len (UD t) mod 2 = 0)).

(** Fields a type does not carry are zero in what Unmarshal returns. *)
Definition only_own_fields (t : tpdu) : Prop :=
  let st := tpdu_type t in
  (st = SmsDeliver -> t = deliver_fields t) /\
  (st = SmsSubmit -> t = submit_fields t) /\
  (st = SmsCommand -> t = set_UDHf (command_fields t) (UDH t)) /\
  (st = SmsDeliverReport -> t = deliver_report_fields t) /\
  (st = SmsSubmitReport -> t = submit_report_fields t) /\
  (st = SmsStatusReport -> t = status_report_fields t).
