(** The whole path of a message: encoded, marshalled, carried, unmarshalled,
    collected and decoded. *)
From Verif Require Import GoBase SpecText SpecDigits SpecTime SpecVP SpecTpdu SpecDcs SpecSelect FirstOctet Dcs Charset
  GoTime ValidityPeriod Address UserData Tpdu Segment Sms SpecSms.

(** The header of a template: present exactly if the indicator is set, its
    elements fitting their length octets, and none of those that segmentation
    (0, 8) and the choice of alphabet (24, 25) add. *)
Definition header_ok (t : tpdu) : Prop :=
  match UDH t with
  | Some l => fo_udhi (FO t) = true /\ l <> [] /\
      Forall (fun i => ie_fits i /\ ~ In (ie_id i) [0; 8; 24; 25]) l
  | None => fo_udhi (FO t) = false
  end.

(** A template of SUBMIT or DELIVER TPDUs whose fields can be expressed on the
    wire (SpecTpdu.v). *)
Definition submit_template_ok (t : tpdu) : Prop :=
  Direction t = MO /\ fo_mti (FO t) = 1 /\ addr_value (DA t) /\
  vp_value (VP t) /\ fo_vpf (FO t) = vp_format (VP t).
Definition deliver_template_ok (t : tpdu) : Prop :=
  Direction t = MT /\ fo_mti (FO t) = 0 /\ addr_value (OA t) /\ time_value (SCTS t).
Definition template_ok (t : tpdu) : Prop :=
  is_byte (FO t) /\ is_byte (PID t) /\ is_byte (DCS t) /\ header_ok t /\
  (submit_template_ok t \/ deliver_template_ok t).

(** The validity period of a template that is written as some period of the
    standard (SpecVP.v): the period itself need not be one, for instance a
    relative one of 7 minutes. *)
Definition written_as (v w : validity) : Prop :=
  vp_value w /\ vp_format w = vp_format v /\ vp_marshal w = vp_marshal v.
(** A template with such a validity period, and otherwise as above. *)
Definition template_sent (t : tpdu) : Prop :=
  template_ok t \/ exists w, written_as (VP t) w /\ template_ok (set_VPf t w).

(** [text] is the text meant by the argument [msg] of Encode: for a template
    with the 8-bit alphabet the octets themselves, with UCS-2 the characters
    of which [msg] is the UTF-16 form, else [msg] is the UTF-8 text.  In the
    last case U+001B is left out if the text is coded in septets (see C06). *)
Definition meant (dcs : Z) (charsets : list charset_opt) (msg text : bytes) : Prop :=
  match alphabet_of dcs with
  | Some 1 => Forall is_byte msg /\ text = msg
  | Some 2 => exists rs, utf16be rs msg /\ utf8_text rs text
  | _ => valid_utf8 msg /\ text = msg /\ (~ In 27 msg \/ choose msg charsets = ChUcs2)
  end.

(** [r] is what the receiver of the octets of [t] gets. *)
Definition carried (t r : tpdu) : Prop :=
  exists b, tpdu_marshal t = Ok b /\ Forall is_byte b /\ unmarshal b (Direction t =? MO) = Ok r.

(** What a received TPDU shares with the template: type, flags apart from the
    header indicator, addresses, times and protocol (a validity period that is
    none of the standard's arrives as the one it is written as). *)
Definition keeps (tmpl r : tpdu) : Prop :=
  Direction r = Direction tmpl /\ tpdu_type r = tpdu_type tmpl /\ Z.lor (FO r) 64 = Z.lor (FO tmpl) 64 /\
  PID r = PID tmpl /\
  (tpdu_type tmpl = SmsSubmit -> DA r = DA tmpl /\ written_as (VP tmpl) (VP r) /\ (vp_value (VP tmpl) -> VP r = VP tmpl)) /\
  (tpdu_type tmpl = SmsDeliver -> OA r = OA tmpl /\ SCTS r = SCTS tmpl).

(** [number] is a number the user dials, of the digits [ds], with or without a
    leading plus. *)
Definition dialled (number ds : bytes) : Prop :=
  (number = ds \/ number = 43 :: ds) /\ Forall is_semi_digit ds /\ len ds <= 255.
