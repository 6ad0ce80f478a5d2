(** What a failed UnmarshalBinary is expected to leave in the TPDU: "partially
    unmarshalled, up to the point that the decoding error was detected". *)
From Verif Require Import GoBase Address GoTime ValidityPeriod UserData Tpdu.

(** The fields of a TPDU.  The user data header counts as user data. *)
Inductive tfield :=
  F_Direction | F_FO | F_OA | F_FCS | F_MR | F_CT | F_MN | F_DA | F_RA | F_PI | F_SCTS | F_DT
| F_ST | F_PID | F_DCS | F_VP | F_UD.

(** The names of 3GPP TS 23.040 section 9.2 (without the TP-), which the errors use. *)
Definition field_name (f : tfield) : string :=
  match f with
  | F_Direction => "direction" | F_FO => "firstOctet" | F_OA => "oa" | F_FCS => "fcs"
  | F_MR => "mr" | F_CT => "ct" | F_MN => "mn" | F_DA => "da" | F_RA => "ra" | F_PI => "pi"
  | F_SCTS => "scts" | F_DT => "dt" | F_ST => "st" | F_PID => "pid" | F_DCS => "dcs"
  | F_VP => "vp" | F_UD => "ud"
  end.

(** Two TPDUs that hold the same in a field. *)
Definition agree (f : tfield) (a b : tpdu) : Prop :=
  match f with
  | F_Direction => Direction a = Direction b
  | F_FO => FO a = FO b | F_OA => OA a = OA b | F_FCS => FCS a = FCS b | F_MR => MR a = MR b
  | F_CT => CT a = CT b | F_MN => MN a = MN b | F_DA => DA a = DA b | F_RA => RA a = RA b
  | F_PI => PI a = PI b | F_SCTS => SCTS a = SCTS b | F_DT => DT a = DT b | F_ST => ST a = ST b
  | F_PID => PID a = PID b | F_DCS => DCS a = DCS b | F_VP => VP a = VP b
  | F_UD => UD a = UD b /\ UDH a = UDH b
  end.

(** The order of the fields, 3GPP TS 23.040 sections 9.2.2.1 to 9.2.2.4.  The
    DCS of a command is not sent: it is 8-bit data. *)
Definition field_order (st : Z) : list tfield :=
  if st =? SmsDeliver then [F_FO; F_OA; F_PID; F_DCS; F_SCTS; F_UD]
  else if st =? SmsDeliverReport then [F_FO; F_FCS; F_PI; F_PID; F_DCS; F_UD]
  else if st =? SmsSubmitReport then [F_FO; F_FCS; F_PI; F_SCTS; F_PID; F_DCS; F_UD]
  else if st =? SmsSubmit then [F_FO; F_MR; F_DA; F_PID; F_DCS; F_VP; F_UD]
  else if st =? SmsStatusReport then
    [F_FO; F_MR; F_RA; F_SCTS; F_DT; F_ST; F_PI; F_PID; F_DCS; F_UD]
  else [F_FO; F_MR; F_PID; F_CT; F_MN; F_DA; F_DCS; F_UD].

(** [path] names the field [f] of type [st], or a part of that field. *)
Definition names (path : string) (st : Z) (f : tfield) : Prop :=
  let whole := (sms_type_string st ++ "." ++ field_name f)%string in
  path = whole \/ exists part, path = (whole ++ "." ++ part)%string.

(** The field at which decoding failed: [l] holds what [t] held, except that the
    octets of a command and the PID of a deliver are 0 then, and a validity
    period has lost its format. *)
Definition failed_field (st : Z) (f : tfield) (t l : tpdu) : Prop :=
  match f with
  | F_MR => MR l = if st =? SmsCommand then 0 else MR t
  | F_PID => PID l = if (st =? SmsCommand) || (st =? SmsDeliver) then 0 else PID t
  | F_CT => CT l = 0
  | F_MN => MN l = 0
  | F_VP => VP l = {| vp_format := VpfNotPresent; vp_time := vp_time (VP t);
                      vp_duration := vp_duration (VP t); vp_efi := vp_efi (VP t) |}
  | _ => agree f l t
  end.

(** [l] is [t] unmarshalled from [src] as far as the field [f], which starts at
    [start]: the fields before it are those of every TPDU read from octets that
    begin alike, the ones after it and the ones this type does not have are
    those of [t]. *)
Definition unmarshalled_up_to (unmarshal : tpdu -> bytes -> res tpdu)
    (st : Z) (f : tfield) (start : Z) (src : bytes) (t l : tpdu) : Prop :=
  exists before after,
    field_order st = before ++ f :: after /\
    (forall g, In g before -> forall src' r, Forall is_byte src' ->
       firstn (Z.to_nat start) src' = firstn (Z.to_nat start) src -> unmarshal t src' = Ok r ->
       agree g l r) /\
    (forall g, ~ In g (before ++ [f]) -> agree g l t) /\
    failed_field st f t l.
