(** Specification of the wire format of headers, and of well-formed TPDUs
    (3GPP TS 23.040 sections 9.2.2, 9.2.3.24). *)
From Verif Require Import GoBase SpecText SpecDigits SpecTime SpecVP SpecSegment SpecBits Charset Dcs FirstOctet Address
  GoTime ValidityPeriod UserData Tpdu.

(** ** Headers *)

(** Each element is its identifier, the length of its data and its data; the
    header is the total length of the elements, then the elements. *)
Fixpoint elements (l : list ie) : bytes :=
  match l with
  | [] => []
  | i :: l' => ie_id i :: len (ie_data i) :: ie_data i ++ elements l'
  end.
Definition header_octets (l : list ie) : bytes := len (elements l) :: elements l.

Definition ie_fits (i : ie) : Prop :=
  is_byte (ie_id i) /\ Forall is_byte (ie_data i) /\ len (ie_data i) <= 255.
Definition header_fits (l : list ie) : Prop :=
  l <> [] /\ Forall ie_fits l /\ len (elements l) <= 255.

(** Octets taken by the header of a TPDU. *)
Definition header_size (u : udh) : Z :=
  match u with Some l => len (header_octets l) | None => 0 end.

(** ** User data *)

(** The user data of [t] is well formed: a known alphabet, a header exactly if
    the indicator is set, units of the alphabet, and a length that fits the
    length octet (in septets, header rounded up, for the 7-bit alphabet). *)
Definition ud_wf (t : tpdu) : Prop :=
  (match UDH t with
   | Some l => fo_udhi (FO t) = true /\ header_fits l
   | None => fo_udhi (FO t) = false \/ UD t = []
   end) /\
  ((tpdu_alphabet t = Ok Alpha7Bit /\ Forall is_septet (UD t) /\
      cdiv (8 * header_size (UDH t)) 7 + len (UD t) <= 255) \/
   (tpdu_alphabet t = Ok Alpha8Bit /\ Forall is_byte (UD t) /\
      header_size (UDH t) + len (UD t) <= 255) \/
   (tpdu_alphabet t = Ok AlphaUCS2 /\ Forall is_byte (UD t) /\ len (UD t) mod 2 = 0 /\
      header_size (UDH t) + len (UD t) <= 255)).

(** ** Field values that can be expressed on the wire *)

Inductive addr_value : address -> Prop :=
| av_num toa ds : is_byte toa -> toa_ton toa <> TonAlphanumeric -> Forall is_semi_digit ds ->
    len ds <= 255 -> addr_value {| a_toa := toa; a_addr := ds |}
| av_alnum toa rs s : is_byte toa -> toa_ton toa = TonAlphanumeric -> utf8_text rs s ->
    (forall r, In r rs -> exists g, assoc default_decoder g = Some r) -> ~ In 27 rs ->
    len rs <= 145 -> addr_value {| a_toa := toa; a_addr := s |}.

Definition time_value (t : gotime) : Prop :=
  t_nsec t = 0 /\ 0 <= t_unix t + t_off t < century /\
  exists q, t_off t = 900 * q /\ -79 <= q <= 79.

(** ** TPDUs: for each type, the fields it carries, the others being zero. *)

Definition submit_fields (t : tpdu) : tpdu := {|
  Direction := MO; FO := FO t; OA := zero_address; FCS := 0; MR := MR t; CT := 0; MN := 0;
  DA := DA t; RA := zero_address; PI := 0; SCTS := zero_time; DT := zero_time; ST := 0;
  PID := PID t; DCS := DCS t; VP := VP t; UDH := UDH t; UD := UD t |}.
Definition deliver_fields (t : tpdu) : tpdu := {|
  Direction := MT; FO := FO t; OA := OA t; FCS := 0; MR := 0; CT := 0; MN := 0;
  DA := zero_address; RA := zero_address; PI := 0; SCTS := SCTS t; DT := zero_time; ST := 0;
  PID := PID t; DCS := DCS t; VP := vp_zero; UDH := UDH t; UD := UD t |}.
Definition command_fields (t : tpdu) : tpdu := {|
  Direction := MO; FO := FO t; OA := zero_address; FCS := 0; MR := MR t; CT := CT t; MN := MN t;
  DA := DA t; RA := zero_address; PI := 0; SCTS := zero_time; DT := zero_time; ST := 0;
  PID := PID t; DCS := Dcs8BitData; VP := vp_zero; UDH := None; UD := UD t |}.
Definition deliver_report_fields (t : tpdu) : tpdu := {|
  Direction := MO; FO := FO t; OA := zero_address; FCS := FCS t; MR := 0; CT := 0; MN := 0;
  DA := zero_address; RA := zero_address; PI := PI t; SCTS := zero_time; DT := zero_time; ST := 0;
  PID := PID t; DCS := DCS t; VP := vp_zero; UDH := UDH t; UD := UD t |}.
Definition submit_report_fields (t : tpdu) : tpdu := {|
  Direction := MT; FO := FO t; OA := zero_address; FCS := FCS t; MR := 0; CT := 0; MN := 0;
  DA := zero_address; RA := zero_address; PI := PI t; SCTS := SCTS t; DT := zero_time; ST := 0;
  PID := PID t; DCS := DCS t; VP := vp_zero; UDH := UDH t; UD := UD t |}.
Definition status_report_fields (t : tpdu) : tpdu := {|
  Direction := MT; FO := FO t; OA := zero_address; FCS := 0; MR := MR t; CT := 0; MN := 0;
  DA := zero_address; RA := RA t; PI := PI t; SCTS := SCTS t; DT := DT t; ST := ST t;
  PID := PID t; DCS := DCS t; VP := vp_zero; UDH := UDH t; UD := UD t |}.

(** The optional fields of a report: those the parameter indicator does not
    announce are absent. *)
Definition optionals_wf (t : tpdu) : Prop :=
  is_byte (PI t) /\ is_byte (PID t) /\ is_byte (DCS t) /\
  (pi_pid (PI t) = false -> PID t = 0) /\ (pi_dcs (PI t) = false -> DCS t = 0) /\
  if pi_udl (PI t) then ud_wf t else UDH t = None /\ UD t = [].

(** ** Well-formed TPDUs of each type *)
Definition submit_wf (t : tpdu) : Prop :=
  Direction t = MO /\ fo_mti (FO t) = 1 /\ is_byte (FO t) /\ is_byte (MR t) /\
  addr_value (DA t) /\ is_byte (PID t) /\ is_byte (DCS t) /\
  vp_value (VP t) /\ fo_vpf (FO t) = vp_format (VP t) /\ ud_wf t.

Definition deliver_wf (t : tpdu) : Prop :=
  Direction t = MT /\ fo_mti (FO t) = 0 /\ is_byte (FO t) /\
  addr_value (OA t) /\ is_byte (PID t) /\ is_byte (DCS t) /\ time_value (SCTS t) /\ ud_wf t.

Definition report_type (t : tpdu) (dir mti : Z) : Prop :=
  Direction t = dir /\ fo_mti (FO t) = mti /\ is_byte (FO t).

Definition deliver_report_wf (t : tpdu) : Prop :=
  report_type t MO 0 /\ is_byte (FCS t) /\ FCS t <> 0 /\ optionals_wf t.

Definition submit_report_wf (t : tpdu) : Prop :=
  report_type t MT 1 /\ is_byte (FCS t) /\ FCS t <> 0 /\ time_value (SCTS t) /\ optionals_wf t.

Definition status_report_wf (t : tpdu) : Prop :=
  report_type t MT 2 /\ is_byte (MR t) /\ is_byte (ST t) /\ addr_value (RA t) /\
  time_value (SCTS t) /\ time_value (DT t) /\ optionals_wf t.

Definition command_wf (t : tpdu) : Prop :=
  Direction t = MO /\ fo_mti (FO t) = 2 /\ is_byte (FO t) /\ (fo_udhi (FO t) = false \/ UD t = []) /\
  is_byte (MR t) /\ is_byte (PID t) /\ is_byte (CT t) /\ is_byte (MN t) /\ addr_value (DA t) /\
  Forall is_byte (UD t) /\ len (UD t) <= 255.

(** ** Layout on the wire *)

Definition header_of (u : udh) : bytes :=
  match u with Some l => header_octets l | None => [] end.

(** Length, header, then the message; a 7-bit message is packed and starts on a
    septet boundary counted from the start of the header. *)
Definition ud_layout (t : tpdu) (b : bytes) : Prop :=
  let h := header_size (UDH t) in
  if (match tpdu_alphabet t with Ok a => a =? Alpha7Bit | _ => false end) then
    match UD t with
    | [] => b = 8 * h / 7 :: header_of (UDH t)
    | _ =>
      exists p pad, b = (cdiv (8 * h) 7 + len (UD t)) :: header_of (UDH t) ++ p /\ (pad < 8)%nat /\
        octet_bits p = repeat false (Z.to_nat (7 * cdiv (8 * h) 7 - 8 * h)) ++ septet_bits (UD t)
                         ++ repeat false pad
    end
  else b = (h + len (UD t)) :: header_of (UDH t) ++ UD t.

(** The validity period is absent if its format says so. *)
Definition vp_octets (t : tpdu) (b : bytes) : Prop :=
  if vp_format (VP t) =? VpfNotPresent then b = [] else vp_marshal (VP t) = Ok b.

(** The optional fields of a report. *)
Definition optional_octets (t : tpdu) (b : bytes) : Prop :=
  exists ud, b = (if pi_pid (PI t) then [PID t] else []) ++ (if pi_dcs (PI t) then [DCS t] else []) ++ ud /\
    if pi_udl (PI t) then ud_layout t ud else ud = [].
