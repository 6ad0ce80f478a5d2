(** What MarshalBinary makes of any TPDU: its octets, or which field cannot be
    written and why.  Apart from the records that hold TPDUs, the names of errors
    and Go's float64 (GoFloat.v) nothing of the model is used. *)
From Verif Require Import GoBase SpecText SpecBits SpecDigits SpecTime SpecVP SpecDcs SpecAlphabet SpecShown SpecSegment
  GoFloat Address GoTime ValidityPeriod UserData Tpdu.

(** The octets, or the field, as a path of names, and the reason. *)
Inductive outcome := Written (b : bytes) | Refused (field : string) (why : gerr).

(** ** Addresses *)

(** [rest] does not begin with a character of the default alphabet: it begins
    with another one, [r], or with what is no UTF-8, which is read as U+FFFD. *)
Definition in_alphabet (r : Z) : Prop := exists g, listed default_alphabet g r.
Definition bad_begin (r : Z) (rest : bytes) : Prop :=
  (exists b t, rest = b ++ t /\ utf8_char r b /\ ~ in_alphabet r) \/
  (rest <> [] /\ r = 65533 /\ forall r' b t, rest = b ++ t -> ~ utf8_char r' b).

(** Lengths are written modulo 256.  A number is written digit by digit, with
    its length; alphanumeric addresses (type of number 5) in septets, with their
    length in half octets. *)
Inductive address_gives : address -> outcome -> Prop :=
| ag_number toa ds p : toa / 16 mod 8 <> 5 -> semi_packed ds p ->
    address_gives {| a_toa := toa; a_addr := ds |} (Written (len ds mod 256 :: toa :: p))
| ag_digit toa ds d rest : toa / 16 mod 8 <> 5 -> Forall is_semi_digit ds -> ~ is_semi_digit d ->
    address_gives {| a_toa := toa; a_addr := ds ++ d :: rest |} (Refused "addr" (SemiInvalidDigit d))
| ag_text toa rs s us p pad : toa / 16 mod 8 = 5 -> utf8_text rs s -> Forall2 (listed default_alphabet) us rs ->
    Forall is_byte p -> (pad < 8)%nat -> octet_bits p = septet_bits us ++ repeat false pad ->
    address_gives {| a_toa := toa; a_addr := s |} (Written ((7 * len us + 3) / 4 mod 256 :: toa :: p))
| ag_char toa rs s r rest : toa / 16 mod 8 = 5 -> utf8_text rs s -> Forall in_alphabet rs -> bad_begin r rest ->
    address_gives {| a_toa := toa; a_addr := s ++ rest |} (Refused "addr" (Gsm7InvalidUTF8 r)).

(** ** Times *)

(** The wall clock.  The calendar repeats after 400 years, of 146097 days. *)
Definition wall_clock (t : gotime) (y mo d h mi s : Z) : Prop :=
  let local := t_unix t + t_off t in
  (exists k n, Z.of_nat n = local / 86400 + 719528 + 146097 * k /\ day_of n = (y + 400 * k, mo, d)) /\
  local mod 86400 = 3600 * h + 60 * mi + s /\ 0 <= mi < 60 /\ 0 <= s < 60.
(** The last two digits of the year, if it has any: years before 0 do not, unless
    they end a century. *)
Definition year_digits (y n : Z) : Prop := (0 <= y /\ n = y mod 100) \/ (y < 0 /\ y mod 100 = 0 /\ n = 0).
(** The zone in quarters of an hour, parts of them dropped. *)
Definition zone (t : gotime) : Z := Z.quot (t_off t) 900.
Inductive time_gives (t : gotime) : outcome -> Prop :=
| tg_time y mo d h mi s yy : wall_clock t y mo d h mi s -> year_digits y yy -> Z.abs (zone t) <= 79 ->
    time_gives t (Written (map bcd_octet [yy; mo; d; h; mi; s] ++ [bcd_octet (Z.abs (zone t)) + (if zone t <? 0 then 8 else 0)]))
| tg_year y mo d h mi s : wall_clock t y mo d h mi s -> y < 0 -> y mod 100 <> 0 ->
    time_gives t (Refused "" (BcdInvalidInteger (- (- y mod 100))))
| tg_zone y mo d h mi s yy : wall_clock t y mo d h mi s -> year_digits y yy -> 79 < Z.abs (zone t) ->
    time_gives t (Refused "" (BcdInvalidInteger (zone t))).

(** ** Validity periods *)

(** The octet of a relative period: the longest that is not longer than [d].
    Below ten minutes it is 0 or 1, and negative durations wrap around. *)
Inductive relative_octet (d : Z) : Z -> Prop :=
| ro_longest o p : minutes 10 <= d -> relative_vp o p -> p <= d -> (forall o' p', relative_vp o' p' -> p' <= d -> p' <= p) ->
    relative_octet d o
| ro_short : 0 <= d < minutes 10 -> relative_octet d (d / minutes 5)
| ro_negative n : d < 0 -> n = Z.quot d (minutes 5) mod 256 -> relative_octet d (if 1 <? n then n - 1 else n).

(** Whole hours, minutes and seconds of a duration, as Go's float64 gives them
    (exactly, up to 4096 hours: C66), and what of them is written. *)
Definition hms (d : Z) : list Z :=
  [Z.rem (in_units (hours 1) d) 100; Z.rem (in_units (minutes 1) d) 60; Z.rem (in_units 1000000000 d) 60].
Inductive period_gives : validity -> outcome -> Prop :=
| pg_absolute t d efi o : time_gives t o -> period_gives {| vp_format := 3; vp_time := t; vp_duration := d; vp_efi := efi |} o
| pg_relative t d efi o : relative_octet d o ->
    period_gives {| vp_format := 2; vp_time := t; vp_duration := d; vp_efi := efi |} (Written [o])
| pg_enhanced t d efi a b c :
    match efi mod 8 with
    | 0 => a = 0 /\ b = 0 /\ c = 0
    | 1 => relative_octet d a /\ b = 0 /\ c = 0
    | 2 => a = Z.min 255 (Z.quot d 1000000000) mod 256 /\ b = 0 /\ c = 0
    | 3 => Forall (fun n => 0 <= n) (hms d) /\ [a; b; c] = map bcd_octet (hms d)
    | _ => False
    end ->
    period_gives {| vp_format := 1; vp_time := t; vp_duration := d; vp_efi := efi |} (Written [efi; a; b; c; 0; 0; 0])
| pg_reserved t d efi : 3 < efi mod 8 ->
    period_gives {| vp_format := 1; vp_time := t; vp_duration := d; vp_efi := efi |} (Refused "fi" ErrInvalid)
| pg_negative t d efi l1 n l2 : efi mod 8 = 3 -> hms d = l1 ++ n :: l2 -> Forall (fun n => 0 <= n) l1 -> n < 0 ->
    period_gives {| vp_format := 1; vp_time := t; vp_duration := d; vp_efi := efi |} (Refused "enhanced" (BcdInvalidInteger n))
| pg_format v : ~ 0 <= vp_format v <= 3 -> period_gives v (Refused "vpf" ErrInvalid)
| pg_none v : vp_format v = 0 -> period_gives v (Written []).

(** ** User data *)
Fixpoint elements_mod (l : list ie) : bytes :=
  match l with
  | [] => []
  | i :: l' => ie_id i :: len (ie_data i) mod 256 :: ie_data i ++ elements_mod l'
  end.
(** No header is written for one without elements. *)
Definition header_part (u : udh) : bytes :=
  match u with
  | None | Some [] => []
  | Some l => len (elements_mod l) mod 256 :: elements_mod l
  end.
Inductive ud_gives (t : tpdu) : outcome -> Prop :=
| ug_alphabet : alphabet_of (DCS t) = None -> ud_gives t (Refused "alphabet" ErrInvalid)
| ug_odd : alphabet_of (DCS t) = Some 2 -> len (UD t) mod 2 = 1 -> ud_gives t (Refused "sm" ErrOddUCS2Length)
| ug_octets a : alphabet_of (DCS t) = Some a -> a = 1 \/ (a = 2 /\ len (UD t) mod 2 = 0) ->
    ud_gives t (Written ((len (header_part (UDH t)) + len (UD t)) mod 256 :: header_part (UDH t) ++ UD t))
| ug_no_septets : alphabet_of (DCS t) = Some 0 -> UD t = [] ->
    ud_gives t (Written (8 * len (header_part (UDH t)) / 7 mod 256 :: header_part (UDH t)))
| ug_septets p pad taken : alphabet_of (DCS t) = Some 0 -> UD t <> [] ->
    taken = cdiv (8 * len (header_part (UDH t))) 7 -> Forall is_byte p -> (pad < 8)%nat ->
    octet_bits p = repeat false (Z.to_nat (7 * taken - 8 * len (header_part (UDH t)))) ++ septet_bits (UD t) ++ repeat false pad ->
    ud_gives t (Written ((taken + len (UD t)) mod 256 :: header_part (UDH t) ++ p)).

(** ** TPDUs *)

(** The fields that may be refused, in the order in which they are looked at, by
    message type indicator; [mo] is from the mobile station. *)
Definition announced (t : tpdu) (o : outcome) : Prop :=
  if Z.testbit (PI t) 2 then ud_gives t o else o = Written [].
Definition type_fields (mo : bool) (t : tpdu) : option (string * list (string * (outcome -> Prop))) :=
  match mo, FO t mod 4 with
  | false, 0 => Some ("SmsDeliver"%string, [("oa"%string, address_gives (OA t)); ("scts"%string, time_gives (SCTS t)); ("ud"%string, ud_gives t)])
  | true, 0 => Some ("SmsDeliverReport"%string, [("ud"%string, announced t)])
  | false, 1 => Some ("SmsSubmitReport"%string, [("scts"%string, time_gives (SCTS t)); ("ud"%string, announced t)])
  | true, 1 => Some ("SmsSubmit"%string, [("da"%string, address_gives (DA t)); ("ud"%string, ud_gives t); ("vp"%string, period_gives (VP t))])
  | false, 2 => Some ("SmsStatusReport"%string, [("ra"%string, address_gives (RA t)); ("scts"%string, time_gives (SCTS t));
                                          ("dt"%string, time_gives (DT t)); ("ud"%string, announced t)])
  | true, 2 => Some ("SmsCommand"%string, [("da"%string, address_gives (DA t))])
  | _, _ => None
  end.
Definition sub (a b : string) : string := if (b =? "")%string then a else (a ++ "." ++ b)%string.
Inductive tpdu_refused (t : tpdu) : gerr -> Prop :=
| tr_field mo name before f R after where_ why :
    Direction t = (if mo : bool then 1 else 0) -> type_fields mo t = Some (name, before ++ (f, R) :: after) ->
    Forall (fun x => exists b, snd x (Written b)) before -> R (Refused where_ why) ->
    tpdu_refused t (EncodeErr (sub name (sub f where_)) why)
| tr_type mo : Direction t = (if mo : bool then 1 else 0) -> type_fields mo t = None ->
    tpdu_refused t (ErrUnsupportedSmsType (6 + Direction t)).

(** The octets.  A failure cause of 0 and a parameter indicator of 0 in a
    status report are left out. *)
Definition unless_zero (x : Z) : bytes := if x =? 0 then [] else [x].
Definition announced_octets (t : tpdu) : bytes :=
  (if Z.testbit (PI t) 0 then [PID t] else []) ++ (if Z.testbit (PI t) 1 then [DCS t] else []).
Inductive tpdu_written (t : tpdu) : bytes -> Prop :=
| tw_deliver oa ts ud : Direction t = 0 -> FO t mod 4 = 0 -> address_gives (OA t) (Written oa) -> time_gives (SCTS t) (Written ts) ->
    ud_gives t (Written ud) -> tpdu_written t ([FO t] ++ oa ++ [PID t; DCS t] ++ ts ++ ud)
| tw_deliver_report ud : Direction t = 1 -> FO t mod 4 = 0 -> announced t (Written ud) ->
    tpdu_written t ([FO t] ++ unless_zero (FCS t) ++ [PI t] ++ announced_octets t ++ ud)
| tw_submit_report ts ud : Direction t = 0 -> FO t mod 4 = 1 -> time_gives (SCTS t) (Written ts) -> announced t (Written ud) ->
    tpdu_written t ([FO t] ++ unless_zero (FCS t) ++ [PI t] ++ ts ++ announced_octets t ++ ud)
| tw_submit da vp ud : Direction t = 1 -> FO t mod 4 = 1 -> address_gives (DA t) (Written da) -> period_gives (VP t) (Written vp) ->
    ud_gives t (Written ud) -> tpdu_written t ([FO t; MR t] ++ da ++ [PID t; DCS t] ++ vp ++ ud)
| tw_status_report ra ts dt ud : Direction t = 0 -> FO t mod 4 = 2 -> address_gives (RA t) (Written ra) ->
    time_gives (SCTS t) (Written ts) -> time_gives (DT t) (Written dt) -> announced t (Written ud) ->
    tpdu_written t ([FO t; MR t] ++ ra ++ ts ++ dt ++ [ST t] ++
      (if PI t =? 0 then [] else [PI t] ++ announced_octets t ++ ud))
| tw_command da : Direction t = 1 -> FO t mod 4 = 2 -> address_gives (DA t) (Written da) ->
    tpdu_written t ([FO t; MR t; PID t; CT t; MN t] ++ da ++ [len (UD t) mod 256] ++ UD t).

(** What Go's types say of a TPDU, and that the user data in the 7-bit alphabet
    is one of septets. *)
Definition go_address (a : address) : Prop := is_byte (a_toa a) /\ Forall is_byte (a_addr a).
Definition marshal_domain (t : tpdu) : Prop :=
  (Direction t = 0 \/ Direction t = 1) /\ is_byte (FO t) /\ is_byte (PI t) /\ is_byte (DCS t) /\ is_byte (vp_efi (VP t)) /\
  go_address (OA t) /\ go_address (DA t) /\ go_address (RA t) /\
  (alphabet_of (DCS t) = Some 0 -> Forall (fun u => 0 <= u < 128) (UD t)).
