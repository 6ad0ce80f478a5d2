(** Model of encoding/tpdu/validityperiod.go.

    A time.Duration is its number of nanoseconds. *)
From Verif Require Import GoBase Bcd TpduError GoTime GoFloat.

Definition ns_second : Z := 1000000000.
Definition ns_minute : Z := 60 * ns_second.
Definition ns_hour : Z := 60 * ns_minute.
Definition ns_day : Z := 24 * ns_hour.
Definition ns_week : Z := 7 * ns_day.

(** encoding/tpdu/validityperiod.go:169-187 [ValidityPeriodFormat]. *)
Definition VpfNotPresent : Z := 0.
Definition VpfEnhanced : Z := 1.
Definition VpfRelative : Z := 2.
Definition VpfAbsolute : Z := 3.

(** encoding/tpdu/validityperiod.go:194-212 [EnhancedValidityPeriodFormat]. *)
Definition EvpfNotPresent : Z := 0.
Definition EvpfRelative : Z := 1.
Definition EvpfRelativeSeconds : Z := 2.
Definition EvpfRelativeHHMMSS : Z := 3.

(** encoding/tpdu/validityperiod.go:15-20 [ValidityPeriod]. *)
Record validity := { vp_format : Z; vp_time : gotime; vp_duration : Z; vp_efi : Z }.

Definition vp_zero : validity :=
  {| vp_format := 0; vp_time := zero_time; vp_duration := 0; vp_efi := 0 |}.

(** encoding/tpdu/validityperiod.go:28-50 [SetAbsolute], [SetRelative],
    [SetEnhanced]. *)
Definition vp_absolute (t : gotime) : validity :=
  {| vp_format := VpfAbsolute; vp_time := t; vp_duration := 0; vp_efi := 0 |}.
Definition vp_relative (d : Z) : validity :=
  {| vp_format := VpfRelative; vp_time := zero_time; vp_duration := d; vp_efi := 0 |}.
Definition vp_enhanced (d efi : Z) : validity :=
  {| vp_format := VpfEnhanced; vp_time := zero_time; vp_duration := d; vp_efi := efi |}.

(** encoding/tpdu/validityperiod.go:214-231 [durationToRelative].  All
    arithmetic after the conversion is on bytes. *)
Definition duration_to_relative (d : Z) : Z :=
  if d <? 12 * ns_hour then
    let t := to_byte (Z.quot d (5 * ns_minute)) in
    if 1 <? t then t - 1 else t
  else if d <? 24 * ns_hour then to_byte (119 + to_byte (Z.quot d (30 * ns_minute)))
  else if d <? 30 * ns_day then to_byte (166 + to_byte (Z.quot d ns_day))
  else if d <? 63 * ns_week then to_byte (192 + to_byte (Z.quot d ns_week))
  else 255.

(** encoding/tpdu/validityperiod.go:233-244 [relativeToDuration]. *)
Definition relative_to_duration (t : Z) : Z :=
  if t <? 144 then 5 * ns_minute * to_byte (t + 1)
  else if t <? 168 then 30 * ns_minute * to_byte (t - 119)
  else if t <? 197 then ns_day * to_byte (t - 166)
  else ns_week * to_byte (t - 192).

(** encoding/tpdu/validityperiod.go:53-92 [ValidityPeriod.MarshalBinary]. *)
Definition vp_marshal (v : validity) : res bytes :=
  if vp_format v =? VpfAbsolute then ts_marshal (vp_time v)
  else if vp_format v =? VpfEnhanced then
    let evpf := Z.land (vp_efi v) 7 in
    let d := vp_duration v in
    if EvpfRelativeHHMMSS <? evpf then Err (encode_error "fi" ErrInvalid)
    else if evpf =? EvpfRelative then
      Ok [vp_efi v; duration_to_relative d; 0; 0; 0; 0; 0]
    else if evpf =? EvpfRelativeSeconds then
      let secs := Z.quot d ns_second in
      let secs := if 255 <? secs then 255 else secs in
      Ok [vp_efi v; to_byte secs; 0; 0; 0; 0; 0]
    else if evpf =? EvpfRelativeHHMMSS then
      h <- on_err (bcd_encode (Z.rem (in_units ns_hour d) 100)) (encode_error "enhanced") ;;
      m <- on_err (bcd_encode (Z.rem (in_units ns_minute d) 60)) (encode_error "enhanced") ;;
      s <- on_err (bcd_encode (Z.rem (in_units ns_second d) 60)) (encode_error "enhanced") ;;
      Ok [vp_efi v; h; m; s; 0; 0; 0]
    else Ok [vp_efi v; 0; 0; 0; 0; 0; 0]
  else if vp_format v =? VpfRelative then Ok [duration_to_relative (vp_duration v)]
  else if vp_format v =? VpfNotPresent then Ok []
  else Err (encode_error "vpf" ErrInvalid).

(** encoding/tpdu/validityperiod.go:158-162, the zero-fill check:
    src[i] for i = used+1 .. 6. *)
Fixpoint check_fill (src : bytes) (i : Z) (n : nat) : res unit :=
  match n with
  | O => Ok tt
  | S n' =>
      b <- idx src i ;;
      if negb (b =? 0) then Err (new_decode_error "enhanced" i ErrNonZero)
      else check_fill src (i + 1) n'
  end.

(** encoding/tpdu/validityperiod.go:128-166 [unmarshalVPEnhanced]: the EFI and
    duration stored on success (7 octets are then used). *)
Definition vp_unmarshal_enhanced (src : bytes) : res (Z * Z) :=
  if len src <? 7 then Err ErrUnderflow else
  efi <- idx src 0 ;;
  let evpf := Z.land efi 7 in
  '(d, used) <-
    (if evpf =? EvpfNotPresent then Ok (0, 0)
     else if evpf =? EvpfRelative then
       b <- idx src 1 ;; Ok (relative_to_duration b, 1)
     else if evpf =? EvpfRelativeSeconds then
       b <- idx src 1 ;; Ok (ns_second * b, 1)
     else if evpf =? EvpfRelativeHHMMSS then
       b1 <- idx src 1 ;; h <- on_err (bcd_decode b1) (new_decode_error "enhanced" 1) ;;
       b2 <- idx src 2 ;; m <- on_err (bcd_decode b2) (new_decode_error "enhanced" 1) ;;
       b3 <- idx src 3 ;; s <- on_err (bcd_decode b3) (new_decode_error "enhanced" 1) ;;
       Ok (h * ns_hour + m * ns_minute + s * ns_second, 3)
     else Err (new_decode_error "enhanced" 0 ErrInvalid)) ;;
  _ <- check_fill src (used + 1) (Z.to_nat (6 - used)) ;;
  Ok (efi, d).

(** encoding/tpdu/validityperiod.go:98-126 [ValidityPeriod.UnmarshalBinary].
    [v] is the receiver before the call: fields not written are kept. *)
Definition vp_unmarshal (v : validity) (src : bytes) (vpf : Z) : res (validity * Z) :=
  if vpf =? VpfAbsolute then
    t <- ts_unmarshal src ;;
    Ok ({| vp_format := vpf; vp_time := t; vp_duration := vp_duration v;
           vp_efi := vp_efi v |}, 7)
  else if vpf =? VpfEnhanced then
    '(efi, d) <- vp_unmarshal_enhanced src ;;
    Ok ({| vp_format := vpf; vp_time := vp_time v; vp_duration := d;
           vp_efi := efi |}, 7)
  else if vpf =? VpfRelative then
    if len src <? 1 then Err ErrUnderflow else
    b <- idx src 0 ;;
    Ok ({| vp_format := vpf; vp_time := vp_time v;
           vp_duration := relative_to_duration b; vp_efi := vp_efi v |}, 1)
  else if vpf =? VpfNotPresent then
    Ok ({| vp_format := VpfNotPresent; vp_time := vp_time v;
           vp_duration := vp_duration v; vp_efi := vp_efi v |}, 0)
  else Err (new_decode_error "vpf" 0 ErrInvalid).
