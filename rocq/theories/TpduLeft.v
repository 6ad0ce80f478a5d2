(** Model of what UnmarshalBinary leaves in its receiver, also when it fails:
    encoding/tpdu/tpdu.go:564-595, "In the case of error the TPDU will be
    partially unmarshalled, up to the point that the decoding error was
    detected."  Tpdu.v models the same functions with the receiver dropped on
    error; here each returns the receiver and the outcome. *)
From Verif Require Import GoBase Dcs FirstOctet TpduError Address GoTime ValidityPeriod UserData Tpdu.

(** A call that takes a value from a helper, or returns its error with the
    receiver as it is: [if err != nil { return ... }], e.g.
    encoding/tpdu/tpdu.go:615-618. *)
Definition try {A} (t : tpdu) (r : res A) (k : A -> tpdu * res unit) : tpdu * res unit :=
  match r with
  | Ok a => k a
  | Err e => (t, Err e)
  | Panic => (t, Panic)
  | Diverge => (t, Diverge)
  end.

(** [t.F, err = b.ReadByte()], encoding/tpdu/tpdu.go:599, 603, 607, 611 and
    634: ReadByte returns 0 with io.EOF, and the 0 is assigned. *)
Definition read_into (set : tpdu -> Z -> tpdu) (field : string) (off : Z) (t : tpdu) (b : bytes)
    (k : tpdu -> bytes -> tpdu * res unit) : tpdu * res unit :=
  match b with
  | x :: b' => k (set t x) b'
  | [] => (set t 0, Err (new_decode_error field off EOF))
  end.

(** encoding/tpdu/tpdu.go:833-891 [decodeUserData]: t.UD and t.UDH are assigned
    after the last check. *)
Definition left_ud (t : tpdu) (src : bytes) (off : Z) : tpdu * res unit :=
  try t (on_err (decode_ud t src) (new_decode_error "ud" off)) (fun t' => (t', Ok tt)).

(** encoding/tpdu/tpdu.go:597-626 [unmarshalCommand].  Address.UnmarshalBinary
    (address.go:75-115) assigns after its last check. *)
Definition left_command (t : tpdu) (src : bytes) : tpdu * res unit :=
  read_into set_MR "mr" (len src - len src) t src (fun t b =>
  read_into set_PIDf "pid" (len src - len b) t b (fun t b =>
  read_into set_CT "ct" (len src - len b) t b (fun t b =>
  read_into set_MN "mn" (len src - len b) t b (fun t b =>
  try t (on_err (addr_unmarshal b) (new_decode_error "da" (len src - len b))) (fun an =>
  let t := set_DA t (fst an) in
  let b := buf_next (snd an) b in
  let t := set_DCSf t Dcs8BitData in
  left_ud t b (len src - len b)))))).

(** encoding/tpdu/tpdu.go:628-653 [unmarshalDeliver].  Timestamp.UnmarshalBinary
    (timestamp.go:45-76) assigns after its last check. *)
Definition left_deliver (t : tpdu) (src : bytes) : tpdu * res unit :=
  try t (on_err (addr_unmarshal src) (new_decode_error "oa" 0)) (fun an =>
  let t := set_OA t (fst an) in
  try t (slice_from src (snd an)) (fun b =>
  read_into set_PIDf "pid" (len src - len b) t b (fun t b =>
  try t (read_byte "dcs" (len src - len b) b) (fun xb =>
  let t := set_DCSf t (fst xb) in
  let b := snd xb in
  try t (on_err (ts_unmarshal b) (new_decode_error "scts" (len src - len b))) (fun ts =>
  let t := set_SCTS t ts in
  let b := buf_next 7 b in
  left_ud t b (len src - len b)))))).

(** The optional trailing fields of the reports,
    encoding/tpdu/tpdu.go:667-687, 733-753 and 809-829. *)
Definition left_optionals (t : tpdu) (src : bytes) (ri : Z) : tpdu * res unit :=
  try t (if pi_pid (PI t) then
           if len src <=? ri then Err (new_decode_error "pid" ri ErrUnderflow)
           else x <- idx src ri ;; Ok (set_PIDf t x, ri + 1)
         else Ok (t, ri)) (fun tr =>
  let '(t, ri) := tr in
  try t (if pi_dcs (PI t) then
           if len src <=? ri then Err (new_decode_error "dcs" ri ErrUnderflow)
           else x <- idx src ri ;; Ok (set_DCSf t x, ri + 1)
         else Ok (t, ri)) (fun tr =>
  let '(t, ri) := tr in
  if pi_udl (PI t) then try t (slice_from src ri) (fun s => left_ud t s ri)
  else (t, Ok tt))).

(** encoding/tpdu/tpdu.go:655-688 [unmarshalDeliverReport]. *)
Definition left_deliver_report (t : tpdu) (src : bytes) : tpdu * res unit :=
  let ri := 0 in
  if len src <=? ri then (t, Err (new_decode_error "fcs" ri ErrUnderflow)) else
  try t (idx src ri) (fun x =>
  let t := set_FCS t x in
  let ri := ri + 1 in
  if len src <=? ri then (t, Err (new_decode_error "pi" ri ErrUnderflow)) else
  try t (idx src ri) (fun x =>
  let t := set_PI t x in
  let ri := ri + 1 in
  left_optionals t src ri)).

(** encoding/tpdu/tpdu.go:690-754 [unmarshalStatusReport] and
    [unmarshalSROptionals]. *)
Definition left_status_report (t : tpdu) (src : bytes) : tpdu * res unit :=
  let ri := 0 in
  if len src <=? ri then (t, Err (new_decode_error "mr" ri ErrUnderflow)) else
  try t (idx src ri) (fun x =>
  let t := set_MR t x in
  let ri := ri + 1 in
  try t (slice_from src ri) (fun s =>
  try t (on_err (addr_unmarshal s) (new_decode_error "ra" ri)) (fun an =>
  let t := set_RA t (fst an) in
  let ri := ri + snd an in
  if len src <? ri + 7 then (t, Err (new_decode_error "scts" ri ErrUnderflow)) else
  try t (slice src ri (ri + 7)) (fun s =>
  try t (on_err (ts_unmarshal s) (new_decode_error "scts" ri)) (fun ts =>
  let t := set_SCTS t ts in
  let ri := ri + 7 in
  if len src <? ri + 7 then (t, Err (new_decode_error "dt" ri ErrUnderflow)) else
  try t (slice src ri (ri + 7)) (fun s =>
  try t (on_err (ts_unmarshal s) (new_decode_error "dt" ri)) (fun ts =>
  let t := set_DT t ts in
  let ri := ri + 7 in
  if len src <=? ri then (t, Err (new_decode_error "st" ri ErrUnderflow)) else
  try t (idx src ri) (fun x =>
  let t := set_ST t x in
  let ri := ri + 1 in
  if ri <? len src then
    try t (idx src ri) (fun x =>
    let t := set_PI t x in
    left_optionals t src (ri + 1))
  else (t, Ok tt))))))))).

(** encoding/tpdu/validityperiod.go:99: [v.Format = VpfNotPresent]. *)
Definition vp_cleared (v : validity) : validity :=
  {| vp_format := VpfNotPresent; vp_time := vp_time v; vp_duration := vp_duration v; vp_efi := vp_efi v |}.

(** encoding/tpdu/tpdu.go:756-787 [unmarshalSubmit].
    ValidityPeriod.UnmarshalBinary (validityperiod.go:98-126) clears the format
    first (line 99) and assigns the rest after its last check. *)
Definition left_submit (t : tpdu) (src : bytes) : tpdu * res unit :=
  if len src <? 1 then (t, Err (new_decode_error "mr" 0 ErrUnderflow)) else
  try t (idx src 0) (fun x =>
  let t := set_MR t x in
  let ri := 1 in
  try t (slice_from src ri) (fun s =>
  try t (on_err (addr_unmarshal s) (new_decode_error "da" ri)) (fun an =>
  let t := set_DA t (fst an) in
  let ri := ri + snd an in
  if len src <=? ri then (t, Err (new_decode_error "pid" ri ErrUnderflow)) else
  try t (idx src ri) (fun x =>
  let t := set_PIDf t x in
  let ri := ri + 1 in
  if len src <=? ri then (t, Err (new_decode_error "dcs" ri ErrUnderflow)) else
  try t (idx src ri) (fun x =>
  let t := set_DCSf t x in
  let ri := ri + 1 in
  try t (slice_from src ri) (fun s =>
  let t := set_VPf t (vp_cleared (VP t)) in
  try t (on_err (vp_unmarshal (VP t) s (fo_vpf (FO t))) (new_decode_error "vp" ri)) (fun vn =>
  let t := set_VPf t (fst vn) in
  let ri := ri + snd vn in
  try t (slice_from src ri) (fun s => left_ud t s ri)))))))).

(** encoding/tpdu/tpdu.go:789-830 [unmarshalSubmitReport]. *)
Definition left_submit_report (t : tpdu) (src : bytes) : tpdu * res unit :=
  let ri := 0 in
  if len src <? 1 then (t, Err (new_decode_error "fcs" ri ErrUnderflow)) else
  try t (idx src ri) (fun x =>
  let t := set_FCS t x in
  let ri := ri + 1 in
  if len src <=? ri then (t, Err (new_decode_error "pi" ri ErrUnderflow)) else
  try t (idx src ri) (fun x =>
  let t := set_PI t x in
  let ri := ri + 1 in
  if len src <? ri + 7 then (t, Err (new_decode_error "scts" ri ErrUnderflow)) else
  try t (slice src ri (ri + 7)) (fun s =>
  try t (on_err (ts_unmarshal s) (new_decode_error "scts" ri)) (fun ts =>
  let t := set_SCTS t ts in
  let ri := ri + 7 in
  left_optionals t src ri)))).

(** encoding/tpdu/tpdu.go:568-595 [TPDU.UnmarshalBinary]: the receiver after the
    call, and whether it failed. *)
Definition unmarshal_left (t : tpdu) (src : bytes) : tpdu * res unit :=
  if len src <? 1 then (t, Err (new_decode_error "tpdu.firstOctet" 0 ErrUnderflow)) else
  try t (idx src 0) (fun fo =>
  let t := set_FO t fo in
  let st := tpdu_type t in
  try t (slice_from src 1) (fun s =>
  let wrap lr := (fst lr, on_err (snd lr) (new_decode_error (sms_type_string st) 1)) in
  if st =? SmsDeliver then wrap (left_deliver t s)
  else if st =? SmsDeliverReport then wrap (left_deliver_report t s)
  else if st =? SmsSubmitReport then wrap (left_submit_report t s)
  else if st =? SmsSubmit then wrap (left_submit t s)
  else if st =? SmsStatusReport then wrap (left_status_report t s)
  else if st =? SmsCommand then wrap (left_command t s)
  else (set_FO t 0, Err (new_decode_error "tpdu.firstOctet" 0 (ErrUnsupportedSmsType st))))).
