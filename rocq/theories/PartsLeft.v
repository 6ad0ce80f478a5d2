(** Model of all that UnmarshalBinary of a part of a TPDU, and of a PDU, says and
    leaves behind, also when it fails: the value it was called on, the number of
    octets it reports and the outcome.  Address.v, GoTime.v, ValidityPeriod.v,
    UserData.v and PduMode.v model the same functions with the value and the
    number dropped on error. *)
From Verif Require Import GoBase Utf Gsm7 SevenBit Bcd Semioctet TpduError Address GoTime ValidityPeriod UserData PduMode.

(** The receiver, the number and the outcome. *)
Definition after (R : Type) : Type := R * Z * res unit.

(** A value from a helper, or its failure with the receiver and number as they
    are: [if err != nil { return n, ... }], e.g. encoding/tpdu/address.go:98-100.
    Also an index or slice expression, which may panic. *)
Definition or_leave {R A} (r : R) (n : Z) (x : res A) (k : A -> after R) : after R :=
  match x with
  | Ok a => k a
  | Err e => (r, n, Err e)
  | Panic => (r, n, Panic)
  | Diverge => (r, n, Diverge)
  end.

(** encoding/semioctet/semioctet.go:24-45 [Decode], with the number of octets
    read also when the fill is missing. *)
Fixpoint semi_reads_loop (dlen : Z) (src : bytes) (out : list Z) (ri : Z) : Z * res (list Z) :=
  if negb (len out <? dlen) then (ri, Ok out) else
  match src with
  | [] => (ri, Ok out)
  | o :: src' =>
      match idx decode_digits (Z.land o 15), idx decode_digits (Z.shiftr o 4) with
      | Ok lo, Ok hi =>
          let out := if negb (lo =? fillF) then out ++ [lo] else out in
          let ri := ri + 1 in
          if (len out =? dlen) && negb (hi =? fillF) then (ri, Err SemiMissingFill)
          else if hi =? fillF then semi_reads_loop dlen src' out ri
          else if len out <? dlen then semi_reads_loop dlen src' (out ++ [hi]) ri
          else (ri, Panic)
      | _, _ => (ri, Panic)
      end
  end.
Definition semi_reads (dlen : Z) (src : bytes) : Z * res (list Z) := semi_reads_loop dlen src [] 0.

(** encoding/tpdu/address.go:77-116 [Address.UnmarshalBinary]: a.Addr is
    assigned at 102 or 112 and a.TOA at 114, with no return between. *)
Definition addr_left (a : address) (src : bytes) : after address :=
  if len src <? 2 then (a, 0, Err (new_decode_error "addr" 0 ErrUnderflow)) else
  or_leave a 0 (idx src 0) (fun l =>
  let ol := (l + 1) / 2 in
  or_leave a 0 (idx src 1) (fun toa =>
  let ri := 2 in
  if len src <? ri + ol then (a, len src, Err (new_decode_error "addr" ri ErrUnderflow)) else
  or_leave a 0 (slice src ri (ri + ol)) (fun body =>
  if toa_ton toa =? TonAlphanumeric then
    let u := unpack7bit body 0 in
    or_leave a ri (if l <? (len u * 7 + 3) / 4 then slice u 0 (len u - 1) else Ok u) (fun u =>
    or_leave a ri (on_err (gsm7_decode addr_gsm7_decoder u) (new_decode_error "addr" ri)) (fun baddr =>
    ({| a_toa := toa; a_addr := baddr |}, ri + ol, Ok tt)))
  else
    let '(n, r) := semi_reads l body in
    let ri := ri + n in
    or_leave a ri (on_err r (new_decode_error "addr" (ri - n))) (fun baddr =>
    if negb (n =? ol) || (len baddr <? l)
    then (a, ri, Err (new_decode_error "addr" (ri - n) ErrUnderflow))
    else ({| a_toa := toa; a_addr := baddr |}, ri, Ok tt))))).

(** encoding/tpdu/timestamp.go:45-76 [Timestamp.UnmarshalBinary], which reports
    no number: t.Time is assigned at 73, after the last return of an error. *)
Definition ts_left (t : gotime) (src : bytes) : gotime * res unit :=
  match ts_unmarshal src with
  | Ok t' => (t', Ok tt)
  | Err e => (t, Err e)
  | Panic => (t, Panic)
  | Diverge => (t, Diverge)
  end.

(** The loop of encoding/tpdu/validityperiod.go:158-162: the first of src[i],
    i = from ..., that is not 0. *)
Fixpoint fill_left (v : validity) (src : bytes) (i : Z) (n : nat) (count : Z) (k : after validity) : after validity :=
  match n with
  | O => k
  | S n' =>
      or_leave v count (idx src i) (fun b =>
      if negb (b =? 0) then (v, count, Err (new_decode_error "enhanced" i ErrNonZero))
      else fill_left v src (i + 1) n' count k)
  end.

(** encoding/tpdu/validityperiod.go:128-166 [unmarshalVPEnhanced]: v.EFI and
    v.Duration are assigned at 163-164. *)
Definition enhanced_left (v : validity) (src : bytes) : after validity :=
  if len src <? 7 then (v, 0, Err ErrUnderflow) else
  or_leave v 0 (idx src 0) (fun efi =>
  let fill d used :=
    fill_left v src (used + 1) (Z.to_nat (6 - used)) (used + 1)
      ({| vp_format := vp_format v; vp_time := vp_time v; vp_duration := d; vp_efi := efi |}, 7, Ok tt) in
  let digits i k := or_leave v 4 (b <- idx src i ;; on_err (bcd_decode b) (new_decode_error "enhanced" 1)) k in
  let evpf := Z.land efi 7 in
  if evpf =? EvpfNotPresent then fill 0 0
  else if evpf =? EvpfRelative then or_leave v 0 (idx src 1) (fun b => fill (relative_to_duration b) 1)
  else if evpf =? EvpfRelativeSeconds then or_leave v 0 (idx src 1) (fun b => fill (ns_second * b) 1)
  else if evpf =? EvpfRelativeHHMMSS then
    digits 1 (fun h => digits 2 (fun m => digits 3 (fun s =>
    fill (h * ns_hour + m * ns_minute + s * ns_second) 3)))
  else (v, 7, Err (new_decode_error "enhanced" 0 ErrInvalid))).

(** [v] with another format. *)
Definition with_format (v : validity) (f : Z) : validity :=
  {| vp_format := f; vp_time := vp_time v; vp_duration := vp_duration v; vp_efi := vp_efi v |}.

(** encoding/tpdu/validityperiod.go:98-126 [ValidityPeriod.UnmarshalBinary]. *)
Definition vp_left (v : validity) (src : bytes) (vpf : Z) : after validity :=
  let v := with_format v VpfNotPresent in
  if vpf =? VpfAbsolute then
    match ts_unmarshal src with
    | Ok t => ({| vp_format := vpf; vp_time := t; vp_duration := vp_duration v; vp_efi := vp_efi v |}, 7, Ok tt)
    | Err e => (v, 7, Err e)
    | Panic => (v, 7, Panic)
    | Diverge => (v, 7, Diverge)
    end
  else if vpf =? VpfEnhanced then
    let '(v, used, r) := enhanced_left v src in
    match r with
    | Ok _ => (with_format v vpf, used, r)
    | _ => (v, used, r)
    end
  else if vpf =? VpfRelative then
    if len src <? 1 then (v, 0, Err ErrUnderflow) else
    or_leave v 0 (idx src 0) (fun b =>
    ({| vp_format := vpf; vp_time := vp_time v; vp_duration := relative_to_duration b; vp_efi := vp_efi v |}, 1, Ok tt))
  else if vpf =? VpfNotPresent then (v, 0, Ok tt)
  else (v, 0, Err (new_decode_error "vpf" 0 ErrInvalid)).

(** encoding/tpdu/userdata.go:79-96, the loop and what follows it: [ies] are the
    elements found so far, assigned to the receiver [h] at 95. *)
Fixpoint udh_left_loop (fuel : nat) (h : udh) (src : bytes) (lim ri : Z) (ies : list ie) : after udh :=
  if negb (ri <? lim) then ((match ies with [] => None | _ => Some ies end), lim, Ok tt) else
  match fuel with
  | O => (h, ri, Diverge)
  | S fuel' =>
      if lim <? ri + 2 then (h, ri, Err (new_decode_error "ie" ri ErrUnderflow)) else
      or_leave h ri (idx src ri) (fun id =>
      let ri := ri + 1 in
      or_leave h ri (idx src ri) (fun iedl =>
      let ri := ri + 1 in
      if len src <? ri + iedl then (h, ri, Err (new_decode_error "ied" ri ErrUnderflow)) else
      or_leave h ri (slice src ri (ri + iedl)) (fun data =>
      udh_left_loop fuel' h src lim (ri + iedl) (ies ++ [{| ie_id := id; ie_data := data |}]))))
  end.

(** encoding/tpdu/userdata.go:68-97 [UserDataHeader.UnmarshalBinary]. *)
Definition udh_left (h : udh) (src : bytes) : after udh :=
  if len src <? 1 then (h, 0, Err (new_decode_error "udhl" 0 ErrUnderflow)) else
  or_leave h 0 (idx src 0) (fun b =>
  let lim := b + 1 in
  let ri := 1 in
  if len src <? lim then (h, ri, Err (new_decode_error "ie" ri ErrUnderflow)) else
  udh_left_loop (length src) h src lim ri []).

(** encoding/pdumode/smscaddress.go:47-73 [SMSCAddress.UnmarshalBinary]. *)
Definition smsc_left (a : address) (src : bytes) : after address :=
  if len src <? 1 then (a, 0, Err (new_decode_error "length" 0 ErrUnderflow)) else
  or_leave a 0 (idx src 0) (fun l =>
  if l =? 0 then (a, 1, Ok tt) else
  if len src <? 2 then (a, 1, Err (new_decode_error "toa" 1 ErrUnderflow)) else
  or_leave a 0 (idx src 1) (fun toa =>
  let ri := 2 in
  let l := l - 1 in
  if len src <? ri + l then (a, len src, Err (new_decode_error "addr" ri ErrUnderflow)) else
  or_leave a 0 (slice src ri (ri + l)) (fun s =>
  let '(n, r) := semi_reads (l * 2) s in
  let ri := ri + n in
  or_leave a ri (on_err r (new_decode_error "addr" (ri - n))) (fun baddr =>
  ({| a_toa := toa; a_addr := baddr |}, ri, Ok tt))))).

(** encoding/pdumode/pdu.go:45-52 [PDU.UnmarshalBinary], which reports no
    number. *)
Definition pdu_left (p : pdu) (src : bytes) : pdu * res unit :=
  let '(a, n, r) := smsc_left (p_smsc p) src in
  let p := {| p_smsc := a; p_tpdu := p_tpdu p |} in
  match r with
  | Ok _ =>
      match slice_from src n with
      | Ok rest => ({| p_smsc := a; p_tpdu := rest |}, Ok tt)
      | Err e => (p, Err e)
      | Panic => (p, Panic)
      | Diverge => (p, Diverge)
      end
  | _ => (p, r)
  end.

(** encoding/pdumode/pdu.go:55-61 [PDU.UnmarshalHexString]. *)
Definition pdu_left_hex (p : pdu) (s : bytes) : pdu * res unit :=
  match hex_decode s with
  | Ok b => pdu_left p b
  | Err e => (p, Err e)
  | Panic => (p, Panic)
  | Diverge => (p, Diverge)
  end.
