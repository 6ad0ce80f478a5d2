(** UnmarshalBinary once more, on slices that share memory (see Heap.v).  The
    values are those of Tpdu.v and PduMode.v; what is added is in which arrays the
    octets of the results are. *)
From Verif Require Import GoBase Dcs FirstOctet TpduError Address GoTime ValidityPeriod UserData Tpdu Sms PduMode Heap.

(** encoding/tpdu/userdata.go:28-31 [InformationElement]. *)
Record rie := { ri_id : Z; ri_data : gslice }.
(** encoding/tpdu/tpdu.go:17-113 [TPDU]: [rt_rest] holds the fields other than
    UDH and UD (its own ones are not used).  The slice of elements is a value
    here: it is built by append from nil (encoding/tpdu/userdata.go:78-94), so nothing else is in
    its array.  Addresses are strings and cannot change. *)
Record rtpdu := { rt_rest : tpdu; rt_udh : option (list rie); rt_ud : gslice }.

(** What they hold, given the octets in memory. *)
Definition ie_held (h : heap Z) (i : rie) : ie := {| ie_id := ri_id i; ie_data := view h (ri_data i) |}.
Definition rt_held (h : heap Z) (t : rtpdu) : tpdu :=
  set_UDHf (set_UDf (rt_rest t) (view h (rt_ud t))) (option_map (map (ie_held h)) (rt_udh t)).

(** All slices of octets a TPDU has. *)
Definition rt_slices (t : rtpdu) : list gslice :=
  match rt_udh t with Some l => map ri_data l | None => [] end ++ [rt_ud t].

(** [if err != nil { return err }] where memory has been allocated before, e.g.
    encoding/tpdu/tpdu.go:863-866. *)
Definition htry {A B} (h : heap Z) (r : res A) (k : A -> heap Z * res B) : heap Z * res B :=
  match r with
  | Ok a => k a
  | Err e => (h, Err e)
  | Panic => (h, Panic)
  | Diverge => (h, Diverge)
  end.
Definition hbind {A B} (r : heap Z * res A) (k : heap Z -> A -> heap Z * res B) : heap Z * res B :=
  htry (fst r) (snd r) (k (fst r)).

(** encoding/tpdu/userdata.go:79-94, the loop of UnmarshalBinary; line 91 copies
    the data of the element. *)
Fixpoint h_udh_loop (grow : nat -> nat -> nat) (junk : Z) (fuel : nat) (h : heap Z) (src : gslice) (lim ri : Z)
  : heap Z * res (list rie) :=
  if negb (ri <? lim) then (h, Ok []) else
  match fuel with
  | O => (h, Diverge)
  | S fuel' =>
      if lim <? ri + 2 then (h, Err (new_decode_error "ie" ri ErrUnderflow)) else
      htry h (idx (view h src) ri) (fun id =>
      let ri := ri + 1 in
      htry h (idx (view h src) ri) (fun iedl =>
      let ri := ri + 1 in
      if len (view h src) <? ri + iedl then (h, Err (new_decode_error "ied" ri ErrUnderflow)) else
      htry h (slice (view h src) ri (ri + iedl)) (fun data =>
      let (h, s) := gappend grow junk h nil_slice data in
      hbind (h_udh_loop grow junk fuel' h src lim (ri + iedl)) (fun h rest =>
      (h, Ok ({| ri_id := id; ri_data := s |} :: rest))))))
  end.

(** encoding/tpdu/userdata.go:68-97 [UserDataHeader.UnmarshalBinary]. *)
Definition h_udh_unmarshal (grow : nat -> nat -> nat) (junk : Z) (h : heap Z) (src : gslice)
  : heap Z * res (option (list rie) * Z) :=
  if len (view h src) <? 1 then (h, Err (new_decode_error "udhl" 0 ErrUnderflow)) else
  htry h (idx (view h src) 0) (fun b =>
  let lim := b + 1 in
  let ri := 1 in
  if len (view h src) <? lim then (h, Err (new_decode_error "ie" ri ErrUnderflow)) else
  hbind (h_udh_loop grow junk (length (view h src)) h src lim ri) (fun h l =>
  (h, Ok ((match l with [] => None | _ => Some l end), lim)))).

(** Go slice expression [s[lo:]], e.g. encoding/tpdu/tpdu.go:862. *)
Definition tail_from (s : gslice) (lo : Z) : gslice := reslice s (Z.to_nat lo) (s_len s).

(** The new error of a call that has allocated memory, e.g.
    encoding/tpdu/tpdu.go:864. *)
Definition hon_err {A} (r : heap Z * res A) (f : gerr -> gerr) : heap Z * res A := (fst r, on_err (snd r) f).

(** encoding/tpdu/tpdu.go:833-891 [decodeUserData]: 8-bit and UCS-2 user data is
    copied (line 887), septets are unpacked to a new array
    (encoding/gsm7/7bit.go:54).  What [sm[:sml]] and [u[1:]] cut from that array is
    only left out here: nothing else is in it. *)
Definition h_decode_ud (grow : nat -> nat -> nat) (junk : Z) (h : heap Z) (t : tpdu) (src : gslice)
  : heap Z * res rtpdu :=
  let v := view h src in
  let unchanged := {| rt_rest := t; rt_udh := None; rt_ud := nil_slice |} in
  if len v <? 1 then (h, Err (new_decode_error "udl" 0 ErrUnderflow)) else
  htry h (idx v 0) (fun udl =>
  if udl =? 0 then (h, Ok unchanged) else
  let ri := 1 in
  htry h (on_err (tpdu_alphabet t) (new_decode_error "alphabet" ri)) (fun alphabet =>
  let sml7 := if alphabet =? Alpha7Bit then udl else 0 in
  let udl := if alphabet =? Alpha7Bit then (sml7 * 7 + 7) / 8 else udl in
  if len v <? ri + udl then (h, Err (new_decode_error "sm" ri ErrUnderflow))
  else if ri + udl <? len v then (h, Err (new_decode_error "ud" ri ErrOverlength))
  else
    hbind (if fo_udhi (FO t) then
             hon_err (h_udh_unmarshal grow junk h (tail_from src ri)) (new_decode_error "udh" ri)
           else (h, Ok (None, 0))) (fun h uh =>
    let '(u, hl) := uh in
    let ri := ri + hl in
    if ri =? len v then (h, Ok {| rt_rest := t; rt_udh := u; rt_ud := nil_slice |}) else
    htry h (slice_from v ri) (fun s =>
    if alphabet =? Alpha7Bit then
      htry h (on_err (decode_7bit sml7 hl s) (new_decode_error "sm" ri)) (fun sm =>
      let (h, d) := gappend grow junk h nil_slice sm in
      (h, Ok {| rt_rest := t; rt_udh := u; rt_ud := d |}))
    else if (alphabet =? AlphaUCS2) && (Z.land (len s) 1 =? 1)
    then (h, Err (new_decode_error "sm" ri ErrOddUCS2Length))
    else
      let (h, d) := gappend grow junk h nil_slice s in
      (h, Ok {| rt_rest := t; rt_udh := u; rt_ud := d |}))))).

(** The parts before the user data allocate nothing that is kept: the fields
    are numbers, times and strings.  They return the offset of the user data, or
    [None] if there is none. *)

(** encoding/tpdu/tpdu.go:597-625 [unmarshalCommand]. *)
Definition head_command (t : tpdu) (src : bytes) : res (tpdu * option Z) :=
  '(x, b) <- read_byte "mr" (len src - len src) src ;;
  let t := set_MR t x in
  '(x, b) <- read_byte "pid" (len src - len b) b ;;
  let t := set_PIDf t x in
  '(x, b) <- read_byte "ct" (len src - len b) b ;;
  let t := set_CT t x in
  '(x, b) <- read_byte "mn" (len src - len b) b ;;
  let t := set_MN t x in
  '(a, n) <- on_err (addr_unmarshal b) (new_decode_error "da" (len src - len b)) ;;
  let t := set_DA t a in
  let b := buf_next n b in
  Ok (set_DCSf t Dcs8BitData, Some (len src - len b)).

(** encoding/tpdu/tpdu.go:628-652 [unmarshalDeliver]. *)
Definition head_deliver (t : tpdu) (src : bytes) : res (tpdu * option Z) :=
  '(a, n) <- on_err (addr_unmarshal src) (new_decode_error "oa" 0) ;;
  let t := set_OA t a in
  b <- slice_from src n ;;
  '(x, b) <- read_byte "pid" (len src - len b) b ;;
  let t := set_PIDf t x in
  '(x, b) <- read_byte "dcs" (len src - len b) b ;;
  let t := set_DCSf t x in
  ts <- on_err (ts_unmarshal b) (new_decode_error "scts" (len src - len b)) ;;
  let t := set_SCTS t ts in
  let b := buf_next 7 b in
  Ok (t, Some (len src - len b)).

(** encoding/tpdu/tpdu.go:667-687, 733-753 and 809-829. *)
Definition head_optionals (t : tpdu) (src : bytes) (ri : Z) : res (tpdu * option Z) :=
  '(t, ri) <-
    (if pi_pid (PI t) then
       if len src <=? ri then Err (new_decode_error "pid" ri ErrUnderflow)
       else x <- idx src ri ;; Ok (set_PIDf t x, ri + 1)
     else Ok (t, ri)) ;;
  '(t, ri) <-
    (if pi_dcs (PI t) then
       if len src <=? ri then Err (new_decode_error "dcs" ri ErrUnderflow)
       else x <- idx src ri ;; Ok (set_DCSf t x, ri + 1)
     else Ok (t, ri)) ;;
  Ok (t, if pi_udl (PI t) then Some ri else None).

(** encoding/tpdu/tpdu.go:655-688 [unmarshalDeliverReport]. *)
Definition head_deliver_report (t : tpdu) (src : bytes) : res (tpdu * option Z) :=
  let ri := 0 in
  if len src <=? ri then Err (new_decode_error "fcs" ri ErrUnderflow) else
  x <- idx src ri ;;
  let t := set_FCS t x in
  let ri := ri + 1 in
  if len src <=? ri then Err (new_decode_error "pi" ri ErrUnderflow) else
  x <- idx src ri ;;
  let t := set_PI t x in
  let ri := ri + 1 in
  head_optionals t src ri.

(** encoding/tpdu/tpdu.go:690-754 [unmarshalStatusReport] and
    [unmarshalSROptionals]. *)
Definition head_status_report (t : tpdu) (src : bytes) : res (tpdu * option Z) :=
  let ri := 0 in
  if len src <=? ri then Err (new_decode_error "mr" ri ErrUnderflow) else
  x <- idx src ri ;;
  let t := set_MR t x in
  let ri := ri + 1 in
  s <- slice_from src ri ;;
  '(a, n) <- on_err (addr_unmarshal s) (new_decode_error "ra" ri) ;;
  let t := set_RA t a in
  let ri := ri + n in
  if len src <? ri + 7 then Err (new_decode_error "scts" ri ErrUnderflow) else
  s <- slice src ri (ri + 7) ;;
  ts <- on_err (ts_unmarshal s) (new_decode_error "scts" ri) ;;
  let t := set_SCTS t ts in
  let ri := ri + 7 in
  if len src <? ri + 7 then Err (new_decode_error "dt" ri ErrUnderflow) else
  s <- slice src ri (ri + 7) ;;
  ts <- on_err (ts_unmarshal s) (new_decode_error "dt" ri) ;;
  let t := set_DT t ts in
  let ri := ri + 7 in
  if len src <=? ri then Err (new_decode_error "st" ri ErrUnderflow) else
  x <- idx src ri ;;
  let t := set_ST t x in
  let ri := ri + 1 in
  if ri <? len src then
    x <- idx src ri ;;
    let t := set_PI t x in
    head_optionals t src (ri + 1)
  else Ok (t, None).

(** encoding/tpdu/tpdu.go:756-786 [unmarshalSubmit]. *)
Definition head_submit (t : tpdu) (src : bytes) : res (tpdu * option Z) :=
  if len src <? 1 then Err (new_decode_error "mr" 0 ErrUnderflow) else
  x <- idx src 0 ;;
  let t := set_MR t x in
  let ri := 1 in
  s <- slice_from src ri ;;
  '(a, n) <- on_err (addr_unmarshal s) (new_decode_error "da" ri) ;;
  let t := set_DA t a in
  let ri := ri + n in
  if len src <=? ri then Err (new_decode_error "pid" ri ErrUnderflow) else
  x <- idx src ri ;;
  let t := set_PIDf t x in
  let ri := ri + 1 in
  if len src <=? ri then Err (new_decode_error "dcs" ri ErrUnderflow) else
  x <- idx src ri ;;
  let t := set_DCSf t x in
  let ri := ri + 1 in
  s <- slice_from src ri ;;
  '(v, n) <- on_err (vp_unmarshal (VP t) s (fo_vpf (FO t))) (new_decode_error "vp" ri) ;;
  let t := set_VPf t v in
  Ok (t, Some (ri + n)).

(** encoding/tpdu/tpdu.go:789-830 [unmarshalSubmitReport]. *)
Definition head_submit_report (t : tpdu) (src : bytes) : res (tpdu * option Z) :=
  let ri := 0 in
  if len src <? 1 then Err (new_decode_error "fcs" ri ErrUnderflow) else
  x <- idx src ri ;;
  let t := set_FCS t x in
  let ri := ri + 1 in
  if len src <=? ri then Err (new_decode_error "pi" ri ErrUnderflow) else
  x <- idx src ri ;;
  let t := set_PI t x in
  let ri := ri + 1 in
  if len src <? ri + 7 then Err (new_decode_error "scts" ri ErrUnderflow) else
  s <- slice src ri (ri + 7) ;;
  ts <- on_err (ts_unmarshal s) (new_decode_error "scts" ri) ;;
  let t := set_SCTS t ts in
  let ri := ri + 7 in
  head_optionals t src ri.

(** The switch of encoding/tpdu/tpdu.go:574-590, up to the user data. *)
Definition head (t : tpdu) (src : bytes) : res (tpdu * option Z) :=
  let st := tpdu_type t in
  if st =? SmsDeliver then head_deliver t src
  else if st =? SmsDeliverReport then head_deliver_report t src
  else if st =? SmsSubmitReport then head_submit_report t src
  else if st =? SmsSubmit then head_submit t src
  else if st =? SmsStatusReport then head_status_report t src
  else head_command t src.

(** The last statements of the same functions, e.g. encoding/tpdu/tpdu.go:782-786:
    [decodeUserData] is given [src[ri:]]. *)
Definition h_finish (grow : nat -> nat -> nat) (junk : Z) (h : heap Z) (src : gslice) (tr : tpdu * option Z)
  : heap Z * res rtpdu :=
  match snd tr with
  | None => (h, Ok {| rt_rest := fst tr; rt_udh := None; rt_ud := nil_slice |})
  | Some ri =>
      htry h (slice_from (view h src) ri) (fun _ =>
      hon_err (h_decode_ud grow junk h (fst tr) (tail_from src ri)) (new_decode_error "ud" ri))
  end.

(** encoding/tpdu/tpdu.go:568-595 [TPDU.UnmarshalBinary] on a receiver [t] without
    header and user data. *)
Definition h_tpdu_unmarshal (grow : nat -> nat -> nat) (junk : Z) (h : heap Z) (t : tpdu) (src : gslice)
  : heap Z * res rtpdu :=
  if len (view h src) <? 1 then (h, Err (new_decode_error "tpdu.firstOctet" 0 ErrUnderflow)) else
  htry h (idx (view h src) 0) (fun fo =>
  let t := set_FO t fo in
  let st := tpdu_type t in
  if (0 <=? st) && (st <=? 5) then
    let s := tail_from src 1 in
    hon_err (htry h (head t (view h s)) (h_finish grow junk h s)) (new_decode_error (sms_type_string st) 1)
  else (h, Err (new_decode_error "tpdu.firstOctet" 0 (ErrUnsupportedSmsType st)))).

(** sms.go:100-111 [Unmarshal]: a new TPDU is read into. *)
Definition h_unmarshal (grow : nat -> nat -> nat) (junk : Z) (h : heap Z) (src : gslice) (mo : bool)
  : heap Z * res rtpdu :=
  h_tpdu_unmarshal grow junk h (set_Direction zero_tpdu (if mo then MO else MT)) src.

(** encoding/pdumode/pdu.go:12-18 [PDU], and 45-52 [PDU.UnmarshalBinary] for
    23-31: [p.TPDU = src[n:]], line 50, copies nothing. *)
Record rpdu := { rp_smsc : address; rp_tpdu : gslice }.
Definition rp_held (h : heap Z) (p : rpdu) : pdu := {| p_smsc := rp_smsc p; p_tpdu := view h (rp_tpdu p) |}.
Definition h_pdu_unmarshal (h : heap Z) (src : gslice) : res rpdu :=
  '(a, n) <- smsc_unmarshal (p_smsc zero_pdu) (view h src) ;;
  _ <- slice_from (view h src) n ;;
  Ok {| rp_smsc := a; rp_tpdu := tail_from src n |}.
