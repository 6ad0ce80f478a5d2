(** Model of encoding/tpdu/tpdu.go: the TPDU type, its setters, and its
    conversions to and from binary.  Segmentation is in Segment.v. *)
From Verif Require Import GoBase SevenBit Dcs FirstOctet TpduError Address GoTime
     ValidityPeriod UserData.

(** encoding/tpdu/tpdu.go:17-113 [TPDU].  A nil UD and an empty UD are not
    distinguished. *)
Record tpdu := {
  Direction : Z; FO : Z; OA : address; FCS : Z; MR : Z; CT : Z; MN : Z;
  DA : address; RA : address; PI : Z; SCTS : gotime; DT : gotime; ST : Z;
  PID : Z; DCS : Z; VP : validity; UDH : udh; UD : bytes }.

(** Field assignments [t.F = v] on the fields of encoding/tpdu/tpdu.go:17-113. *)
Definition set_Direction (t : tpdu) v :=
  let (_,b,c,d,e,f,g,h,i,j,k,l,m,n,o,p,q,r) := t in Build_tpdu v b c d e f g h i j k l m n o p q r.
Definition set_FO (t : tpdu) v :=
  let (a,_,c,d,e,f,g,h,i,j,k,l,m,n,o,p,q,r) := t in Build_tpdu a v c d e f g h i j k l m n o p q r.
Definition set_OA (t : tpdu) v :=
  let (a,b,_,d,e,f,g,h,i,j,k,l,m,n,o,p,q,r) := t in Build_tpdu a b v d e f g h i j k l m n o p q r.
Definition set_FCS (t : tpdu) v :=
  let (a,b,c,_,e,f,g,h,i,j,k,l,m,n,o,p,q,r) := t in Build_tpdu a b c v e f g h i j k l m n o p q r.
Definition set_MR (t : tpdu) v :=
  let (a,b,c,d,_,f,g,h,i,j,k,l,m,n,o,p,q,r) := t in Build_tpdu a b c d v f g h i j k l m n o p q r.
Definition set_CT (t : tpdu) v :=
  let (a,b,c,d,e,_,g,h,i,j,k,l,m,n,o,p,q,r) := t in Build_tpdu a b c d e v g h i j k l m n o p q r.
Definition set_MN (t : tpdu) v :=
  let (a,b,c,d,e,f,_,h,i,j,k,l,m,n,o,p,q,r) := t in Build_tpdu a b c d e f v h i j k l m n o p q r.
Definition set_DA (t : tpdu) v :=
  let (a,b,c,d,e,f,g,_,i,j,k,l,m,n,o,p,q,r) := t in Build_tpdu a b c d e f g v i j k l m n o p q r.
Definition set_RA (t : tpdu) v :=
  let (a,b,c,d,e,f,g,h,_,j,k,l,m,n,o,p,q,r) := t in Build_tpdu a b c d e f g h v j k l m n o p q r.
Definition set_PI (t : tpdu) v :=
  let (a,b,c,d,e,f,g,h,i,_,k,l,m,n,o,p,q,r) := t in Build_tpdu a b c d e f g h i v k l m n o p q r.
Definition set_SCTS (t : tpdu) v :=
  let (a,b,c,d,e,f,g,h,i,j,_,l,m,n,o,p,q,r) := t in Build_tpdu a b c d e f g h i j v l m n o p q r.
Definition set_DT (t : tpdu) v :=
  let (a,b,c,d,e,f,g,h,i,j,k,_,m,n,o,p,q,r) := t in Build_tpdu a b c d e f g h i j k v m n o p q r.
Definition set_ST (t : tpdu) v :=
  let (a,b,c,d,e,f,g,h,i,j,k,l,_,n,o,p,q,r) := t in Build_tpdu a b c d e f g h i j k l v n o p q r.
Definition set_PIDf (t : tpdu) v :=
  let (a,b,c,d,e,f,g,h,i,j,k,l,m,_,o,p,q,r) := t in Build_tpdu a b c d e f g h i j k l m v o p q r.
Definition set_DCSf (t : tpdu) v :=
  let (a,b,c,d,e,f,g,h,i,j,k,l,m,n,_,p,q,r) := t in Build_tpdu a b c d e f g h i j k l m n v p q r.
Definition set_VPf (t : tpdu) v :=
  let (a,b,c,d,e,f,g,h,i,j,k,l,m,n,o,_,q,r) := t in Build_tpdu a b c d e f g h i j k l m n o v q r.
Definition set_UDHf (t : tpdu) v :=
  let (a,b,c,d,e,f,g,h,i,j,k,l,m,n,o,p,_,r) := t in Build_tpdu a b c d e f g h i j k l m n o p v r.
Definition set_UDf (t : tpdu) v :=
  let (a,b,c,d,e,f,g,h,i,j,k,l,m,n,o,p,q,_) := t in Build_tpdu a b c d e f g h i j k l m n o p q v.

(** The zero TPDU, as created at sms.go:105. *)
Definition zero_address : address := {| a_toa := 0; a_addr := [] |}.
Definition zero_tpdu : tpdu := {|
  Direction := 0; FO := 0; OA := zero_address; FCS := 0; MR := 0; CT := 0; MN := 0;
  DA := zero_address; RA := zero_address; PI := 0; SCTS := zero_time; DT := zero_time;
  ST := 0; PID := 0; DCS := 0; VP := vp_zero; UDH := None; UD := [] |}.

(** encoding/tpdu/tpdu.go:117, the TPDU created by [New] before its options. *)
Definition new_tpdu : tpdu :=
  set_RA (set_DA (set_OA zero_tpdu new_address) new_address) new_address.

(** encoding/tpdu/tpdu.go:1018-1024 [Direction]. *)
Definition MT : Z := 0.
Definition MO : Z := 1.

(** encoding/tpdu/tpdu.go:1035-1053 [SmsType]. *)
Definition SmsDeliver : Z := 0.
Definition SmsDeliverReport : Z := 1.
Definition SmsSubmitReport : Z := 2.
Definition SmsSubmit : Z := 3.
Definition SmsStatusReport : Z := 4.
Definition SmsCommand : Z := 5.

(** encoding/tpdu/tpdu.go:1089-1091 [smsType]. *)
Definition sms_type (mt dir : Z) : Z := Z.lor (to_byte (Z.shiftl mt 1)) (to_byte dir).

(** encoding/tpdu/tpdu.go:299-301 [TPDU.SmsType]. *)
Definition tpdu_type (t : tpdu) : Z := sms_type (fo_mti (FO t)) (Direction t).

(** encoding/tpdu/tpdu.go:1065-1082 [SmsType.String]. *)
Definition sms_type_string (st : Z) : string :=
  if st =? SmsDeliver then "SmsDeliver"
  else if st =? SmsDeliverReport then "SmsDeliverReport"
  else if st =? SmsSubmitReport then "SmsSubmitReport"
  else if st =? SmsSubmit then "SmsSubmit"
  else if st =? SmsStatusReport then "SmsStatusReport"
  else if st =? SmsCommand then "SmsCommand"
  else "Unknown".

(** encoding/tpdu/tpdu.go:304-311 [SetSmsType], with 1056-1063
    [SmsType.MTI] and [SmsType.Direction]. *)
Definition set_sms_type (t : tpdu) (st : Z) : res tpdu :=
  if (st <? 0) || (SmsCommand <? st) then Err ErrInvalid
  else Ok (set_FO (set_Direction t (Z.land st 1))
                  (fo_with_mti (FO t) (Z.shiftr st 1))).

(** encoding/tpdu/tpdu.go:258-261 [SetDCS]. *)
Definition set_dcs (t : tpdu) (d : Z) : tpdu :=
  set_DCSf (set_PI t (Z.lor (PI t) PiDCS)) d.

(** encoding/tpdu/tpdu.go:264-267 [SetPID]. *)
Definition set_pid (t : tpdu) (p : Z) : tpdu :=
  set_PIDf (set_PI t (Z.lor (PI t) PiPID)) p.

(** encoding/tpdu/tpdu.go:271-275 [SetVP]. *)
Definition set_vp (t : tpdu) (v : validity) : tpdu :=
  set_VPf (set_FO t (Z.lor (andnot8 (FO t) FoVPFMask)
                           (Z.land (shl8 (vp_format v) FoVPFShift) FoVPFMask))) v.

(** encoding/tpdu/tpdu.go:278-285 [SetUD]; [None] is nil. *)
Definition set_ud (t : tpdu) (ud : option bytes) : tpdu :=
  match ud with
  | None => set_PI (set_UDf t []) (andnot8 (PI t) PiUDL)
  | Some u => set_PI (set_UDf t u) (Z.lor (PI t) PiUDL)
  end.

(** encoding/tpdu/tpdu.go:288-296 [SetUDH]. *)
Definition set_udh (t : tpdu) (u : udh) : tpdu :=
  match u with
  | None => set_FO (set_UDHf t None) (andnot8 (FO t) FoUDHI)
  | Some _ => set_FO (set_PI (set_UDHf t u) (Z.lor (PI t) PiUDL))
                     (Z.lor (FO t) FoUDHI)
  end.

(** encoding/tpdu/tpdu.go:140-142 [TPDU.Alphabet]. *)
Definition tpdu_alphabet (t : tpdu) : res Z := dcs_alphabet (DCS t).
(** encoding/tpdu/tpdu.go:146-148 [TPDU.ConcatInfo]. *)
Definition tpdu_concat_info (t : tpdu) : option (Z * Z * Z) := concat_info (ies (UDH t)).
(** encoding/tpdu/tpdu.go:152-155 [IsSingleSegment]. *)
Definition is_single_segment (t : tpdu) : bool :=
  match tpdu_concat_info t with Some _ => false | None => true end.
(** encoding/tpdu/tpdu.go:374-376 [TPDU.UDHL]. *)
Definition tpdu_udhl (t : tpdu) : Z := udhl (ies (UDH t)).

(** encoding/tpdu/tpdu.go:928-967 [encodeUserData].  The default case of the
    switch (AlphaReserved) is unreachable, Alphabet never returns it; it leaves
    ud and udl as they are. *)
Definition fill_bits (n : Z) : Z := if n mod 7 =? 0 then 0 else 7 - n mod 7.

Definition encode_ud (t : tpdu) : res bytes :=
  let h := udh_marshal (ies (UDH t)) in
  alpha <- on_err (tpdu_alphabet t) (encode_error "alphabet") ;;
  if alpha =? Alpha7Bit then
    let fill := fill_bits (len h) in
    let ud := pack7bit (UD t) fill in
    let udl := if 0 <? len (UD t) then len (UD t) + (len h * 8 + fill) / 7
               else len h * 8 / 7 in
    Ok (to_byte udl :: h ++ ud)
  else if (alpha =? AlphaUCS2) && (Z.land (len (UD t)) 1 =? 1)
  then Err (encode_error "sm" ErrOddUCS2Length)
  else Ok (to_byte (len (UD t) + len h) :: h ++ UD t).

(** encoding/tpdu/tpdu.go:897-918 [decode7Bit]. *)
Definition decode_7bit (sml udhl : Z) (src : bytes) : res bytes :=
  let fill := if 0 <? udhl then fill_bits udhl else 0 in
  let sml := if 0 <? udhl then sml - (udhl * 8 + fill) / 7 else sml in
  let sm := unpack7bit src fill in
  if len sm <? sml then Err ErrUnderflow
  else if sml <? len sm then
    if sml + 1 <? len sm then Err ErrOverlength
    else
      b <- idx sm sml ;;
      if negb (b =? 0) then Err ErrOverlength else slice sm 0 sml
  else Ok sm.

(** encoding/tpdu/tpdu.go:833-891 [decodeUserData]: the TPDU with UDH and UD
    set as the Go method sets them. *)
Definition decode_ud (t : tpdu) (src : bytes) : res tpdu :=
  if len src <? 1 then Err (new_decode_error "udl" 0 ErrUnderflow) else
  udl <- idx src 0 ;;
  if udl =? 0 then Ok t else
  let ri := 1 in
  alphabet <- on_err (tpdu_alphabet t) (new_decode_error "alphabet" ri) ;;
  let sml7 := if alphabet =? Alpha7Bit then udl else 0 in
  let udl := if alphabet =? Alpha7Bit then (sml7 * 7 + 7) / 8 else udl in
  if len src <? ri + udl then Err (new_decode_error "sm" ri ErrUnderflow)
  else if ri + udl <? len src then Err (new_decode_error "ud" ri ErrOverlength)
  else
    '(h, hl) <- (if fo_udhi (FO t) then
                   s <- slice_from src ri ;;
                   on_err (udh_unmarshal s) (new_decode_error "udh" ri)
                 else Ok (None, 0)) ;;
    let ri := ri + hl in
    if ri =? len src then Ok (set_UDHf t h) else
    s <- slice_from src ri ;;
    if alphabet =? Alpha7Bit then
      sm <- on_err (decode_7bit sml7 hl s) (new_decode_error "sm" ri) ;;
      Ok (set_UDHf (set_UDf t sm) h)
    else if (alphabet =? AlphaUCS2) && (Z.land (len s) 1 =? 1)
    then Err (new_decode_error "sm" ri ErrOddUCS2Length)
    else Ok (set_UDHf (set_UDf t s) h).

(** encoding/tpdu/tpdu.go:403-416 [marshalCommand]. *)
Definition marshal_command (t : tpdu) : res bytes :=
  da <- on_err (addr_marshal (DA t)) (encode_error "da") ;;
  Ok ([FO t; MR t; PID t; CT t; MN t] ++ da ++ [to_byte (len (UD t))] ++ UD t).

(** encoding/tpdu/tpdu.go:418-439 [marshalDeliver]. *)
Definition marshal_deliver (t : tpdu) : res bytes :=
  oa <- on_err (addr_marshal (OA t)) (encode_error "oa") ;;
  scts <- on_err (ts_marshal (SCTS t)) (encode_error "scts") ;;
  ud <- on_err (encode_ud t) (encode_error "ud") ;;
  Ok ([FO t] ++ oa ++ [PID t; DCS t] ++ scts ++ ud).

(** The optional PID and DCS octets of the reports,
    encoding/tpdu/tpdu.go:457-462, 498-503 and 554-559. *)
Definition marshal_opt (t : tpdu) : bytes :=
  (if pi_pid (PI t) then [PID t] else []) ++ (if pi_dcs (PI t) then [DCS t] else []).

(** encoding/tpdu/tpdu.go:441-465 [marshalDeliverReport]. *)
Definition marshal_deliver_report (t : tpdu) : res bytes :=
  ud <- (if pi_udl (PI t) then on_err (encode_ud t) (encode_error "ud") else Ok []) ;;
  Ok ([FO t] ++ (if negb (FCS t =? 0) then [FCS t] else []) ++ [PI t]
        ++ marshal_opt t ++ ud).

(** encoding/tpdu/tpdu.go:467-506 [marshalStatusReport]. *)
Definition marshal_status_report (t : tpdu) : res bytes :=
  ra <- on_err (addr_marshal (RA t)) (encode_error "ra") ;;
  scts <- on_err (ts_marshal (SCTS t)) (encode_error "scts") ;;
  dt <- on_err (ts_marshal (DT t)) (encode_error "dt") ;;
  ud <- (if pi_udl (PI t) then on_err (encode_ud t) (encode_error "ud") else Ok []) ;;
  let b := [FO t; MR t] ++ ra ++ scts ++ dt ++ [ST t] in
  if PI t =? 0 then Ok b
  else Ok (b ++ [PI t] ++ marshal_opt t ++ ud).

(** encoding/tpdu/tpdu.go:508-532 [marshalSubmit]. *)
Definition marshal_submit (t : tpdu) : res bytes :=
  da <- on_err (addr_marshal (DA t)) (encode_error "da") ;;
  ud <- on_err (encode_ud t) (encode_error "ud") ;;
  vp <- (if negb (vp_format (VP t) =? VpfNotPresent)
         then on_err (vp_marshal (VP t)) (encode_error "vp") else Ok []) ;;
  Ok ([FO t; MR t] ++ da ++ [PID t; DCS t] ++ vp ++ ud).

(** encoding/tpdu/tpdu.go:534-562 [marshalSubmitReport]. *)
Definition marshal_submit_report (t : tpdu) : res bytes :=
  scts <- on_err (ts_marshal (SCTS t)) (encode_error "scts") ;;
  ud <- (if pi_udl (PI t) then on_err (encode_ud t) (encode_error "ud") else Ok []) ;;
  Ok ([FO t] ++ (if negb (FCS t =? 0) then [FCS t] else []) ++ [PI t] ++ scts
        ++ marshal_opt t ++ ud).

(** encoding/tpdu/tpdu.go:379-401 [TPDU.MarshalBinary]. *)
Definition tpdu_marshal (t : tpdu) : res bytes :=
  let st := tpdu_type t in
  let wrap r := on_err r (encode_error (sms_type_string st)) in
  if st =? SmsDeliver then wrap (marshal_deliver t)
  else if st =? SmsDeliverReport then wrap (marshal_deliver_report t)
  else if st =? SmsSubmitReport then wrap (marshal_submit_report t)
  else if st =? SmsSubmit then wrap (marshal_submit t)
  else if st =? SmsStatusReport then wrap (marshal_status_report t)
  else if st =? SmsCommand then wrap (marshal_command t)
  else Err (ErrUnsupportedSmsType st).

(** bytes.Buffer.ReadByte (encoding/tpdu/tpdu.go:597-653) on the unread bytes [b]; [off] is len(src)-b.Len(),
    the offset reported with the error. *)
Definition read_byte (field : string) (off : Z) (b : bytes) : res (Z * bytes) :=
  match b with
  | x :: b' => Ok (x, b')
  | [] => Err (new_decode_error field off EOF)
  end.

(** bytes.Buffer.Next(n), encoding/tpdu/tpdu.go:619 and 647: drops n bytes, or all if fewer remain. *)
Definition buf_next (n : Z) (b : bytes) : bytes := skipn (Z.to_nat n) b.

(** encoding/tpdu/tpdu.go:597-626 [unmarshalCommand]. *)
Definition unmarshal_command (t : tpdu) (src : bytes) : res tpdu :=
  '(x, b) <- read_byte "mr" (len src - len src) src ;;
  let t := set_MR t x in
  '(x, b) <- read_byte "pid" (len src - len b) b ;;
  let t := set_PIDf t x in
  '(x, b) <- read_byte "ct" (len src - len b) b ;;
  let t := set_CT t x in
  '(x, b) <- read_byte "mn" (len src - len b) b ;;
  let t := set_MN t x in
  '(a, n) <- on_err (addr_unmarshal b) (new_decode_error "da" (len src - len b)) ;;
  let t := set_DA t a in
  let b := buf_next n b in
  let t := set_DCSf t Dcs8BitData in
  on_err (decode_ud t b) (new_decode_error "ud" (len src - len b)).

(** encoding/tpdu/tpdu.go:628-653 [unmarshalDeliver]. *)
Definition unmarshal_deliver (t : tpdu) (src : bytes) : res tpdu :=
  '(a, n) <- on_err (addr_unmarshal src) (new_decode_error "oa" 0) ;;
  let t := set_OA t a in
  b <- slice_from src n ;;
  '(x, b) <- read_byte "pid" (len src - len b) b ;;
  let t := set_PIDf t x in
  '(x, b) <- read_byte "dcs" (len src - len b) b ;;
  let t := set_DCSf t x in
  ts <- on_err (ts_unmarshal b) (new_decode_error "scts" (len src - len b)) ;;
  let t := set_SCTS t ts in
  let b := buf_next 7 b in
  on_err (decode_ud t b) (new_decode_error "ud" (len src - len b)).

(** The optional trailing fields of the reports, from offset [ri] with the PI
    already set, encoding/tpdu/tpdu.go:667-687, 733-753 and 809-829. *)
Definition unmarshal_optionals (t : tpdu) (src : bytes) (ri : Z) : res tpdu :=
  '(t, ri) <-
    (if pi_pid (PI t) then
       if len src <=? ri then Err (new_decode_error "pid" ri ErrUnderflow)
       else x <- idx src ri ;; Ok (set_PIDf t x, ri + 1)
     else Ok (t, ri)) ;;
  '(t, ri) <-
    (if pi_dcs (PI t) then
       if len src <=? ri then Err (new_decode_error "dcs" ri ErrUnderflow)
       else x <- idx src ri ;; Ok (set_DCSf t x, ri + 1)
     else Ok (t, ri)) ;;
  if pi_udl (PI t) then
    s <- slice_from src ri ;;
    on_err (decode_ud t s) (new_decode_error "ud" ri)
  else Ok t.

(** encoding/tpdu/tpdu.go:655-688 [unmarshalDeliverReport]. *)
Definition unmarshal_deliver_report (t : tpdu) (src : bytes) : res tpdu :=
  let ri := 0 in
  if len src <=? ri then Err (new_decode_error "fcs" ri ErrUnderflow) else
  x <- idx src ri ;;
  let t := set_FCS t x in
  let ri := ri + 1 in
  if len src <=? ri then Err (new_decode_error "pi" ri ErrUnderflow) else
  x <- idx src ri ;;
  let t := set_PI t x in
  let ri := ri + 1 in
  unmarshal_optionals t src ri.

(** encoding/tpdu/tpdu.go:690-754 [unmarshalStatusReport] and
    [unmarshalSROptionals]. *)
Definition unmarshal_status_report (t : tpdu) (src : bytes) : res tpdu :=
  let ri := 0 in
  if len src <=? ri then Err (new_decode_error "mr" ri ErrUnderflow) else
  x <- idx src ri ;;
  let t := set_MR t x in
  let ri := ri + 1 in
  s <- slice_from src ri ;;
  '(a, n) <- on_err (addr_unmarshal s) (new_decode_error "ra" ri) ;;
  let t := set_RA t a in
  let ri := ri + n in
  if len src <? ri + 7 then Err (new_decode_error "scts" ri ErrUnderflow) else
  s <- slice src ri (ri + 7) ;;
  ts <- on_err (ts_unmarshal s) (new_decode_error "scts" ri) ;;
  let t := set_SCTS t ts in
  let ri := ri + 7 in
  if len src <? ri + 7 then Err (new_decode_error "dt" ri ErrUnderflow) else
  s <- slice src ri (ri + 7) ;;
  ts <- on_err (ts_unmarshal s) (new_decode_error "dt" ri) ;;
  let t := set_DT t ts in
  let ri := ri + 7 in
  if len src <=? ri then Err (new_decode_error "st" ri ErrUnderflow) else
  x <- idx src ri ;;
  let t := set_ST t x in
  let ri := ri + 1 in
  if ri <? len src then
    x <- idx src ri ;;
    let t := set_PI t x in
    unmarshal_optionals t src (ri + 1)
  else Ok t.

(** encoding/tpdu/tpdu.go:756-787 [unmarshalSubmit]. *)
Definition unmarshal_submit (t : tpdu) (src : bytes) : res tpdu :=
  if len src <? 1 then Err (new_decode_error "mr" 0 ErrUnderflow) else
  x <- idx src 0 ;;
  let t := set_MR t x in
  let ri := 1 in
  s <- slice_from src ri ;;
  '(a, n) <- on_err (addr_unmarshal s) (new_decode_error "da" ri) ;;
  let t := set_DA t a in
  let ri := ri + n in
  if len src <=? ri then Err (new_decode_error "pid" ri ErrUnderflow) else
  x <- idx src ri ;;
  let t := set_PIDf t x in
  let ri := ri + 1 in
  if len src <=? ri then Err (new_decode_error "dcs" ri ErrUnderflow) else
  x <- idx src ri ;;
  let t := set_DCSf t x in
  let ri := ri + 1 in
  s <- slice_from src ri ;;
  '(v, n) <- on_err (vp_unmarshal (VP t) s (fo_vpf (FO t))) (new_decode_error "vp" ri) ;;
  let t := set_VPf t v in
  let ri := ri + n in
  s <- slice_from src ri ;;
  on_err (decode_ud t s) (new_decode_error "ud" ri).

(** encoding/tpdu/tpdu.go:789-830 [unmarshalSubmitReport]. *)
Definition unmarshal_submit_report (t : tpdu) (src : bytes) : res tpdu :=
  let ri := 0 in
  if len src <? 1 then Err (new_decode_error "fcs" ri ErrUnderflow) else
  x <- idx src ri ;;
  let t := set_FCS t x in
  let ri := ri + 1 in
  if len src <=? ri then Err (new_decode_error "pi" ri ErrUnderflow) else
  x <- idx src ri ;;
  let t := set_PI t x in
  let ri := ri + 1 in
  if len src <? ri + 7 then Err (new_decode_error "scts" ri ErrUnderflow) else
  s <- slice src ri (ri + 7) ;;
  ts <- on_err (ts_unmarshal s) (new_decode_error "scts" ri) ;;
  let t := set_SCTS t ts in
  let ri := ri + 7 in
  unmarshal_optionals t src ri.

(** encoding/tpdu/tpdu.go:568-595 [TPDU.UnmarshalBinary].  [t] is the receiver
    before the call, its Direction selecting the type.  The partial result Go
    leaves in the receiver on error is in TpduLeft.v. *)
Definition tpdu_unmarshal (t : tpdu) (src : bytes) : res tpdu :=
  if len src <? 1 then Err (new_decode_error "tpdu.firstOctet" 0 ErrUnderflow) else
  fo <- idx src 0 ;;
  let t := set_FO t fo in
  let st := tpdu_type t in
  s <- slice_from src 1 ;;
  let wrap r := on_err r (new_decode_error (sms_type_string st) 1) in
  if st =? SmsDeliver then wrap (unmarshal_deliver t s)
  else if st =? SmsDeliverReport then wrap (unmarshal_deliver_report t s)
  else if st =? SmsSubmitReport then wrap (unmarshal_submit_report t s)
  else if st =? SmsSubmit then wrap (unmarshal_submit t s)
  else if st =? SmsStatusReport then wrap (unmarshal_status_report t s)
  else if st =? SmsCommand then wrap (unmarshal_command t s)
  else Err (new_decode_error "tpdu.firstOctet" 0 (ErrUnsupportedSmsType st)).
