(** MarshalBinary once more, on slices that share memory (see Heap.v).  The
    values are those of Tpdu.v and PduMode.v; what is added is which arrays are
    written and in which one the result is.  Addresses, time stamps and validity
    periods are marshalled to arrays that are only read afterwards
    (e.g. encoding/tpdu/tpdu.go:404, 412): their octets are values here. *)
From Verif Require Import GoBase SevenBit Dcs FirstOctet TpduError Address GoTime ValidityPeriod UserData Tpdu Sms PduMode Heap HeapRead.

(** Go specification, "Making slices, maps and channels": [make([]byte, 0, n)]. *)
Definition gmake (h : heap Z) (n : nat) : heap Z * gslice :=
  (h ++ [repeat 0 n], {| s_arr := length h; s_off := 0; s_len := 0; s_cap := n |}).
(** Go specification, "Composite literals": [[]byte{...}]. *)
Definition gliteral (h : heap Z) (b : list Z) : heap Z * gslice :=
  (h ++ [b], {| s_arr := length h; s_off := 0; s_len := length b; s_cap := length b |}).

(** What is appended: octets given one by one, or the elements of a slice. *)
Inductive piece := Octets (b : bytes) | Elems (s : gslice).
Definition piece_view (h : heap Z) (p : piece) : bytes :=
  match p with Octets b => b | Elems s => view h s end.
(** Consecutive statements [b = append(b, ...)], e.g. encoding/tpdu/tpdu.go:411-414. *)
Fixpoint gappends (grow : nat -> nat -> nat) (junk : Z) (h : heap Z) (b : gslice) (ps : list piece) : heap Z * gslice :=
  match ps with
  | [] => (h, b)
  | p :: ps =>
      let (h, b) := gappend grow junk h b (piece_view h p) in
      gappends grow junk h b ps
  end.

(** encoding/tpdu/userdata.go:48-60 [UserDataHeader.MarshalBinary]. *)
Definition h_udh_marshal (grow : nat -> nat -> nat) (junk : Z) (h : heap Z) (u : list rie) : heap Z * gslice :=
  if len u =? 0 then (h, nil_slice) else
  let n := udhl (map (ie_held h) u) in
  let (h, b) := gmake h (Z.to_nat (n + 1)) in
  gappends grow junk h b (Octets [to_byte n] ::
    flat_map (fun i => [Octets [ri_id i; to_byte (Z.of_nat (s_len (ri_data i)))]; Elems (ri_data i)]) u).

(** encoding/gsm7/7bit.go:19-43 [Pack7Bit].  The octets are appended one by one
    there, to an array nothing else is in, and all at once here. *)
Definition h_pack7bit (grow : nat -> nat -> nat) (junk : Z) (h : heap Z) (u : gslice) (fill : Z) : heap Z * gslice :=
  if (s_len u =? 0)%nat then gappend grow junk h (reslice00 u) (view h u) else
  let (h, p) := gmake h (Z.to_nat ((Z.of_nat (s_len u) * 7 + 7 + fill) / 8)) in
  gappend grow junk h p (pack7bit (view h u) fill).

(** encoding/tpdu/tpdu.go:928-967 [encodeUserData]. *)
Definition h_encode_ud (grow : nat -> nat -> nat) (junk : Z) (h : heap Z) (t : rtpdu) : heap Z * res gslice :=
  let (h, hd) := h_udh_marshal grow junk h (match rt_udh t with Some l => l | None => [] end) in
  let finish h ud udl :=
    let (h, b) := gmake h (1 + s_len hd + s_len ud) in
    let (h, b) := gappends grow junk h b [Octets [to_byte udl]; Elems hd; Elems ud] in
    (h, Ok b) in
  htry h (on_err (tpdu_alphabet (rt_rest t)) (encode_error "alphabet")) (fun alpha =>
  let n := Z.of_nat (s_len (rt_ud t)) in
  let nh := Z.of_nat (s_len hd) in
  if alpha =? Alpha7Bit then
    let fill := fill_bits nh in
    let (h, ud) := h_pack7bit grow junk h (rt_ud t) fill in
    finish h ud (if 0 <? n then n + (nh * 8 + fill) / 7 else nh * 8 / 7)
  else if (alpha =? AlphaUCS2) && (Z.land n 1 =? 1)
  then (h, Err (encode_error "sm" ErrOddUCS2Length))
  else finish h (rt_ud t) (n + nh)).

(** [make] of the length [l] and the statements [b = append(b, ...)] after it,
    e.g. encoding/tpdu/tpdu.go:410-414. *)
Definition h_build (grow : nat -> nat -> nat) (junk : Z) (h : heap Z) (l : nat) (ps : list piece) : heap Z * res gslice :=
  let (h, b) := gmake h l in
  let (h, b) := gappends grow junk h b ps in
  (h, Ok b).

(** The same with the user data before it, e.g. encoding/tpdu/tpdu.go:427-430. *)
Definition h_with_ud (grow : nat -> nat -> nat) (junk : Z) (h : heap Z) (t : rtpdu) (k : heap Z -> gslice -> heap Z * res gslice)
  : heap Z * res gslice :=
  hbind (hon_err (h_encode_ud grow junk h t) (encode_error "ud")) k.
(** Only if PI says so, e.g. encoding/tpdu/tpdu.go:442-449; the slice there is
    empty otherwise. *)
Definition h_with_ud_opt (grow : nat -> nat -> nat) (junk : Z) (h : heap Z) (t : rtpdu) (k : heap Z -> gslice -> heap Z * res gslice)
  : heap Z * res gslice :=
  if pi_udl (PI (rt_rest t)) then h_with_ud grow junk h t k else k h nil_slice.

(** encoding/tpdu/tpdu.go:403-416 [marshalCommand]. *)
Definition h_marshal_command (grow : nat -> nat -> nat) (junk : Z) (h : heap Z) (t : rtpdu) : heap Z * res gslice :=
  let v := rt_rest t in
  htry h (on_err (addr_marshal (DA v)) (encode_error "da")) (fun da =>
  let cdl := s_len (rt_ud t) in
  h_build grow junk h (6 + length da + cdl)
    [Octets [FO v; MR v; PID v; CT v; MN v]; Octets da; Octets [to_byte (Z.of_nat cdl)]; Elems (rt_ud t)]).

(** encoding/tpdu/tpdu.go:418-440 [marshalDeliver]. *)
Definition h_marshal_deliver (grow : nat -> nat -> nat) (junk : Z) (h : heap Z) (t : rtpdu) : heap Z * res gslice :=
  let v := rt_rest t in
  htry h (on_err (addr_marshal (OA v)) (encode_error "oa")) (fun oa =>
  htry h (on_err (ts_marshal (SCTS v)) (encode_error "scts")) (fun scts =>
  h_with_ud grow junk h t (fun h ud =>
  h_build grow junk h (3 + length oa + length scts + s_len ud)
    [Octets [FO v]; Octets oa; Octets [PID v; DCS v]; Octets scts; Elems ud]))).

(** encoding/tpdu/tpdu.go:441-465 [marshalDeliverReport]. *)
Definition h_marshal_deliver_report (grow : nat -> nat -> nat) (junk : Z) (h : heap Z) (t : rtpdu) : heap Z * res gslice :=
  let v := rt_rest t in
  h_with_ud_opt grow junk h t (fun h ud =>
  h_build grow junk h (5 + s_len ud)
    ([Octets [FO v]] ++ (if negb (FCS v =? 0) then [Octets [FCS v]] else []) ++ [Octets [PI v]] ++
     (if pi_pid (PI v) then [Octets [PID v]] else []) ++ (if pi_dcs (PI v) then [Octets [DCS v]] else []) ++ [Elems ud])).

(** encoding/tpdu/tpdu.go:467-506 [marshalStatusReport]. *)
Definition h_marshal_status_report (grow : nat -> nat -> nat) (junk : Z) (h : heap Z) (t : rtpdu) : heap Z * res gslice :=
  let v := rt_rest t in
  htry h (on_err (addr_marshal (RA v)) (encode_error "ra")) (fun ra =>
  htry h (on_err (ts_marshal (SCTS v)) (encode_error "scts")) (fun scts =>
  htry h (on_err (ts_marshal (DT v)) (encode_error "dt")) (fun dt =>
  h_with_ud_opt grow junk h t (fun h ud =>
  h_build grow junk h (6 + length ra + length scts + length dt + s_len ud)
    ([Octets [FO v; MR v]; Octets ra; Octets scts; Octets dt; Octets [ST v]] ++
     if PI v =? 0 then [] else
     [Octets [PI v]] ++ (if pi_pid (PI v) then [Octets [PID v]] else []) ++
     (if pi_dcs (PI v) then [Octets [DCS v]] else []) ++ [Elems ud]))))).

(** encoding/tpdu/tpdu.go:508-532 [marshalSubmit]. *)
Definition h_marshal_submit (grow : nat -> nat -> nat) (junk : Z) (h : heap Z) (t : rtpdu) : heap Z * res gslice :=
  let v := rt_rest t in
  htry h (on_err (addr_marshal (DA v)) (encode_error "da")) (fun da =>
  h_with_ud grow junk h t (fun h ud =>
  htry h (if negb (vp_format (VP v) =? VpfNotPresent) then on_err (vp_marshal (VP v)) (encode_error "vp") else Ok []) (fun vp =>
  h_build grow junk h (4 + length da + s_len ud + length vp)
    [Octets [FO v; MR v]; Octets da; Octets [PID v; DCS v]; Octets vp; Elems ud]))).

(** encoding/tpdu/tpdu.go:534-562 [marshalSubmitReport]. *)
Definition h_marshal_submit_report (grow : nat -> nat -> nat) (junk : Z) (h : heap Z) (t : rtpdu) : heap Z * res gslice :=
  let v := rt_rest t in
  htry h (on_err (ts_marshal (SCTS v)) (encode_error "scts")) (fun scts =>
  h_with_ud_opt grow junk h t (fun h ud =>
  h_build grow junk h (5 + length scts + s_len ud)
    ([Octets [FO v]] ++ (if negb (FCS v =? 0) then [Octets [FCS v]] else []) ++ [Octets [PI v]; Octets scts] ++
     (if pi_pid (PI v) then [Octets [PID v]] else []) ++ (if pi_dcs (PI v) then [Octets [DCS v]] else []) ++ [Elems ud]))).

(** encoding/tpdu/tpdu.go:379-401 [TPDU.MarshalBinary]. *)
Definition h_marshal (grow : nat -> nat -> nat) (junk : Z) (h : heap Z) (t : rtpdu) : heap Z * res gslice :=
  let st := tpdu_type (rt_rest t) in
  let wrap r := hon_err r (encode_error (sms_type_string st)) in
  if st =? SmsDeliver then wrap (h_marshal_deliver grow junk h t)
  else if st =? SmsDeliverReport then wrap (h_marshal_deliver_report grow junk h t)
  else if st =? SmsSubmitReport then wrap (h_marshal_submit_report grow junk h t)
  else if st =? SmsSubmit then wrap (h_marshal_submit grow junk h t)
  else if st =? SmsStatusReport then wrap (h_marshal_status_report grow junk h t)
  else if st =? SmsCommand then wrap (h_marshal_command grow junk h t)
  else (h, Err (ErrUnsupportedSmsType st)).

(** encoding/pdumode/pdu.go:64-71 [PDU.MarshalBinary].  The array of the address
    is filled exactly (encoding/pdumode/smscaddress.go:33, 36-39). *)
Definition h_pdu_marshal (grow : nat -> nat -> nat) (junk : Z) (h : heap Z) (p : rpdu) : heap Z * res gslice :=
  htry h (smsc_marshal (rp_smsc p)) (fun a =>
  let (h, dst) := gliteral h a in
  let (h, dst) := gappend grow junk h dst (view h (rp_tpdu p)) in
  (h, Ok dst)).

(** encoding/tpdu/userdata.go:189-222 [DecodeUserData]: 8-bit user data is
    returned as it is (lines 194-195), other text is in an array of its own. *)
Definition h_decode_user_data (grow : nat -> nat -> nat) (junk : Z) (h : heap Z) (ud : gslice) (l : list ie) (alpha : Z)
    (opts : list charset_opt) : heap Z * gslice * option gerr :=
  let d := decode_user_data (view h ud) l alpha opts in
  if alpha =? Alpha8Bit then (h, ud, dd_err d) else
  (gappend grow junk h nil_slice (dd_text d), dd_err d).
