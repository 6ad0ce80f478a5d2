(** Model of the text the library and its commands print: the String methods of
    encoding/tpdu, and the output of cmd/smsdecode.  Text is a list of octets.
    [str] turns a literal into its octets. *)
From Coq Require Import String Ascii.
From Verif Require Import GoBase Utf Dcs FirstOctet Address GoTime ValidityPeriod UserData Tpdu PduMode
  Collector Cmd.

(** A string literal of the source, e.g. cmd/smsdecode/smsdecode.go:91. *)
Definition str (s : string) : bytes :=
  map (fun c => Z.of_nat (nat_of_ascii c)) (list_ascii_of_string s).

(** ** Package fmt *)

(** The verb %t, e.g. cmd/smsdecode/smsdecode.go:97. *)
Definition fmt_t (b : bool) : bytes := if b then str "true" else str "false".

(** Decimal digits padded with zeros to [w] places: time.appendInt, for
    encoding/tpdu/timestamp.go:20. *)
Definition pad_d (w : nat) (n : Z) : bytes :=
  let d := fmt_d n in repeat 48 (w - length d) ++ d.
Definition append_int (w : nat) (n : Z) : bytes :=
  if n <? 0 then 45 :: pad_d w (- n) else pad_d w n.

(** The verb %v on a []byte, cmd/smsdecode/smsdecode.go:227 and 229: decimal
    numbers between brackets, with spaces between them. *)
Definition fmt_v_bytes (l : bytes) : bytes :=
  str "[" ++
  match l with
  | [] => []
  | b :: l' => fmt_d b ++ flat_map (fun x => 32 :: fmt_d x) l'
  end ++ str "]".

(** strings.Join(elems, "|"), encoding/tpdu/parameterindicator.go:41. *)
Definition join_bar (l : list bytes) : bytes :=
  match l with
  | [] => []
  | x :: l' => x ++ flat_map (fun y => 124 :: y) l'
  end.

(** ** Package time *)

(** time.fmtFrac, under cmd/smsdecode/smsdecode.go:219-221: the [prec] lowest
    decimal digits of [v] as a fraction, without the zeros at the end, before
    what is written already; and the rest of [v]. *)
Fixpoint frac_loop (prec : nat) (v : Z) (print : bool) (acc : bytes) : bytes * Z * bool :=
  match prec with
  | O => (acc, v, print)
  | S p =>
      let digit := v mod 10 in
      let print := print || negb (digit =? 0) in
      frac_loop p (v / 10) print (if print then (digit + 48) :: acc else acc)
  end.
Definition fmt_frac (prec : nat) (v : Z) (acc : bytes) : bytes * Z :=
  let '(acc, v, print) := frac_loop prec v false acc in
  ((if print then 46 :: acc else acc), v).

(** time.Duration.String, under cmd/smsdecode/smsdecode.go:219-221; a duration
    is a number of nanoseconds. *)
Definition duration_string (d : Z) : bytes :=
  let neg := d <? 0 in
  let u := Z.abs d in
  let text :=
    if u <? 1000000000 then
      if u =? 0 then str "0s"
      else if u <? 1000 then let '(t, v) := fmt_frac 0 u (str "ns") in fmt_d v ++ t
      else if u <? 1000000 then let '(t, v) := fmt_frac 3 u ([194; 181] ++ str "s") in fmt_d v ++ t
      else let '(t, v) := fmt_frac 6 u (str "ms") in fmt_d v ++ t
    else
      let '(t, v) := fmt_frac 9 u (str "s") in
      let t := fmt_d (v mod 60) ++ t in
      let v := v / 60 in
      if 0 <? v then
        let t := fmt_d (v mod 60) ++ str "m" ++ t in
        let v := v / 60 in
        if 0 <? v then fmt_d v ++ str "h" ++ t else t
      else t in
  if neg && negb (u =? 0) then 45 :: text else text.

(** encoding/tpdu/timestamp.go:19-21 [Timestamp.String]: the layout
    "2006-01-02 15:04:05 -0700". *)
Definition ts_string (t : gotime) : bytes :=
  let '(y, m, d) := t_date t in
  let zone := Z.quot (t_off t) 60 in
  append_int 4 y ++ str "-" ++ append_int 2 m ++ str "-" ++ append_int 2 d ++ str " " ++
  append_int 2 (t_hour t) ++ str ":" ++ append_int 2 (t_minute t) ++ str ":" ++
  append_int 2 (t_second t) ++ str " " ++
  (if zone <? 0 then str "-" else str "+") ++
  append_int 2 (Z.abs zone / 60) ++ append_int 2 (Z.abs zone mod 60).

(** ** Package encoding/hex *)

(** Eight hex digits of the offset of a row of hex.Dump,
    cmd/smsdecode/smsdecode.go:205 and 234. *)
Definition fmt_08x (n : Z) : bytes :=
  fmt_02x (n / 16777216 mod 256) ++ fmt_02x (n / 65536 mod 256) ++
  fmt_02x (n / 256 mod 256) ++ fmt_02x (n mod 256).

(** The text of place [i] in a row of hex.Dump: the hex digits of the octet, or
    spaces behind the end, and a space; one more after the 8th and the 16th
    place. *)
Definition dump_cell (row : bytes) (i : nat) : bytes :=
  (match nth_error row i with Some b => fmt_02x b | None => [32; 32] end) ++ [32] ++
  (if Nat.eqb i 7 || Nat.eqb i 15 then [32] else []).

(** hex.toChar, under cmd/smsdecode/smsdecode.go:205 and 234. *)
Definition dump_char (b : Z) : Z := if (b <? 32) || (126 <? b) then 46 else b.

(** A row of hex.Dump without its line end: up to 16 octets at offset [off]. *)
Definition dump_row (off : Z) (row : bytes) : bytes :=
  fmt_08x off ++ [32; 32] ++ flat_map (dump_cell row) (seq 0 16) ++
  [124] ++ map dump_char row ++ [124].

(** The rows of hex.Dump. *)
Fixpoint dump_rows (fuel : nat) (off : Z) (data : bytes) : list bytes :=
  match fuel with
  | O => []
  | S f => match data with
           | [] => []
           | _ => dump_row off (firstn 16 data) :: dump_rows f (off + 16) (skipn 16 data)
           end
  end.

(** hex.Dump, cmd/smsdecode/smsdecode.go:205 and 234. *)
Definition hex_dump (data : bytes) : bytes :=
  flat_map (fun r => r ++ [10]) (dump_rows (length data) 0 data).

(** ** Package strings *)

(** strings.Split(s, "\n"), cmd/smsdecode/smsdecode.go:205 and 234. *)
Fixpoint split_lf (s : bytes) : list bytes :=
  match s with
  | [] => [[]]
  | c :: s' =>
      if c =? 10 then [] :: split_lf s'
      else match split_lf s' with
           | l :: r => (c :: l) :: r
           | [] => [[c]]
           end
  end.

(** strings.TrimSpace on ASCII text, cmd/smsdecode/smsdecode.go:234. *)
Definition is_space (c : Z) : bool := ((9 <=? c) && (c <=? 13)) || (c =? 32).
Fixpoint trim_left (s : bytes) : bytes :=
  match s with
  | c :: s' => if is_space c then trim_left s' else s
  | [] => []
  end.
Definition trim_space (s : bytes) : bytes := rev (trim_left (rev (trim_left s))).

(** ** String methods of encoding/tpdu *)

(** encoding/tpdu/dcs.go:63-78 [DCS.String]. *)
Definition dcs_string (d : Z) : bytes :=
  let s := str "0x" ++ fmt_02x d in
  match dcs_alphabet d with
  | Ok a => s ++ (if a =? Alpha7Bit then str " 7bit"
                  else if a =? Alpha8Bit then str " 8bit"
                  else if a =? AlphaUCS2 then str " UCS-2" else [])
  | _ => s
  end.

(** encoding/tpdu/parameterindicator.go:27-42 [PI.String]. *)
Definition pi_string (p : Z) : bytes :=
  if p =? 0 then str "0" else
  join_bar ((if pi_pid p then [str "PID"] else []) ++
            (if pi_dcs p then [str "DCS"] else []) ++
            (if pi_udl p then [str "UDL"] else [])).

(** encoding/tpdu/tpdu.go:977-994 [MessageType] and 1002-1013
    [MessageType.String]. *)
Definition MtDeliver : Z := 0.
Definition MtSubmit : Z := 1.
Definition MtCommand : Z := 2.
Definition mti_string (m : Z) : bytes :=
  if m =? MtDeliver then str "Deliver"
  else if m =? MtSubmit then str "Submit"
  else if m =? MtCommand then str "Command"
  else str "Unknown".

(** encoding/tpdu/tpdu.go:1056-1063 [SmsType.MTI] and [SmsType.Direction]. *)
Definition st_mti (st : Z) : Z := Z.shiftr st 1.
Definition st_direction (st : Z) : Z := Z.land st 1.

(** encoding/tpdu/tpdu.go:1065-1082 [SmsType.String]. *)
Definition st_string (st : Z) : bytes :=
  if st =? SmsDeliver then str "SmsDeliver"
  else if st =? SmsDeliverReport then str "SmsDeliverReport"
  else if st =? SmsSubmitReport then str "SmsSubmitReport"
  else if st =? SmsSubmit then str "SmsSubmit"
  else if st =? SmsStatusReport then str "SmsStatusReport"
  else if st =? SmsCommand then str "SmsCommand"
  else str "Unknown".

(** encoding/tpdu/validityperiod.go:246-259 [ValidityPeriodFormat.String]. *)
Definition vpf_string (f : Z) : bytes :=
  if f =? VpfNotPresent then str "Not Present"
  else if f =? VpfAbsolute then str "Absolute"
  else if f =? VpfRelative then str "Relative"
  else if f =? VpfEnhanced then str "Enhanced"
  else str "Unknown".

(** encoding/tpdu/validityperiod.go:23-25 [EnhancedFormat] and 261-274
    [EnhancedValidityPeriodFormat.String]. *)
Definition enhanced_format (efi : Z) : Z := Z.land efi 7.
Definition evpf_string (f : Z) : bytes :=
  if f =? EvpfNotPresent then str "Not Present"
  else if f =? EvpfRelative then str "Relative"
  else if f =? EvpfRelativeSeconds then str "Relative Seconds"
  else if f =? EvpfRelativeHHMMSS then str "Relative HHMMSS"
  else str "Unknown".

(** ** cmd/smsdecode *)

(** A line written by fmt.Fprintf with a label, a value and "\n", e.g.
    cmd/smsdecode/smsdecode.go:97. *)
Definition pline (label : string) (v : bytes) : bytes := str label ++ v ++ [10].

(** cmd/smsdecode/smsdecode.go:203-209 [dumpCD] and 233-239 [dumpUD], from the
    lines of the dump on. *)
Definition dump_lines (label : string) (lines : list bytes) : bytes :=
  match lines with
  | l :: ls => pline label l ++ flat_map (pline "       ") ls
  | [] => []
  end.
Definition dump_cd (ud : bytes) : bytes := dump_lines "TP-CD: " (split_lf (hex_dump ud)).
Definition dump_ud (ud : bytes) : bytes := dump_lines "TP-UD: " (split_lf (trim_space (hex_dump ud))).

(** cmd/smsdecode/smsdecode.go:211-223 [dumpVP].  No other format is reached
    without a line being left out. *)
Definition dump_vp (v : validity) : bytes :=
  if vp_format v =? VpfNotPresent then pline "TP-VP: Not Present" []
  else if vp_format v =? VpfAbsolute then pline "TP-VP: Absolute - " (ts_string (vp_time v))
  else if vp_format v =? VpfEnhanced then
    pline "TP-VP: Enhanced " (evpf_string (enhanced_format (vp_efi v)) ++ str " - " ++ duration_string (vp_duration v))
  else if vp_format v =? VpfRelative then pline "TP-VP: Relative - " (duration_string (vp_duration v))
  else [].

(** cmd/smsdecode/smsdecode.go:225-231 [dumpUDH]. *)
Definition dump_ie (i : ie) : bytes := fmt_d (ie_id i) ++ str "  Data: " ++ fmt_v_bytes (ie_data i).
Definition dump_udh (h : list ie) : res bytes :=
  i <- idx h 0 ;;
  Ok (pline "TP-UDH: ID: " (dump_ie i) ++ flat_map (fun i => pline "       ID: " (dump_ie i)) (skipn 1 h)).

(** [if t.UDH != nil { dumpUDH(w, t.UDH) }; dumpUD(w, t.UD)], e.g.
    cmd/smsdecode/smsdecode.go:120-123. *)
Definition dump_tail (t : tpdu) : res bytes :=
  h <- (match UDH t with Some h => dump_udh h | None => Ok [] end) ;;
  Ok (h ++ dump_ud (UD t)).

(** The first line of every kind, e.g. cmd/smsdecode/smsdecode.go:96. *)
Definition dump_mti (t : tpdu) : bytes :=
  let m := st_mti (tpdu_type t) in
  pline "TP-MTI: 0x" (fmt_02x m ++ str " " ++ mti_string m).

(** cmd/smsdecode/smsdecode.go:95-107 [dumpCommand]. *)
Definition dump_command (t : tpdu) : res bytes :=
  Ok (dump_mti t ++
      pline "TP-UDHI: " (fmt_t (fo_udhi (FO t))) ++
      pline "TP-SRR: " (fmt_t (fo_srr (FO t))) ++
      pline "TP-MR: " (fmt_d (MR t)) ++
      pline "TP-PID: 0x" (fmt_02x (PID t)) ++
      pline "TP-CT: 0x" (fmt_02x (CT t)) ++
      pline "TP-MN: " (fmt_d (MN t)) ++
      pline "TP-DA: " (addr_number (DA t)) ++
      pline "TP-SCTS: " (ts_string (SCTS t)) ++
      pline "TP-CDL: " (fmt_d (len (UD t))) ++
      dump_cd (UD t)).

(** cmd/smsdecode/smsdecode.go:109-124 [dumpDeliver]. *)
Definition dump_deliver (t : tpdu) : res bytes :=
  r <- dump_tail t ;;
  Ok (dump_mti t ++
      pline "TP-MMS: " (fmt_t (fo_mms (FO t))) ++
      pline "TP-LP: " (fmt_t (fo_lp (FO t))) ++
      pline "TP-RP: " (fmt_t (fo_rp (FO t))) ++
      pline "TP-UDHI: " (fmt_t (fo_udhi (FO t))) ++
      pline "TP-SRI: " (fmt_t (fo_sri (FO t))) ++
      pline "TP-OA: " (addr_number (OA t)) ++
      pline "TP-PID: 0x" (fmt_02x (PID t)) ++
      pline "TP-DCS: " (dcs_string (DCS t)) ++
      pline "TP-SCTS: " (ts_string (SCTS t)) ++
      r).

(** [if t.PI.PID() ...; if t.PI.DCS() ...], cmd/smsdecode/smsdecode.go:131-136,
    159-164 and 193-198. *)
Definition dump_optionals (t : tpdu) : bytes :=
  (if pi_pid (PI t) then pline "TP-PID: 0x" (fmt_02x (PID t)) else []) ++
  (if pi_dcs (PI t) then pline "TP-DCS: " (dcs_string (DCS t)) else []).

(** cmd/smsdecode/smsdecode.go:126-141 [dumpDeliverReport]. *)
Definition dump_deliver_report (t : tpdu) : res bytes :=
  r <- dump_tail t ;;
  Ok (dump_mti t ++
      pline "TP-UDHI: " (fmt_t (fo_udhi (FO t))) ++
      pline "TP-FCS: 0x" (fmt_02x (FCS t)) ++
      pline "TP-PI: " (pi_string (PI t)) ++
      dump_optionals t ++ r).

(** cmd/smsdecode/smsdecode.go:143-165 [dumpStatusReport]. *)
Definition dump_status_report (t : tpdu) : res bytes :=
  r <- dump_tail t ;;
  Ok (dump_mti t ++
      pline "TP-UDHI: " (fmt_t (fo_udhi (FO t))) ++
      pline "TP-MMS: " (fmt_t (fo_mms (FO t))) ++
      pline "TP-LP: " (fmt_t (fo_lp (FO t))) ++
      pline "TP-SRQ: " (fmt_t (fo_srq (FO t))) ++
      pline "TP-MR: " (fmt_d (MR t)) ++
      pline "TP-RA: " (addr_number (RA t)) ++
      pline "TP-SCTS: " (ts_string (SCTS t)) ++
      pline "TP-DT: " (ts_string (DT t)) ++
      pline "TP-ST: 0x" (fmt_02x (ST t)) ++
      pline "TP-PI: " (pi_string (PI t)) ++
      dump_optionals t ++ r).

(** cmd/smsdecode/smsdecode.go:167-183 [dumpSubmit]. *)
Definition dump_submit (t : tpdu) : res bytes :=
  r <- dump_tail t ;;
  Ok (dump_mti t ++
      pline "TP-RD: " (fmt_t (fo_rd (FO t))) ++
      pline "TP-VPF: 0x" (fmt_02x (fo_vpf (FO t)) ++ str " " ++ vpf_string (fo_vpf (FO t))) ++
      pline "TP-RP: " (fmt_t (fo_rp (FO t))) ++
      pline "TP-UDHI: " (fmt_t (fo_udhi (FO t))) ++
      pline "TP-SRR: " (fmt_t (fo_srr (FO t))) ++
      pline "TP-MR: " (fmt_d (MR t)) ++
      pline "TP-DA: " (addr_number (DA t)) ++
      pline "TP-PID: 0x" (fmt_02x (PID t)) ++
      pline "TP-DCS: " (dcs_string (DCS t)) ++
      dump_vp (VP t) ++ r).

(** cmd/smsdecode/smsdecode.go:185-202 [dumpSubmitReport]. *)
Definition dump_submit_report (t : tpdu) : res bytes :=
  r <- dump_tail t ;;
  Ok (dump_mti t ++
      pline "TP-UDHI: " (fmt_t (fo_udhi (FO t))) ++
      pline "TP-FCS: 0x" (fmt_02x (FCS t)) ++
      pline "TP-PI: " (pi_string (PI t)) ++
      pline "TP-SCTS: " (ts_string (SCTS t)) ++
      dump_optionals t ++ r).

(** cmd/smsdecode/smsdecode.go:68-93 [dumpTPDU]: for an unknown type [dump] is
    nil and its call panics. *)
Definition dump_text (t : tpdu) : res bytes :=
  let st := tpdu_type t in
  let head name := pline "TPDU: " (str name) in
  let after name k := b <- k ;; Ok (head name ++ b) in
  if st =? SmsCommand then after "SMS-COMMAND"%string (dump_command t)
  else if st =? SmsDeliver then after "SMS-DELIVER"%string (dump_deliver t)
  else if st =? SmsDeliverReport then after "SMS-DELIVER-REPORT"%string (dump_deliver_report t)
  else if st =? SmsStatusReport then after "SMS-STATUS-REPORT"%string (dump_status_report t)
  else if st =? SmsSubmit then after "SMS-SUBMIT"%string (dump_submit t)
  else if st =? SmsSubmitReport then after "SMS-SUBMIT-REPORT"%string (dump_submit_report t)
  else Panic.

(** cmd/smsdecode/smsdecode.go:22-39 [main] with one argument, and 63-66
    [dumpSMSC]: what is written to standard output; an error is logged
    instead. *)
Definition smsdecode_text (s : bytes) (pm mo : bool) : res bytes :=
  '(t, smsc) <- smsdecode s pm mo ;;
  b <- dump_text t ;;
  Ok (match smsc with Some a => pline "SMSC: " (addr_number a) | None => [] end ++ b).

(** cmd/smscounter/smscounter.go:109-116 [Count.String]; the verb %d on an int
    has a sign. *)
Definition fmt_int (n : Z) : bytes := if n <? 0 then 45 :: fmt_d (- n) else fmt_d n.
Definition count_string (c : count) : bytes :=
  pline "encoding: " (str (k_encoding c)) ++
  pline "messages: " (fmt_int (k_messages c)) ++
  pline "total length: " (fmt_int (k_tlen c)) ++
  pline "last PDU length: " (fmt_int (k_llen c)) ++
  pline "per_message: " (fmt_int (k_pdulen c)) ++
  pline "remaining: " (fmt_int (k_remaining c)).
