(** What the lines of the dump of cmd/smsdecode say: for each kind of message
    the labels, and how a reader understands the text behind each.  The positions
    of the flags are those of 3GPP TS 23.040 section 9.2.3. *)
From Coq Require Import String Ascii.
From Verif Require Import GoBase Address GoTime ValidityPeriod UserData Tpdu SpecTime SpecDcs.

Definition ascii_text (s : string) : bytes :=
  map (fun c => Z.of_nat (nat_of_ascii c)) (list_ascii_of_string s).
Notation "t # " := (ascii_text t) (at level 5, format "t #").

(** ** Numbers *)
Definition decimal_value (b : bytes) : Z := fold_left (fun a d => 10 * a + (d - 48)) b 0.
Definition decimal_digits (b : bytes) : Prop := Forall (fun d => 48 <= d <= 57) b.
(** A number, and a number of [w] digits. *)
Definition dec (n : Z) (b : bytes) : Prop := b <> [] /\ decimal_digits b /\ decimal_value b = n.
Definition dec_w (w : nat) (n : Z) (b : bytes) : Prop := length b = w /\ decimal_digits b /\ decimal_value b = n.
(** An octet in hexadecimal. *)
Definition hex2 (n : Z) (b : bytes) : Prop :=
  exists hi lo h l, n = 16 * Z.of_nat hi + Z.of_nat lo /\ b = [h; l] /\
    nth_error "0123456789abcdef"# hi = Some h /\ nth_error "0123456789abcdef"# lo = Some l.
Definition yes_no (v : bool) (b : bytes) : Prop := b = if v then "true"# else "false"#.

(** ** Times and durations *)
(** The [n]-th day after January 1 of the year 0, which is 719528 days before
    1970. *)
Definition day_of (n : nat) : Z * Z * Z := Nat.iter n next_day (0, 1, 1).
Definition time_shown (t : gotime) (b : bytes) : Prop :=
  let local := t_unix t + t_off t in
  exists y mo d h mi s zh zm Y MO D H MI S ZH ZM sign,
    b = Y ++ "-"# ++ MO ++ "-"# ++ D ++ " "# ++ H ++ ":"# ++ MI ++ ":"# ++ S ++ " "# ++ sign ++ ZH ++ ZM /\
    dec_w 4 y Y /\ dec_w 2 mo MO /\ dec_w 2 d D /\ dec_w 2 h H /\ dec_w 2 mi MI /\ dec_w 2 s S /\ dec_w 2 zh ZH /\ dec_w 2 zm ZM /\
    day_of (Z.to_nat (local / 86400 + 719528)) = (y, mo, d) /\
    local mod 86400 = 3600 * h + 60 * mi + s /\ 0 <= mi < 60 /\ 0 <= s < 60 /\ 0 <= zm < 60 /\
    ((sign = "+"# /\ t_off t = 60 * (60 * zh + zm)) \/ (sign = "-"# /\ t_off t = - (60 * (60 * zh + zm)))).
(** Hours, minutes and seconds, from the first that is not zero on. *)
Definition duration_shown (ns : Z) (b : bytes) : Prop :=
  exists h m s H M S,
    ns = (3600 * h + 60 * m + s) * 1000000000 /\ 0 <= h /\ 0 <= m < 60 /\ 0 <= s < 60 /\
    dec h H /\ dec m M /\ dec s S /\
    b = (if 0 <? h then H ++ "h"# else []) ++ (if (0 <? h) || (0 <? m) then M ++ "m"# else []) ++ S ++ "s"#.

(** ** Octets *)
(** Lines of 16 octets: the offset, the octets in hexadecimal, and the printable
    characters.  The octet at place i of a line is at column 10 + 3 i, one further
    right from the eighth on. *)
Definition row_shows (ud : bytes) (rows : list bytes) : Prop :=
  length rows = ((length ud + 15) / 16)%nat /\
  forall j o, nth_error ud j = Some o ->
    exists row, nth_error rows (j / 16) = Some row /\
      let i := (j mod 16)%nat in
      hex2 o (firstn 2 (skipn (10 + 3 * i + i / 8) row)) /\
      nth_error row (61 + i) = Some (if (32 <=? o) && (o <=? 126) then o else 46) /\
      hex2 (Z.of_nat (16 * (j / 16)) / 256 mod 256) (firstn 2 (skipn 4 row)) /\
      hex2 (Z.of_nat (16 * (j / 16)) mod 256) (firstn 2 (skipn 6 row)).
(** Lines after the first are indented by 7. *)
Definition indented (rows : list bytes) : bytes :=
  match rows with
  | [] => []
  | r :: rs => r ++ concat (map (fun x => [10] ++ "       "# ++ x) rs)
  end.
Definition octets_shown (ud : bytes) (b : bytes) : Prop := exists rows, row_shows ud rows /\ b = indented rows.
(** The data of a COMMAND are followed by a line without octets. *)
Definition octets_shown_cd (ud : bytes) (b : bytes) : Prop := exists rows, row_shows ud rows /\ b = indented (rows ++ [[]]).

(** ** Fields *)
Definition dcs_shown (d : Z) (b : bytes) : Prop :=
  exists x, hex2 d x /\
    b = "0x"# ++ x ++ match alphabet_of d with
                      | Some 0 => " 7bit"# | Some 1 => " 8bit"# | Some 2 => " UCS-2"# | _ => []
                      end.
Definition pi_shown (p : Z) (b : bytes) : Prop :=
  b = if p =? 0 then "0"#
      else nth (Z.to_nat (p mod 8)) [""#; "PID"#; "DCS"#; "PID|DCS"#; "UDL"#; "PID|UDL"#; "DCS|UDL"#; "PID|DCS|UDL"#] [].
Definition mti_shown (n : Z) (b : bytes) : Prop :=
  exists x, hex2 n x /\ b = x ++ nth (Z.to_nat n) [" Deliver"#; " Submit"#; " Command"#] [].
Definition vpf_shown (n : Z) (b : bytes) : Prop :=
  exists x, hex2 n x /\ b = x ++ nth (Z.to_nat n) [" Not Present"#; " Enhanced"#; " Relative"#; " Absolute"#] [].
Definition vp_shown (v : validity) (b : bytes) : Prop :=
  (vp_format v = 0 /\ b = "Not Present"#) \/
  (vp_format v = 1 /\ exists x, duration_shown (vp_duration v) x /\
     b = "Enhanced "# ++ nth (Z.to_nat (vp_efi v mod 8)) ["Not Present"#; "Relative"#; "Relative Seconds"#; "Relative HHMMSS"#] "Unknown"# ++ " - "# ++ x) \/
  (vp_format v = 2 /\ exists x, duration_shown (vp_duration v) x /\ b = "Relative - "# ++ x) \/
  (vp_format v = 3 /\ exists x, time_shown (vp_time v) x /\ b = "Absolute - "# ++ x).
Definition ie_shown (i : ie) (b : bytes) : Prop :=
  exists x ws, dec (ie_id i) x /\ Forall2 dec (ie_data i) ws /\
    b = x ++ "  Data: ["# ++ match ws with [] => [] | w :: ws => w ++ concat (map (fun y => " "# ++ y) ws) end ++ "]"#.

(** ** Lines *)
Definition line := (bytes * (bytes -> Prop))%type.
Definition flag (n : Z) (t : tpdu) : bytes -> Prop := yes_no (Z.testbit (FO t) n).
Definition header_lines (t : tpdu) : list line :=
  match UDH t with
  | Some (i :: l) => ("TP-UDH: ID: "#, ie_shown i) :: map (fun i => ("       ID: "#, ie_shown i)) l
  | _ => []
  end.
Definition ud_lines (t : tpdu) : list line := header_lines t ++ [("TP-UD: "#, octets_shown (UD t))].
Definition optional_lines (t : tpdu) : list line :=
  (if Z.testbit (PI t) 0 then [("TP-PID: 0x"#, hex2 (PID t))] else []) ++
  (if Z.testbit (PI t) 1 then [("TP-DCS: "#, dcs_shown (DCS t))] else []).
(** An international number (bits 6 to 4 of the type are 001) has a plus. *)
Definition number (a : address) (b : bytes) : Prop := b = (if a_toa a / 16 mod 8 =? 1 then "+"# else []) ++ a_addr a.

Definition shown_lines (t : tpdu) : list line :=
  if tpdu_type t =? SmsDeliver then
    [("TPDU: "#, eq "SMS-DELIVER"#); ("TP-MTI: 0x"#, mti_shown 0);
     ("TP-MMS: "#, flag 2 t); ("TP-LP: "#, flag 3 t); ("TP-RP: "#, flag 7 t); ("TP-UDHI: "#, flag 6 t); ("TP-SRI: "#, flag 5 t);
     ("TP-OA: "#, number (OA t)); ("TP-PID: 0x"#, hex2 (PID t)); ("TP-DCS: "#, dcs_shown (DCS t)); ("TP-SCTS: "#, time_shown (SCTS t))] ++
    ud_lines t
  else if tpdu_type t =? SmsDeliverReport then
    [("TPDU: "#, eq "SMS-DELIVER-REPORT"#); ("TP-MTI: 0x"#, mti_shown 0); ("TP-UDHI: "#, flag 6 t);
     ("TP-FCS: 0x"#, hex2 (FCS t)); ("TP-PI: "#, pi_shown (PI t))] ++ optional_lines t ++ ud_lines t
  else if tpdu_type t =? SmsSubmit then
    [("TPDU: "#, eq "SMS-SUBMIT"#); ("TP-MTI: 0x"#, mti_shown 1);
     ("TP-RD: "#, flag 2 t); ("TP-VPF: 0x"#, vpf_shown (FO t / 8 mod 4)); ("TP-RP: "#, flag 7 t); ("TP-UDHI: "#, flag 6 t); ("TP-SRR: "#, flag 5 t);
     ("TP-MR: "#, dec (MR t)); ("TP-DA: "#, number (DA t)); ("TP-PID: 0x"#, hex2 (PID t)); ("TP-DCS: "#, dcs_shown (DCS t));
     ("TP-VP: "#, vp_shown (VP t))] ++ ud_lines t
  else if tpdu_type t =? SmsSubmitReport then
    [("TPDU: "#, eq "SMS-SUBMIT-REPORT"#); ("TP-MTI: 0x"#, mti_shown 1); ("TP-UDHI: "#, flag 6 t);
     ("TP-FCS: 0x"#, hex2 (FCS t)); ("TP-PI: "#, pi_shown (PI t)); ("TP-SCTS: "#, time_shown (SCTS t))] ++ optional_lines t ++ ud_lines t
  else if tpdu_type t =? SmsStatusReport then
    [("TPDU: "#, eq "SMS-STATUS-REPORT"#); ("TP-MTI: 0x"#, mti_shown 2); ("TP-UDHI: "#, flag 6 t);
     ("TP-MMS: "#, flag 2 t); ("TP-LP: "#, flag 3 t); ("TP-SRQ: "#, flag 5 t);
     ("TP-MR: "#, dec (MR t)); ("TP-RA: "#, number (RA t)); ("TP-SCTS: "#, time_shown (SCTS t)); ("TP-DT: "#, time_shown (DT t));
     ("TP-ST: 0x"#, hex2 (ST t)); ("TP-PI: "#, pi_shown (PI t))] ++ optional_lines t ++ ud_lines t
  else
    [("TPDU: "#, eq "SMS-COMMAND"#); ("TP-MTI: 0x"#, mti_shown 2); ("TP-UDHI: "#, flag 6 t); ("TP-SRR: "#, flag 5 t);
     ("TP-MR: "#, dec (MR t)); ("TP-PID: 0x"#, hex2 (PID t)); ("TP-CT: 0x"#, hex2 (CT t)); ("TP-MN: "#, dec (MN t));
     ("TP-DA: "#, number (DA t)); ("TP-SCTS: "#, time_shown (SCTS t)); ("TP-CDL: "#, dec (len (UD t))); ("TP-CD: "#, octets_shown_cd (UD t))].

(** A text made of such lines, in order and with nothing else. *)
Definition made_of (ls : list line) (text : bytes) : Prop :=
  exists xs, Forall2 (fun l x => snd l x) ls xs /\ text = concat (map (fun '(l, x) => fst l ++ x ++ [10]) (combine ls xs)).
