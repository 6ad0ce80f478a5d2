(** Model of what the tools charsets, smssubmit and smsdeliver write to standard
    output. *)
From Coq Require Import String Ascii.
From Verif Require Import GoBase Utf Charset Address Tpdu Sms Collector Cmd Print ErrorText.

(** cmd/charsets/charsets.go:43-50: the characters shown by a name.  The verb
    %3s (line 62) pads to three characters on the left. *)
Definition special (v : Z) : option bytes :=
  if v =? 10 then Some (str " LF")
  else if v =? 13 then Some (str " CR")
  else if v =? 12 then Some (str " FF")
  else if v =? 32 then Some (str " SP")
  else if v =? 27 then Some (str "ESC")
  else if v =? 8364 then Some ([32; 32] ++ encode_rune 8364)
  else None.

(** The verb %04x, cmd/charsets/charsets.go:64, for a value that is not
    negative. *)
Definition fmt_04x (n : Z) : bytes := let d := fmt_x n in repeat 48 (4 - length d) ++ d.

(** cmd/charsets/charsets.go:60-70, one cell. *)
Definition cell (v : option Z) : bytes :=
  match v with
  | None => str "     "
  | Some v =>
      match special v with
      | Some s => s ++ str "  "
      | None => if 1024 <=? v then fmt_04x v ++ str " " else str "  " ++ encode_rune v ++ str "  "
      end
  end.

(** cmd/charsets/charsets.go:42-74 [Display]; a key of the map is a byte. *)
Definition columns : list Z := [0; 1; 2; 3; 4; 5; 6; 7].
Definition rows : list Z := [0; 1; 2; 3; 4; 5; 6; 7; 8; 9; 10; 11; 12; 13; 14; 15].
Definition display_row (m : decoder) (r : Z) : bytes :=
  str "0x_" ++ fmt_x r ++ str ": " ++ flat_map (fun c => cell (assoc m (to_byte (c * 16 + r)))) columns ++ [10].
Definition display (m : decoder) : bytes :=
  str "      " ++ flat_map (fun c => str "0x" ++ fmt_d c ++ str "_ ") columns ++ [10] ++
  flat_map (display_row m) rows.

(** cmd/charsets/charsets.go:13-28 [charsetName]. *)
Definition charset_name : list string :=
  ["Basic (default)"; "Turkish"; "Spanish"; "Portuguese"; "Bengali"; "Gujaranti"; "Hindi"; "Kannada";
   "Malayalam"; "Oriya"; "Punjabi"; "Tamil"; "Telugu"; "Urdu"]%string.

(** cmd/charsets/charsets.go:30-39 [main]; an index out of range panics. *)
Definition charset_block (nli : Z) : res bytes :=
  name <- idx charset_name nli ;;
  Ok (str name ++ str " Locking (NLI=" ++ fmt_int nli ++ str ")" ++ [10] ++ display (new_decoder nli) ++ [10] ++
      str name ++ str " Shift (NLI=" ++ fmt_int nli ++ str ")" ++ [10] ++ display (new_ext_decoder nli) ++ [10]).
Fixpoint charset_blocks (n : nat) (nli : Z) : res bytes :=
  match n with
  | O => Ok []
  | S n' => b <- charset_block nli ;; r <- charset_blocks n' (nli + 1) ;; Ok (b ++ r)
  end.
Definition charsets_text : res bytes := charset_blocks (Z.to_nat (nli_urdu + 1)) nli_default.

(** cmd/smssubmit/smssubmit.go:42-50, of the hex strings: a single TPDU is not
    numbered. *)
Fixpoint submit_lines (i : Z) (lines : list bytes) : bytes :=
  match lines with
  | [] => []
  | l :: ls => str "Submit TPDU " ++ fmt_int (i + 1) ++ str ":" ++ [10] ++ l ++ [10] ++ submit_lines (i + 1) ls
  end.
Definition submit_text (lines : list bytes) : bytes :=
  match lines with
  | [l] => str "Submit TPDU:" ++ [10] ++ l ++ [10]
  | _ => submit_lines 0 lines
  end.
(** cmd/smssubmit/smssubmit.go:19-51 [main]; an error is logged and nothing
    written. *)
Definition smssubmit_text (number msg : bytes) (nli : Z) : res bytes :=
  lines <- smssubmit number msg nli ;; Ok (submit_text lines).

(** cmd/smsdeliver/smsdeliver.go:60-62: the messages; what is logged goes to
    standard error, and the report of incomplete messages (lines 64-69) is in
    DeliverReport.v. *)
Definition deliver_text (ls : list sd_line) : bytes :=
  flat_map (fun l => match l with SdPrint n m => n ++ str ": " ++ m ++ [10] | SdLog _ => [] end) ls.
