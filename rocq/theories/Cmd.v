(** Model of the logic of the command line tools in cmd/. *)
From Verif Require Import GoBase Utf Dcs Address UserData Tpdu Segment Sms PduMode Collector.

(** cmd/smscounter/smscounter.go:100-107 [Count]; the encoding is a string. *)
Record count := {
  k_encoding : string; k_messages : Z; k_tlen : Z; k_llen : Z; k_pdulen : Z;
  k_remaining : Z }.

(** cmd/smscounter/smscounter.go:78-87 [hasEscapes]. *)
Definition has_escapes (pdus : list tpdu) : bool :=
  existsb (fun p => existsb (Z.eqb 27) (UD p)) pdus.

(** cmd/smscounter/smscounter.go:43-76 [NewCount]. *)
Definition new_count (msg : bytes) (nli : Z) : res count :=
  let opts := if negb (nli =? 0) then [EoCharset (OptCharset [nli])] else [] in
  pdus <- encode msg opts ;;
  p0 <- idx pdus 0 ;;
  let alpha := dcs_alpha (DCS p0) in
  plast <- idx pdus (len pdus - 1) ;;
  let last_len := len (UD plast) in
  let pm := ud_block_size p0 in
  let '(enc, last_len, pm) :=
    if alpha =? Alpha7Bit then
      ((if has_escapes pdus then "7BIT_EX"%string else "7BIT"%string), last_len, pm)
    else if alpha =? Alpha8Bit then ("8BIT"%string, last_len, pm)
    else if alpha =? AlphaUCS2 then ("UCS-2"%string, Z.quot last_len 2, Z.quot pm 2)
    else (""%string, last_len, pm) in
  Ok {| k_encoding := enc; k_messages := len pdus;
        k_tlen := pm * (len pdus - 1) + last_len; k_llen := last_len;
        k_pdulen := pm; k_remaining := pm - last_len |}.

(** cmd/smsdecode/smsdecode.go:41-61 [decode]. *)
Definition smsdecode (s : bytes) (pm mo : bool) : res (tpdu * option address) :=
  b <- hex_decode s ;;
  '(b, a) <- (if pm then p <- pdu_unmarshal_hex s ;; Ok (p_tpdu p, Some (p_smsc p))
              else Ok (b, None)) ;;
  t <- unmarshal b mo ;;
  Ok (t, a).

(** cmd/smsdecode/smsdecode.go:68-93 [dumpTPDU] and 225-231 [dumpUDH], only as
    far as they can panic: [dump] is nil for an unknown type, and the first
    element of a non-nil UDH is taken.  What they print is in Print.v. *)
Definition dump_tpdu (t : tpdu) : res unit :=
  let st := tpdu_type t in
  if (0 <=? st) && (st <=? SmsCommand) then
    if st =? SmsCommand then Ok tt else
    match UDH t with
    | None => Ok tt
    | Some l => _ <- idx l 0 ;; Ok tt
    end
  else Panic.

(** cmd/smssubmit/smssubmit.go:32-51: the hex strings printed, one per TPDU.
    The error of MarshalBinary is discarded and its nil result printed as an
    empty string. *)
Definition smssubmit (number msg : bytes) (nli : Z) : res (list bytes) :=
  let opts := [AsSubmit; To number] ++
              (if negb (nli =? 0) then [EoCharset (OptCharset [nli])] else []) in
  pdus <- encode msg opts ;;
  Ok (map (fun p => match tpdu_marshal p with Ok b => hex_encode b | _ => [] end) pdus).

(** What cmd/smsdeliver prints (line 61) and logs (lines 47, 52, 59); the time
    stamps of the log are left out. *)
Inductive sd_line :=
| SdPrint (number msg : bytes)
| SdLog (e : gerr).

(** How cmd/smsdeliver/smsdeliver.go:20-70 [main] ends: with the Collector's
    state, whose pipes are then printed (lines 64-69), with log.Fatal (lines 34
    and 40), or with a panic. *)
Inductive sd_end :=
| SdDone (s : cstate)
| SdFatal (e : gerr)
| SdPanic
| SdHang.

(** A Collector without a timeout, cmd/smsdeliver/smsdeliver.go:29. *)
Definition sd_cfg : ccfg := {| cf_timeout := false; cf_handler := false |}.

(** cmd/smsdeliver/smsdeliver.go:32-43: the octets of the TPDU. *)
Definition sd_octets (pm : bool) (a : bytes) : res bytes :=
  b <- hex_decode a ;;
  if pm then p <- pdu_unmarshal b ;; Ok (p_tpdu p) else Ok b.

(** cmd/smsdeliver/smsdeliver.go:50-62: what is logged and printed after
    Collect; [None] is a panic.  A successful Decode never returns nil. *)
Definition sd_report (d : option (list (option seg))) (err : option gerr)
  : option (list sd_line) :=
  let logged := match err with Some e => [SdLog e] | None => [] end in
  match d with
  | None => Some logged
  | Some pdus =>
      match decode (map (option_map sg_pdu) pdus) [] with
      | Ok msg =>
          match pdus with
          | Some g :: _ => Some (logged ++ [SdPrint (addr_number (OA (sg_pdu g))) msg])
          | _ => None
          end
      | Err e => Some (logged ++ [SdLog e])
      | _ => None
      end
  end.

(** cmd/smsdeliver/smsdeliver.go:31-63, the loop over the arguments; [n] counts
    the calls of Collect. *)
Fixpoint smsdeliver_loop (pm : bool) (args : list bytes) (n : nat) (s : cstate)
  : list sd_line * sd_end :=
  match args with
  | [] => ([], SdDone s)
  | a :: args' =>
      match sd_octets pm a with
      | Err e => ([], SdFatal e)
      | Panic => ([], SdPanic)
      | Diverge => ([], SdHang)
      | Ok tb =>
          match unmarshal tb false with
          | Err e => let '(ls, z) := smsdeliver_loop pm args' n s in (SdLog e :: ls, z)
          | Panic => ([], SdPanic)
          | Diverge => ([], SdHang)
          | Ok t =>
              match collect sd_cfg s {| sg_id := n; sg_pdu := t |} with
              | (_, CPanic) => ([], SdPanic)
              | (s', CReturn d err) =>
                  match sd_report d err with
                  | None => ([], SdPanic)
                  | Some l =>
                      let '(ls, z) := smsdeliver_loop pm args' (S n) s' in (l ++ ls, z)
                  end
              end
          end
      end
  end.

(** cmd/smsdeliver/smsdeliver.go:20-70 [main], from a new Collector (line 29). *)
Definition smsdeliver (pm : bool) (args : list bytes) : list sd_line * sd_end :=
  smsdeliver_loop pm args 0 new_collector.
