(** Model of sms.go, encode.go and options.go. *)
From Verif Require Import GoBase Dcs Address UserData Tpdu Segment.

(** The options that apply to a TPDU: encoding/tpdu/tpdu.go:997-1000
    (MessageType), 1027-1030 (Direction), 1085-1087 (SmsType),
    encoding/tpdu/dcs.go:58-61 (DCS), encoding/tpdu/options.go:18-21 (WithDA),
    34-37 (WithOA), 50-53 (WithUDH). *)
Inductive tpdu_opt :=
| OptMTI (mti : Z)
| OptDirection (d : Z)
| OptSmsType (st : Z)
| OptDCS (d : Z)
| OptDA (a : address)
| OptOA (a : address)
| OptUDH (u : udh).

(** The ApplyTPDUOption methods: encoding/tpdu/tpdu.go:997-1000, 1027-1030,
    1085-1087, encoding/tpdu/dcs.go:58-61, encoding/tpdu/options.go:18-53. *)
Definition apply_tpdu_opt (t : tpdu) (o : tpdu_opt) : res tpdu :=
  match o with
  | OptMTI m => Ok (set_FO t (FirstOctet.fo_with_mti (FO t) m))
  | OptDirection d => Ok (set_Direction t d)
  | OptSmsType st => set_sms_type t st
  | OptDCS d => Ok (set_dcs t (to_byte d))
  | OptDA a => Ok (set_DA t a)
  | OptOA a => Ok (set_OA t a)
  | OptUDH u => Ok (set_UDHf t u)
  end.

(** encoding/tpdu/tpdu.go:116-125 [New]. *)
Fixpoint apply_tpdu_opts (t : tpdu) (opts : list tpdu_opt) : res tpdu :=
  match opts with
  | [] => Ok t
  | o :: opts' => t <- apply_tpdu_opt t o ;; apply_tpdu_opts t opts'
  end.
Definition tpdu_new (opts : list tpdu_opt) : res tpdu := apply_tpdu_opts new_tpdu opts.
(** encoding/tpdu/tpdu.go:128-137 [NewDeliver], [NewSubmit]. *)
Definition tpdu_new_deliver (opts : list tpdu_opt) : res tpdu :=
  tpdu_new (OptSmsType SmsDeliver :: opts).
Definition tpdu_new_submit (opts : list tpdu_opt) : res tpdu :=
  tpdu_new (OptSmsType SmsSubmit :: opts).

(** encode.go:119-121 [Counter]: an int64, here the value itself; 124-126
    [Count] increments with wrap-around and returns the new value. *)
Definition wrap64 (x : Z) : Z := (x + 2 ^ 63) mod 2 ^ 64 - 2 ^ 63.
Definition counter_count (c : Z) : Z := wrap64 (c + 1).
(** The value returned by the (i+1)-th Count() (encode.go:124-126) from a
    counter at [c]. *)
Fixpoint counter_nth (c : Z) (i : nat) : Z :=
  match i with
  | O => counter_count c
  | S i' => counter_nth (counter_count c) i'
  end.
(** The counter after [n] Count() calls (encode.go:124-126). *)
Fixpoint counter_after (c : Z) (n : nat) : Z :=
  match n with
  | O => c
  | S n' => counter_after (counter_count c) n'
  end.

(** encode.go:39-54 [Encoder], with the default Counters.  [sopts] is left out:
    nothing in the library sets it, so it is always nil. *)
Record sms_encoder := {
  e_eopts : list charset_opt;
  e_pdu : tpdu;
  e_msg_count : Z;
  e_concat_ref : Z }.

(** The EncoderOptions, options.go:22-160.  [EoTemplateOption] covers
    WithTemplateOption, AsSubmit, AsDeliver, As8Bit, AsUCS2, To and From;
    [EoCharset] covers WithAllCharsets, WithCharset, WithLockingCharset,
    WithShiftCharset and WithDefaultCharset (an empty CharsetOption). *)
Inductive encoder_opt :=
| EoTemplate (t : tpdu)
| EoTemplateOption (o : tpdu_opt)
| EoCharset (c : charset_opt).

(** options.go:33-35, 41-43 (the error of ApplyTPDUOption is ignored, and the
    only option that fails leaves the TPDU unchanged), 99-101, 114-116,
    135-137, 156-158. *)
Definition apply_encoder_opt (e : sms_encoder) (o : encoder_opt) : sms_encoder :=
  match o with
  | EoTemplate t => {| e_eopts := e_eopts e; e_pdu := t;
                       e_msg_count := e_msg_count e; e_concat_ref := e_concat_ref e |}
  | EoTemplateOption o =>
      {| e_eopts := e_eopts e;
         e_pdu := match apply_tpdu_opt (e_pdu e) o with Ok t => t | _ => e_pdu e end;
         e_msg_count := e_msg_count e; e_concat_ref := e_concat_ref e |}
  | EoCharset c => {| e_eopts := e_eopts e ++ [c]; e_pdu := e_pdu e;
                      e_msg_count := e_msg_count e; e_concat_ref := e_concat_ref e |}
  end.

Definition zero_encoder : sms_encoder :=
  {| e_eopts := []; e_pdu := zero_tpdu; e_msg_count := 0; e_concat_ref := 0 |}.

(** encode.go:57-69 [NewEncoder]. *)
Definition sms_new_encoder (opts : list encoder_opt) : sms_encoder :=
  fold_left apply_encoder_opt opts zero_encoder.

(** options.go:51-63 AsSubmit, AsDeliver, As8Bit, AsUCS2; 84-93 To, From. *)
Definition AsSubmit : encoder_opt := EoTemplateOption (OptSmsType SmsSubmit).
Definition AsDeliver : encoder_opt := EoTemplateOption (OptSmsType SmsDeliver).
Definition As8Bit : encoder_opt := EoTemplateOption (OptDCS Dcs8BitData).
Definition AsUCS2 : encoder_opt := EoTemplateOption (OptDCS DcsUCS2Data).
Definition To (number : bytes) : encoder_opt :=
  EoTemplateOption (OptDA (new_address_number number)).
Definition From (number : bytes) : encoder_opt :=
  EoTemplateOption (OptOA (new_address_number number)).

(** encode.go:93, the segmentation options. *)
Definition encoder_seg_cfg (e : sms_encoder) : seg_cfg :=
  {| sc_wide := false;
     sc_cr := Some (counter_nth (e_concat_ref e));
     sc_mr := Some (counter_nth (e_msg_count e)) |}.

(** encode.go:95-112: the template TPDU and the user data given to Segment. *)
Definition encode_prepare (e : sms_encoder) (msg : bytes) : res (tpdu * bytes) :=
  let alpha := dcs_alpha (DCS (e_pdu e)) in
  if (alpha =? Alpha8Bit) || (alpha =? AlphaUCS2) then Ok (e_pdu e, msg)
  else
    let '(d, h, alpha) := encode_user_data msg (e_eopts e) in
    match dcs_with_alphabet (DCS (e_pdu e)) alpha with
    | Ok dcs =>
        let t := if negb (dcs =? DCS (e_pdu e)) then set_dcs (e_pdu e) dcs else e_pdu e in
        (* SetUDH(append(e.pdu.UDH[:0:0], udh...)): the template's own UDH is
           replaced. *)
        let t := match h with Some l => set_udh t (Some l) | None => t end in
        Ok (t, d)
    | Err _ => Err ErrDcsConflict
    | Panic => Panic
    | Diverge => Diverge
    end.

(** encode.go:89-114 [Encoder.Encode].  The receiver is a copy, so the options
    are local to the call, but the counters are shared: the result carries
    the encoder with its counters advanced. *)
Definition advance (e : sms_encoder) (pdus : list tpdu) : sms_encoder :=
  {| e_eopts := e_eopts e; e_pdu := e_pdu e;
     e_msg_count := counter_after (e_msg_count e) (length pdus);
     e_concat_ref := if 1 <? len pdus then counter_count (e_concat_ref e)
                     else e_concat_ref e |}.

Definition encoder_encode (e : sms_encoder) (msg : bytes) (opts : list encoder_opt)
  : res (list tpdu * sms_encoder) :=
  let e' := fold_left apply_encoder_opt opts e in
  '(t, d) <- encode_prepare e' msg ;;
  pdus <- segment t d (encoder_seg_cfg e') ;;
  Ok (pdus, advance e pdus).

(** encode.go:31-35 [Encode]. *)
Definition encode (msg : bytes) (opts : list encoder_opt) : res (list tpdu) :=
  '(pdus, _) <- encoder_encode (sms_new_encoder (AsSubmit :: opts)) msg [] ;;
  Ok pdus.

(** sms.go:34-60, the loop of [Decode] and the final concatenation.  A segment
    is a *tpdu.TPDU: [None] is nil and is dereferenced. *)
Fixpoint decode_loop (segs : list (option tpdu)) (dangling : option bytes)
         (opts : list charset_opt) : res bytes :=
  match segs with
  | [] => match dangling with
          | Some b => Err (Ucs2DanglingSurrogate b)
          | None => Ok []
          end
  | None :: _ => Panic
  | Some s :: segs' =>
      let ud := match dangling with Some b => b ++ UD s | None => UD s end in
      let d := decode_user_data ud (ies (UDH s)) (dcs_alpha (DCS s)) opts in
      match dd_err d with
      | None => rest <- decode_loop segs' None opts ;; Ok (dd_text d ++ rest)
      | Some (Ucs2DanglingSurrogate b) =>
          rest <- decode_loop segs' (Some b) opts ;; Ok (dd_text d ++ rest)
      | Some e => Err e
      end
  end.

(** sms.go:23-61 [Decode]. *)
Definition decode (segs : list (option tpdu)) (opts : list charset_opt) : res bytes :=
  let opts := match opts with [] => [OptAllCharsets] | _ => opts end in
  decode_loop segs None opts.

(** sms.go:76-90, the loop of [IsCompleteMessage]. *)
Fixpoint complete_loop (segs : list tpdu) (base_segs base_ref i : Z) : bool :=
  match segs with
  | [] => true
  | s :: segs' =>
      match tpdu_concat_info s with
      | None => false
      | Some (n, q, r) =>
          if negb (n =? base_segs) then false
          else if negb (r =? base_ref) then false
          else if negb (q =? i + 1) then false
          else complete_loop segs' base_segs base_ref (i + 1)
      end
  end.

(** sms.go:65-92 [IsCompleteMessage], for non-nil TPDUs. *)
Definition is_complete_message (segs : list tpdu) : bool :=
  match segs with
  | [] => false
  | s :: _ =>
      match tpdu_concat_info s with
      | None => len segs =? 1
      | Some (n, _, r) =>
          if negb (n =? len segs) then false else complete_loop segs n r 0
      end
  end.

(** sms.go:100-111 [Unmarshal], [mo] standing for the option AsMO. *)
Definition unmarshal (src : bytes) (mo : bool) : res tpdu :=
  tpdu_unmarshal (set_Direction zero_tpdu (if mo then MO else MT)) src.
