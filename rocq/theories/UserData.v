(** Model of encoding/tpdu/userdata.go. *)
From Verif Require Import GoBase Utf Ucs2 Charset Gsm7 Dcs TpduError.

(** encoding/tpdu/userdata.go:28-31 [InformationElement]. *)
Record ie := { ie_id : Z; ie_data : bytes }.

(** encoding/tpdu/userdata.go:24 [UserDataHeader]: a slice; [None] is the nil
    slice, which SetUDH distinguishes from an empty one. *)
Definition udh := option (list ie).
Definition ies (u : udh) : list ie := match u with Some l => l | None => [] end.

(** encoding/tpdu/userdata.go:33-35 [marshalledLen]. *)
Definition ie_len (i : ie) : Z := 2 + len (ie_data i).

(** encoding/tpdu/userdata.go:38-44 [UDHL]. *)
Fixpoint udhl (l : list ie) : Z :=
  match l with
  | [] => 0
  | i :: l' => ie_len i + udhl l'
  end.

(** encoding/tpdu/userdata.go:48-60 [UserDataHeader.MarshalBinary] (never
    fails). *)
Definition ie_marshal (i : ie) : bytes :=
  ie_id i :: to_byte (len (ie_data i)) :: ie_data i.
Definition udh_marshal (l : list ie) : bytes :=
  if len l =? 0 then [] else to_byte (udhl l) :: flat_map ie_marshal l.

(** encoding/tpdu/userdata.go:79-94, the loop of UnmarshalBinary.  [lim] is
    udhl including itself.  Returns the elements read (in order). *)
Fixpoint udh_loop (fuel : nat) (src : bytes) (lim ri : Z) : res (list ie) :=
  if negb (ri <? lim) then Ok [] else
  match fuel with
  | O => Diverge
  | S fuel' =>
      if lim <? ri + 2 then Err (new_decode_error "ie" ri ErrUnderflow) else
      id <- idx src ri ;;
      let ri := ri + 1 in
      iedl <- idx src ri ;;
      let ri := ri + 1 in
      if len src <? ri + iedl then Err (new_decode_error "ied" ri ErrUnderflow) else
      data <- slice src ri (ri + iedl) ;;
      rest <- udh_loop fuel' src lim (ri + iedl) ;;
      Ok ({| ie_id := id; ie_data := data |} :: rest)
  end.

(** encoding/tpdu/userdata.go:68-97 [UserDataHeader.UnmarshalBinary].  The
    result is nil when there are no elements. *)
Definition udh_unmarshal (src : bytes) : res (udh * Z) :=
  if len src <? 1 then Err (new_decode_error "udhl" 0 ErrUnderflow) else
  b <- idx src 0 ;;
  let lim := b + 1 in
  let ri := 1 in
  if len src <? lim then Err (new_decode_error "ie" ri ErrUnderflow) else
  l <- udh_loop (length src) src lim ri ;;
  Ok ((match l with [] => None | _ => Some l end), lim).

(** encoding/tpdu/userdata.go:102-109 [UserDataHeader.IE]: last instance. *)
Definition find_ie (l : list ie) (id : Z) : option ie :=
  find (fun i => ie_id i =? id) (rev l).

(** encoding/tpdu/userdata.go:112-120 [UserDataHeader.IEs]. *)
Definition find_ies (l : list ie) (id : Z) : list ie :=
  filter (fun i => ie_id i =? id) l.

(** encoding/tpdu/userdata.go:145-153 [ConcatInfo8]: (segments, seqno, mref);
    [None] is ok = false. *)
Definition concat_info8 (l : list ie) : option (Z * Z * Z) :=
  match find_ie l 0 with
  | Some i => match ie_data i with
              | [r; s; n] => Some (s, n, r)
              | _ => None
              end
  | None => None
  end.

(** encoding/tpdu/userdata.go:160-168 [ConcatInfo16]. *)
Definition concat_info16 (l : list ie) : option (Z * Z * Z) :=
  match find_ie l 8 with
  | Some i => match ie_data i with
              | [r1; r2; s; n] => Some (s, n, r1 * 256 + r2)
              | _ => None
              end
  | None => None
  end.

(** encoding/tpdu/userdata.go:129-138 [ConcatInfo]. *)
Definition concat_info (l : list ie) : option (Z * Z * Z) :=
  match l with
  | [] => None
  | _ => match concat_info8 l with
         | Some x => Some x
         | None => concat_info16 l
         end
  end.

(** encoding/tpdu/userdata.go:349-350. *)
Definition shiftIEI : Z := 24.
Definition lockingIEI : Z := 25.

(** The character set options, encoding/tpdu/userdata.go:240-347:
    CharsetOption, LockingCharsetOption, ShiftCharsetOption,
    AllCharsetsOption. *)
Inductive charset_opt :=
| OptCharset (nli : list Z)
| OptLocking (nli : list Z)
| OptShift (nli : list Z)
| OptAllCharsets.

(** 1 .. 13, encoding/tpdu/userdata.go:310-317 and
    encoding/gsm7/charset/charset.go:118-125. *)
Definition all_nli : list Z := [1;2;3;4;5;6;7;8;9;10;11;12;13].

(** encoding/tpdu/userdata.go:170-173 [udDecodeConfig]: the two maps used as
    sets, represented by the lists of their members. *)
Record ud_cfg := { c_locking : list Z; c_shift : list Z }.
Definition ud_cfg_empty : ud_cfg := {| c_locking := []; c_shift := [] |}.

(** applyDecodeOption, encoding/tpdu/userdata.go:244-308. *)
Definition apply_decode_option (c : ud_cfg) (o : charset_opt) : ud_cfg :=
  match o with
  | OptCharset n => {| c_locking := c_locking c ++ n; c_shift := c_shift c ++ n |}
  | OptLocking n => {| c_locking := c_locking c ++ n; c_shift := c_shift c |}
  | OptShift n => {| c_locking := c_locking c; c_shift := c_shift c ++ n |}
  | OptAllCharsets =>
      {| c_locking := c_locking c ++ all_nli; c_shift := c_shift c ++ all_nli |}
  end.

(** applyEncodeOption, encoding/tpdu/userdata.go:252-317: the ordered lists;
    AllCharsets replaces what was accumulated before it. *)
Definition apply_encode_option (c : ud_cfg) (o : charset_opt) : ud_cfg :=
  match o with
  | OptCharset n => {| c_locking := c_locking c ++ n; c_shift := c_shift c ++ n |}
  | OptLocking n => {| c_locking := c_locking c ++ n; c_shift := c_shift c |}
  | OptShift n => {| c_locking := c_locking c; c_shift := c_shift c ++ n |}
  | OptAllCharsets => {| c_locking := all_nli; c_shift := all_nli |}
  end.

Definition mem_z (x : Z) (l : list Z) : bool := existsb (Z.eqb x) l.

(** encoding/tpdu/userdata.go:203-218: the language selected by an IE, if it
    is registered. *)
Definition select_nli (l : list ie) (iei : Z) (avail : list Z) : option Z :=
  match find_ie l iei with
  | Some i => match ie_data i with
              | n :: _ => if mem_z n avail then Some n else None
              | [] => None
              end
  | None => None
  end.

(** Outcome of DecodeUserData, encoding/tpdu/userdata.go:189: text and error together, as ucs2.Decode returns
    text with ErrDanglingSurrogate. *)
Record ud_decoded := { dd_text : bytes; dd_err : option gerr }.

(** encoding/tpdu/userdata.go:189-222 [DecodeUserData]. *)
Definition decode_user_data (ud : bytes) (l : list ie) (alpha : Z)
           (opts : list charset_opt) : ud_decoded :=
  if alpha =? AlphaUCS2 then
    let d := ucs2_decode ud in
    {| dd_text := utf8_of (u2_runes d); dd_err := u2_err d |}
  else if alpha =? Alpha8Bit then {| dd_text := ud; dd_err := None |}
  else
    let cfg := fold_left apply_decode_option opts ud_cfg_empty in
    let locking := select_nli l lockingIEI (c_locking cfg) in
    let shift := select_nli l shiftIEI (c_shift cfg) in
    match gsm7_decode (gsm7_new_decoder locking shift false) ud with
    | Ok t => {| dd_text := t; dd_err := None |}
    | Err e => {| dd_text := []; dd_err := Some e |}
    | _ => {| dd_text := []; dd_err := None |} (* impossible: see gsm7_decode_total *)
    end.

(** The information element naming a language, encoding/tpdu/userdata.go:385,
    395 and 409-410. *)
Definition nli_ie (id nli : Z) : ie := {| ie_id := id; ie_data := [to_byte nli] |}.

(** encoding/tpdu/userdata.go:381-389, the locking tables. *)
Fixpoint try_locking (msg : bytes) (l : list Z) : option (list Z * list ie) :=
  match l with
  | [] => None
  | nli :: l' =>
      match gsm7_encode (gsm7_new_encoder (Some nli) None) msg with
      | Ok enc => Some (enc, [nli_ie lockingIEI nli])
      | _ => try_locking msg l'
      end
  end.

(** encoding/tpdu/userdata.go:391-399, the shift tables. *)
Fixpoint try_shift (msg : bytes) (l : list Z) : option (list Z * list ie) :=
  match l with
  | [] => None
  | nli :: l' =>
      match gsm7_encode (gsm7_new_encoder None (Some nli)) msg with
      | Ok enc => Some (enc, [nli_ie shiftIEI nli])
      | _ => try_shift msg l'
      end
  end.

(** encoding/tpdu/userdata.go:402-414, the inner loop over shift tables for
    one locking table, skipping the languages that differ. *)
Fixpoint try_both_inner (msg : bytes) (nli : Z) (l : list Z)
  : option (list Z * list ie) :=
  match l with
  | [] => None
  | snli :: l' =>
      if negb (nli =? snli) then try_both_inner msg nli l'
      else
        match gsm7_encode (gsm7_new_encoder (Some nli) (Some nli)) msg with
        | Ok enc => Some (enc, [nli_ie lockingIEI nli; nli_ie shiftIEI nli])
        | _ => try_both_inner msg nli l'
        end
  end.

(** encoding/tpdu/userdata.go:401-415, the outer loop. *)
Fixpoint try_both (msg : bytes) (l s : list Z) : option (list Z * list ie) :=
  match l with
  | [] => None
  | nli :: l' =>
      match try_both_inner msg nli s with
      | Some x => Some x
      | None => try_both msg l' s
      end
  end.

(** encoding/tpdu/userdata.go:371-421 [EncodeUserData]: the user data, the
    header (nil when no national table is used) and the alphabet. *)
Definition encode_user_data (msg : bytes) (opts : list charset_opt)
  : bytes * udh * Z :=
  match gsm7_encode (gsm7_new_encoder None None) msg with
  | Ok enc => (enc, None, Alpha7Bit)
  | _ =>
      let cfg := fold_left apply_encode_option opts ud_cfg_empty in
      match try_locking msg (c_locking cfg) with
      | Some (enc, h) => (enc, Some h, Alpha7Bit)
      | None =>
          match try_shift msg (c_shift cfg) with
          | Some (enc, h) => (enc, Some h, Alpha7Bit)
          | None =>
              match try_both msg (c_locking cfg) (c_shift cfg) with
              | Some (enc, h) => (enc, Some h, Alpha7Bit)
              | None => (ucs2_encode (runes_of msg), None, AlphaUCS2)
              end
          end
      end
  end.
