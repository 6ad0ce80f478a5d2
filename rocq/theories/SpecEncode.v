(** What Encode makes of a message: the characters it reads, the alphabet they are
    written in, the template for the TPDUs and the numbers in them.  How the TPDUs
    are cut is [SpecBlocks]; the tables are those of [Charset] (see C61). *)
From Verif Require Import GoBase SpecText SpecDcs Charset UserData Tpdu Segment Sms SpecSelect SpecBlocks.

(** The characters of any octets: those with a UTF-8 form in front, and U+FFFD for
    each octet at which there is none. *)
Inductive characters : bytes -> list Z -> Prop :=
| c_nil : characters [] []
| c_char r b msg rs : utf8_char r b -> characters msg rs -> characters (b ++ msg) (r :: rs)
| c_wrong x msg rs : (forall r b more, utf8_char r b -> x :: msg <> b ++ more) -> characters msg rs ->
    characters (x :: msg) (65533 :: rs).

(** Characters in the tables of two languages: a septet, or the escape and one. *)
Inductive septets (locking shift : Z) : list Z -> list Z -> Prop :=
| sp_nil : septets locking shift [] []
| sp_locking r v rs ud : assoc (new_encoder locking) r = Some v -> septets locking shift rs ud ->
    septets locking shift (r :: rs) (v :: ud)
| sp_shift r v rs ud : assoc (new_encoder locking) r = None -> assoc (new_ext_encoder shift) r = Some v ->
    septets locking shift rs ud -> septets locking shift (r :: rs) (27 :: v :: ud).
Definition in_tables (locking shift : Z) (rs : list Z) : Prop := exists ud, septets locking shift rs ud.

(** The first in a list of languages. *)
Definition first_with (P : Z -> Prop) (n : Z) (l : list Z) : Prop :=
  exists before after, l = before ++ n :: after /\ P n /\ Forall (fun m => ~ P m) before.
Definition none_with (P : Z -> Prop) (l : list Z) : Prop := Forall (fun m => ~ P m) l.

(** The form of the text: the default tables if they have every character, else one
    locking table, else one shift table, else both of one language, else UCS-2. *)
Inductive chosen (opts : list charset_opt) (rs : list Z) : choice -> Prop :=
| ch_default : in_tables 0 0 rs -> chosen opts rs ChDefault
| ch_locking n : ~ in_tables 0 0 rs -> first_with (fun n => in_tables n 0 rs) n (registered true [] opts) ->
    chosen opts rs (ChLocking n)
| ch_shift n : ~ in_tables 0 0 rs -> none_with (fun n => in_tables n 0 rs) (registered true [] opts) ->
    first_with (fun n => in_tables 0 n rs) n (registered false [] opts) -> chosen opts rs (ChShift n)
| ch_both n : ~ in_tables 0 0 rs -> none_with (fun n => in_tables n 0 rs) (registered true [] opts) ->
    none_with (fun n => in_tables 0 n rs) (registered false [] opts) ->
    first_with (fun n => In n (registered false [] opts) /\ in_tables n n rs) n (registered true [] opts) ->
    chosen opts rs (ChBoth n)
| ch_ucs2 : ~ in_tables 0 0 rs -> none_with (fun n => in_tables n 0 rs) (registered true [] opts) ->
    none_with (fun n => in_tables 0 n rs) (registered false [] opts) ->
    none_with (fun n => In n (registered false [] opts) /\ in_tables n n rs) (registered true [] opts) ->
    chosen opts rs ChUcs2.
Inductive text_in (rs : list Z) : choice -> bytes -> Prop :=
| ti_septets c l s ud : choice_tables c = Some (l, s) -> septets l s rs ud -> text_in rs c ud
| ti_ucs2 ud : utf16be rs ud -> text_in rs ChUcs2 ud.
Definition alphabet_for (c : choice) : Z := match c with ChUcs2 => 2 | _ => 0 end.

(** A data coding scheme with an alphabet it can carry: in bits 3 and 2, but for the
    groups that have one only. *)
Definition dcs_for (d a : Z) : Z :=
  match coding_group d with General | DataClass => d - 4 * (d / 4 mod 4) + 4 * a | _ => d end.
(** The template for such a text: with the alphabet in the data coding scheme, and
    for national tables with a header that names them instead of its own.  The flags
    say what has been set. *)
Definition template_for (t : tpdu) (c : choice) : tpdu :=
  let d := dcs_for (DCS t) (alphabet_for c) in
  let l := map (fun p => {| ie_id := fst p; ie_data := snd p |}) (choice_header c) in
  let flag := Z.lor (PI t) (if d =? DCS t then 0 else 2) in
  {| Direction := Direction t; OA := OA t; FCS := FCS t; MR := MR t; CT := CT t; MN := MN t; DA := DA t; RA := RA t;
     SCTS := SCTS t; DT := DT t; ST := ST t; PID := PID t; VP := VP t; UD := UD t;
     DCS := d;
     UDH := match l with [] => UDH t | _ => Some l end;
     FO := match l with [] => FO t | _ => Z.lor (FO t) 64 end;
     PI := match l with [] => flag | _ => Z.lor flag 4 end |}.

(** The template and the octets or septets to be cut: those given, if the data
    coding scheme of the template names 8-bit data or UCS-2. *)
Inductive prepared (opts : list charset_opt) (t : tpdu) (msg : bytes) : tpdu -> bytes -> Prop :=
| pr_given a : alphabet_of (DCS t) = Some a -> a = 1 \/ a = 2 -> prepared opts t msg t msg
| pr_text rs c ud : (forall a, alphabet_of (DCS t) = Some a -> a <> 1 /\ a <> 2) -> characters msg rs -> chosen opts rs c ->
    alphabet_expressible (coding_group (DCS t)) (alphabet_for c) = true -> text_in rs c ud ->
    prepared opts t msg (template_for t c) ud.
(** The data coding scheme of the template cannot name the alphabet. *)
Inductive conflict (opts : list charset_opt) (t : tpdu) (msg : bytes) : Prop :=
| cf_text rs c : (forall a, alphabet_of (DCS t) = Some a -> a <> 1 /\ a <> 2) -> characters msg rs -> chosen opts rs c ->
    alphabet_expressible (coding_group (DCS t)) (alphabet_for c) = false -> conflict opts t msg.

(** The numbers: each TPDU has the next message reference, and each message of
    several parts the next concatenation reference, of one octet. *)
Definition numbered (count ref : Z) : seg_cfg :=
  {| sc_wide := false; sc_cr := Some (fun _ => ref + 1); sc_mr := Some (fun k => count + 1 + Z.of_nat k) |}.
Definition encoded (mo : bool) (e : sms_encoder) (msg : bytes) (segs : list tpdu) : Prop :=
  exists t ud, prepared (e_eopts e) (e_pdu e) msg t ud /\ segmented mo t (numbered (e_msg_count e) (e_concat_ref e)) ud segs.
(** The encoder after that: its counters are 64-bit integers. *)
Definition counted (e : sms_encoder) (segs : list tpdu) : sms_encoder :=
  {| e_eopts := e_eopts e; e_pdu := e_pdu e;
     e_msg_count := wrap64 (e_msg_count e + len segs);
     e_concat_ref := if 1 <? len segs then wrap64 (e_concat_ref e + 1) else e_concat_ref e |}.
