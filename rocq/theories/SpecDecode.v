(** What Decode makes of the user data of some TPDUs: the text, or why there is
    none.  The tables are those of [Charset] (see C61); apart from them nothing of
    the model is used. *)
From Verif Require Import GoBase SpecText SpecDcs SpecHeader Charset UserData Tpdu.

(** UTF-16, read from units that need not be well-formed: the characters, and
    the half of a pair that may be left at the end.  A half that is not followed
    by the other becomes U+FFFD, together with the unit that follows it. *)
Definition surrogate (u : Z) : Prop := 55296 <= u < 57344.
Definition halves (u v : Z) : Prop := 55296 <= u < 56320 /\ 56320 <= v < 57344.
Inductive units_read : list Z -> list Z -> list Z -> Prop :=
| ur_nil : units_read [] [] []
| ur_char u us rs w : ~ surrogate u -> units_read us rs w -> units_read (u :: us) (u :: rs) w
| ur_pair u v us rs w : halves u v -> units_read us rs w ->
    units_read (u :: v :: us) (65536 + 1024 * (u - 55296) + (v - 56320) :: rs) w
| ur_wrong u v us rs w : surrogate u -> ~ halves u v -> units_read us rs w -> units_read (u :: v :: us) (65533 :: rs) w
| ur_half u : surrogate u -> units_read [u] [] [u].

(** The languages on offer, for the locking table ([true]) and the shift table:
    the octet in the header names one of them, or is of no effect. *)
Inductive offers (locking : bool) (n : Z) : charset_opt -> Prop :=
| o_both l : In n l -> offers locking n (OptCharset l)
| o_locking l : locking = true -> In n l -> offers locking n (OptLocking l)
| o_shift l : locking = false -> In n l -> offers locking n (OptShift l)
| o_all : 1 <= n <= 13 -> offers locking n OptAllCharsets.
Inductive language_used (locking : bool) (opts : list charset_opt) (l : list ie) : Z -> Prop :=
| l_named i n more : last_with (if locking then 25 else 24) l i -> ie_data i = n :: more -> Exists (offers locking n) opts ->
    language_used locking opts l n
| l_default : (forall i n more, last_with (if locking then 25 else 24) l i -> ie_data i = n :: more -> ~ Exists (offers locking n) opts) ->
    language_used locking opts l 0.

(** User data in an alphabet, 1 for octets and 2 for UCS-2, and else septets: the
    text, and the octets that are left at the end. *)
Inductive data_read (opts : list charset_opt) (alpha : Z) (l : list ie) (ud : bytes) : bytes -> bytes -> Prop :=
| dr_octets : alpha = 1 -> data_read opts alpha l ud ud []
| dr_ucs2 us rs w text left : alpha = 2 -> be_units us ud -> units_read us rs w -> utf8_text rs text -> be_units w left ->
    data_read opts alpha l ud text left
| dr_septets a b text : alpha <> 1 -> alpha <> 2 -> language_used true opts l a -> language_used false opts l b ->
    utf8_text (gsm7_chars (assoc (new_decoder a)) (assoc (new_ext_decoder b)) ud) text ->
    data_read opts alpha l ud text [].
Inductive data_odd (alpha : Z) (ud : bytes) : Prop :=
| do_ucs2 k : alpha = 2 -> len ud = 2 * k + 1 -> data_odd alpha ud.
(** That of a TPDU: septets if the data coding scheme names none. *)
Definition alphabet_in (s : tpdu) : Z := match alphabet_of (DCS s) with Some a => a | None => 0 end.

(** The TPDUs of a message, one after the other: what is left of one is put in
    front of the user data of the next.  [None] is a nil pointer. *)
Inductive message_read (opts : list charset_opt) : bytes -> list (option tpdu) -> res bytes -> Prop :=
| mr_end : message_read opts [] [] (Ok [])
| mr_left left : left <> [] -> message_read opts left [] (Err (Ucs2DanglingSurrogate left))
| mr_nil left segs : message_read opts left (None :: segs) Panic
| mr_odd left s segs : data_odd (alphabet_in s) (left ++ UD s) -> message_read opts left (Some s :: segs) (Err Ucs2InvalidLength)
| mr_text left s segs text left' more : data_read opts (alphabet_in s) (ies (UDH s)) (left ++ UD s) text left' ->
    message_read opts left' segs (Ok more) -> message_read opts left (Some s :: segs) (Ok (text ++ more))
| mr_error left s segs text left' e : data_read opts (alphabet_in s) (ies (UDH s)) (left ++ UD s) text left' ->
    message_read opts left' segs (Err e) -> message_read opts left (Some s :: segs) (Err e)
| mr_panic left s segs text left' : data_read opts (alphabet_in s) (ies (UDH s)) (left ++ UD s) text left' ->
    message_read opts left' segs Panic -> message_read opts left (Some s :: segs) Panic.

(** Without options every language is on offer. *)
Definition or_all (opts : list charset_opt) : list charset_opt := match opts with [] => [OptAllCharsets] | _ => opts end.
(** TPDUs whose fields are octets. *)
Definition octet_fields (s : option tpdu) : Prop := match s with Some t => is_byte (DCS t) /\ Forall is_byte (UD t) | None => True end.
