(** What Segment makes of a message: how many octets or septets a TPDU holds,
    where the message is cut, and the TPDUs.  What a TPDU shares with the template
    is [SpecSegTpdu.inherits]. *)
From Verif Require Import GoBase SpecDcs UserData Tpdu Segment SpecSegTpdu SpecTpdu SpecDecode.

(** 3GPP TS 23.040 section 9.2.2: the octets of user data in a TPDU from the mobile
    station or to it, by the message type; the reports of an error have one less. *)
Definition most_octets (mo : bool) (fo fcs : Z) : Z :=
  match fo mod 4, mo with
  | 0, false | 1, true => 140
  | 2, true => 146
  | 1, false => if fcs =? 0 then 152 else 151
  | 0, true => if fcs =? 0 then 159 else 158
  | 2, false => 131
  | _, _ => 0
  end.

(** The octets of a header of such elements, with its length. *)
Definition header_size (l : list ie) : Z := match l with [] => 0 | _ => 1 + len (elements l) end.

(** What is left of [m] octets behind a header of [h]: septets, with the header
    filled up to a whole number of them, octets, or whole units of UCS-2. *)
Definition room (alpha m h : Z) : Z :=
  if alpha =? 2 then 2 * ((m - h) / 2) else if alpha =? 1 then m - h else 8 * m / 7 - (8 * h + 6) / 7.
Definition room_in (mo : bool) (t : tpdu) (h : Z) : Z := room (alphabet_in t) (most_octets mo (FO t) (FCS t)) h.

(** What comes before a cut ends in something that belongs to what follows: the
    first half of a surrogate pair, or an escape that is not itself escaped. *)
Inductive torn (alpha : Z) : list Z -> Prop :=
| torn_pair p h l : alpha = 2 -> 55296 <= 256 * h + l < 56320 -> torn alpha (p ++ [h; l])
| torn_escape p : alpha <> 2 -> alpha <> 1 -> (forall q, p <> q ++ [27]) -> torn alpha (p ++ [27]).
(** The size of it. *)
Definition half (alpha : Z) : Z := if alpha =? 2 then 2 else 1.

(** The blocks of what is left of a message behind a part that is done: each is as
    full as can be, less what would be torn. *)
Inductive blocks (alpha cap : Z) : list Z -> list Z -> list (list Z) -> Prop :=
| bl_last done rest : rest <> [] -> len rest <= cap -> blocks alpha cap done rest [rest]
| bl_full done b rest bs : b <> [] -> len b = cap -> ~ torn alpha (done ++ b) -> rest <> [] ->
    blocks alpha cap (done ++ b) rest bs -> blocks alpha cap done (b ++ rest) (b :: bs)
| bl_less done b x rest bs : b <> [] -> len x = half alpha -> len b + len x = cap -> torn alpha (done ++ b ++ x) -> rest <> [] ->
    blocks alpha cap (done ++ b) (x ++ rest) bs -> blocks alpha cap done (b ++ x ++ rest) (b :: bs).

(** The TPDUs. *)
Inductive segmented (mo : bool) (t : tpdu) (cfg : seg_cfg) : bytes -> list tpdu -> Prop :=
| sg_none : segmented mo t cfg [] []
| sg_one msg s : msg <> [] -> len msg <= room_in mo t (header_size (ies (UDH t))) ->
    inherits t cfg None 0 s -> UD s = msg -> segmented mo t cfg msg [s]
| sg_many msg bs segs ref : room_in mo t (header_size (ies (UDH t))) < len msg ->
    blocks (alphabet_in t) (room_in mo t (1 + len (elements (ies (UDH t))) + if sc_wide cfg then 6 else 5)) [] msg bs ->
    ref = match sc_cr cfg with Some f => f 0%nat | None => 1 end ->
    map UD segs = bs -> (forall k s, nth_error segs k = Some s -> inherits t cfg (Some (ref, len bs)) k s) ->
    segmented mo t cfg msg segs.
