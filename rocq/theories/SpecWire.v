(** The octets of TPDUs (3GPP TS 23.040 section 9.2), as far as a reader has to
    make sense of them: which octets stand for which TPDU.  Apart from the
    records that hold TPDUs nothing of the model is used. *)
From Verif Require Import GoBase SpecText SpecBits SpecDigits SpecTime SpecVP SpecDcs SpecAlphabet SpecShown SpecTpdu
  Address GoTime ValidityPeriod UserData Tpdu.

(** ** Numbers *)

(** Two decimal digits, the tens in the low nibble. *)
Definition two_digits (o n : Z) : Prop := exists a b, 0 <= a <= 9 /\ 0 <= b <= 9 /\ o = a + 16 * b /\ n = 10 * a + b.
(** The same with a sign in bit 3, which leaves 0 to 7 for the tens. *)
Definition signed_digits (o n : Z) : Prop :=
  exists a b, 0 <= a <= 7 /\ 0 <= b <= 9 /\ (o = a + 16 * b /\ n = 10 * a + b \/ o = 8 + a + 16 * b /\ n = - (10 * a + b)).

(** ** Addresses (9.1.2.5) *)

(** Half octets, the low one first; 15 is a filler. *)
Definition nibbles (p : bytes) : list Z := flat_map (fun o => [o mod 16; o / 16]) p.
Definition no_filler (c : Z) : bool := negb (c =? 15).
Definition digits_of (p : bytes) : bytes := map (fun c => nth (Z.to_nat c) semi_alphabet 0) (filter no_filler (nibbles p)).
(** The septets in as many half octets. *)
Definition septets_of (n : Z) (p : bytes) : list Z := firstn (Z.to_nat (4 * n / 7)) (cut7 (octet_bits p)).
(** Text in the default alphabet without extension: an escape is only followed
    by another one, or by nothing, and the two are a space. *)
Inductive plain_text : list Z -> list Z -> Prop :=
| pt_end : plain_text [] []
| pt_esc : plain_text [27] [32]
| pt_esc2 us rs : plain_text us rs -> plain_text (27 :: 27 :: us) (32 :: rs)
| pt_char g r us rs : g <> 27 -> listed default_alphabet g r -> plain_text us rs -> plain_text (g :: us) (r :: rs).

(** The type of number is in bits 4 to 6; 5 is alphanumeric. *)
Inductive address_octets : address -> bytes -> Prop :=
| ao_number n toa p : toa / 16 mod 8 <> 5 -> len p = (n + 1) / 2 -> len (digits_of p) = n ->
    address_octets {| a_toa := toa; a_addr := digits_of p |} (n :: toa :: p)
| ao_text n toa p rs s : toa / 16 mod 8 = 5 -> len p = (n + 1) / 2 -> plain_text (septets_of n p) rs -> utf8_text rs s ->
    address_octets {| a_toa := toa; a_addr := s |} (n :: toa :: p).

(** ** Times (9.2.3.11) *)

(** Two digits each for year (70 to 99 are before 2000), month, day, hour,
    minute and second, and a zone in quarters of an hour.  Numbers that are too
    large are carried over: a month 13 is January of the next year, a day 32 the
    day after the 31st, and so on; month 0 is December of the year before.
    [day_of] counts days from the year 0, 719528 days before 1970. *)
Inductive time_octets : gotime -> bytes -> Prop :=
| to_time oy omo od oh omi os oz y mo d h mi s q year first off :
    two_digits oy y -> two_digits omo mo -> two_digits od d -> two_digits oh h -> two_digits omi mi -> two_digits os s -> signed_digits oz q ->
    year = (if y <? 70 then 2000 + y else 1900 + y) ->
    day_of first = (year + (mo - 1) / 12, (mo - 1) mod 12 + 1, 1) ->
    off = 15 * 60 * q ->
    time_octets {| t_unix := 86400 * (Z.of_nat first - 719528 + d - 1) + 3600 * h + 60 * mi + s - off; t_nsec := 0; t_off := off |}
                [oy; omo; od; oh; omi; os; oz].

(** ** Validity periods (9.2.3.12) *)
Definition seconds (n : Z) : Z := n * 1000000000.
Inductive period_octets : Z -> validity -> bytes -> Prop :=
| po_none : period_octets 0 vp_zero []
| po_relative o d : relative_vp o d -> period_octets 2 (vp_relative d) [o]
| po_absolute t b : time_octets t b -> period_octets 3 (vp_absolute t) b
| po_enh_none efi : efi mod 8 = 0 -> period_octets 1 (vp_enhanced 0 efi) [efi; 0; 0; 0; 0; 0; 0]
| po_enh_relative efi o d : efi mod 8 = 1 -> relative_vp o d -> period_octets 1 (vp_enhanced d efi) [efi; o; 0; 0; 0; 0; 0]
| po_enh_seconds efi n : efi mod 8 = 2 -> period_octets 1 (vp_enhanced (seconds n) efi) [efi; n; 0; 0; 0; 0; 0]
| po_enh_hms efi oh om os h m s : efi mod 8 = 3 -> two_digits oh h -> two_digits om m -> two_digits os s ->
    period_octets 1 (vp_enhanced (seconds (3600 * h + 60 * m + s)) efi) [efi; oh; om; os; 0; 0; 0].

(** ** User data (9.2.3.24) *)

(** A header at the beginning of [b], of [n] octets including the first, which
    says so; [elements] are its elements, each with identifier, length and data.  The elements begin within it, all but the last end within it too; the
    data of the last may go on in what follows. *)
Definition header_at (b : bytes) (h : udh) (n : Z) : Prop :=
  exists rest, b = (n - 1) :: elements (match h with Some l => l | None => [] end) ++ rest /\ 1 <= n <= len b /\
    match h with
    | None => n = 1
    | Some l => l <> [] /\ len (elements (removelast l)) + 2 <= n - 1 <= len (elements l)
    end.

(** Septets behind a header of [n] octets begin at a septet boundary; [u] is all
    of them up to the announced number, [count], that includes those the header
    takes.  There may be one more, if it is 0. *)
Definition septets_behind (n count : Z) (p : bytes) (u : list Z) : Prop :=
  let taken := (8 * n + 6) / 7 in
  let all := cut7 (skipn (Z.to_nat (7 * taken - 8 * n)) (octet_bits p)) in
  len u = count - taken /\ (all = u \/ all = u ++ [0]).

(** [udhi] is the header indicator.  A length of 0 ends the user data, whatever
    follows; otherwise the octets are exactly those announced. *)
Inductive user_data_octets (udhi : bool) (dcs : Z) : udh -> bytes -> bytes -> Prop :=
| ud_none rest : user_data_octets udhi dcs None [] (0 :: rest)
| ud_some l b h n m u a :
    l <> 0 -> alphabet_of dcs = Some a ->
    len b = (if a =? 0 then (7 * l + 7) / 8 else l) ->
    (if udhi then header_at b h n else h = None /\ n = 0) -> m = skipn (Z.to_nat n) b ->
    match m with
    | [] => u = []
    | _ => if a =? 0 then septets_behind n l m u else u = m /\ (a = 2 -> exists k, len m = 2 * k)
    end ->
    user_data_octets udhi dcs h u (l :: b).

(** ** TPDUs (9.2.2) *)

(** What follows the parameter indicator of a report: what it announces, in this
    order.  If no user data is announced, what follows is ignored; fields that are
    not announced are 0. *)
Definition optional_octets (fo pi pid dcs : Z) (h : udh) (u : bytes) (b : bytes) : Prop :=
  exists pid_o dcs_o rest, b = pid_o ++ dcs_o ++ rest /\
    (if Z.testbit pi 0 then pid_o = [pid] else pid_o = [] /\ pid = 0) /\
    (if Z.testbit pi 1 then dcs_o = [dcs] else dcs_o = [] /\ dcs = 0) /\
    (if Z.testbit pi 2 then user_data_octets (Z.testbit fo 6) dcs h u rest else h = None /\ u = []).

Definition none : address := {| a_toa := 0; a_addr := [] |}.
(** From the mobile station ([true]) or to it. *)
Inductive tpdu_octets : bool -> tpdu -> bytes -> Prop :=
| w_deliver fo oa pid dcs ts h u oa_o ts_o ud_o :
    fo mod 4 = 0 -> address_octets oa oa_o -> time_octets ts ts_o -> user_data_octets (Z.testbit fo 6) dcs h u ud_o ->
    tpdu_octets false
      {| Direction := MT; FO := fo; OA := oa; FCS := 0; MR := 0; CT := 0; MN := 0; DA := none; RA := none; PI := 0;
         SCTS := ts; DT := zero_time; ST := 0; PID := pid; DCS := dcs; VP := vp_zero; UDH := h; UD := u |}
      ([fo] ++ oa_o ++ [pid; dcs] ++ ts_o ++ ud_o)
| w_submit fo mr da pid dcs vp h u da_o vp_o ud_o :
    fo mod 4 = 1 -> address_octets da da_o -> period_octets (fo / 8 mod 4) vp vp_o -> user_data_octets (Z.testbit fo 6) dcs h u ud_o ->
    tpdu_octets true
      {| Direction := MO; FO := fo; OA := none; FCS := 0; MR := mr; CT := 0; MN := 0; DA := da; RA := none; PI := 0;
         SCTS := zero_time; DT := zero_time; ST := 0; PID := pid; DCS := dcs; VP := vp; UDH := h; UD := u |}
      ([fo; mr] ++ da_o ++ [pid; dcs] ++ vp_o ++ ud_o)
| w_command fo mr pid ct mn da h u da_o ud_o :
    fo mod 4 = 2 -> address_octets da da_o -> user_data_octets (Z.testbit fo 6) 4 h u ud_o ->
    tpdu_octets true
      {| Direction := MO; FO := fo; OA := none; FCS := 0; MR := mr; CT := ct; MN := mn; DA := da; RA := none; PI := 0;
         SCTS := zero_time; DT := zero_time; ST := 0; PID := pid; DCS := 4; VP := vp_zero; UDH := h; UD := u |}
      ([fo; mr; pid; ct; mn] ++ da_o ++ ud_o)
| w_deliver_report fo fcs pi pid dcs h u opt_o :
    fo mod 4 = 0 -> optional_octets fo pi pid dcs h u opt_o ->
    tpdu_octets true
      {| Direction := MO; FO := fo; OA := none; FCS := fcs; MR := 0; CT := 0; MN := 0; DA := none; RA := none; PI := pi;
         SCTS := zero_time; DT := zero_time; ST := 0; PID := pid; DCS := dcs; VP := vp_zero; UDH := h; UD := u |}
      ([fo; fcs; pi] ++ opt_o)
| w_submit_report fo fcs pi ts pid dcs h u ts_o opt_o :
    fo mod 4 = 1 -> time_octets ts ts_o -> optional_octets fo pi pid dcs h u opt_o ->
    tpdu_octets false
      {| Direction := MT; FO := fo; OA := none; FCS := fcs; MR := 0; CT := 0; MN := 0; DA := none; RA := none; PI := pi;
         SCTS := ts; DT := zero_time; ST := 0; PID := pid; DCS := dcs; VP := vp_zero; UDH := h; UD := u |}
      ([fo; fcs; pi] ++ ts_o ++ opt_o)
| w_status_report fo mr ra ts dt st pi pid dcs h u ra_o ts_o dt_o rest :
    fo mod 4 = 2 -> address_octets ra ra_o -> time_octets ts ts_o -> time_octets dt dt_o ->
    (rest = [] /\ pi = 0 /\ pid = 0 /\ dcs = 0 /\ h = None /\ u = [] \/
     exists opt_o, rest = pi :: opt_o /\ optional_octets fo pi pid dcs h u opt_o) ->
    tpdu_octets false
      {| Direction := MT; FO := fo; OA := none; FCS := 0; MR := mr; CT := 0; MN := 0; DA := none; RA := ra; PI := pi;
         SCTS := ts; DT := dt; ST := st; PID := pid; DCS := dcs; VP := vp_zero; UDH := h; UD := u |}
      ([fo; mr] ++ ra_o ++ ts_o ++ dt_o ++ [st] ++ rest).
