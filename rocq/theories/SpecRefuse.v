(** Octets that are no TPDU, and what is said of them: the field that cannot be
    read, where in the octets, and why.  What can be read is [SpecWire]; apart from
    the names of the reasons nothing of the model is used. *)
From Verif Require Import GoBase SpecText SpecBits SpecDigits SpecTime SpecVP SpecDcs SpecAlphabet SpecShown SpecTpdu
  Address GoTime ValidityPeriod UserData Tpdu SpecWire.

(** The part of a field, which may be all of it (""), the place, counted from
    the first octet of the field, and the reason. *)
Inductive fault := Fault (part : string) (at_ : Z) (why : gerr).

(** Of the path [a] the part [b]. *)
Definition within (a b : string) : string := if (b =? "")%string then a else (a ++ "." ++ b)%string.

(** An octet. *)
Inductive octet_fails : bytes -> fault -> Prop :=
| of_none : octet_fails [] (Fault "" 0 ErrUnderflow).

(** The first septet that is no character of the default alphabet; behind an
    escape none is, except another one. *)
Inductive strange_septet : list Z -> Z -> Prop :=
| ss_char g us : g <> 27 -> ~ (exists r, listed default_alphabet g r) -> strange_septet (g :: us) g
| ss_escaped g us : g <> 27 -> strange_septet (27 :: g :: us) g
| ss_behind_char h us g : h <> 27 -> (exists r, listed default_alphabet h r) -> strange_septet us g -> strange_septet (h :: us) g
| ss_behind_escapes us g : strange_septet us g -> strange_septet (27 :: 27 :: us) g.

(** An address: its length and type, and then as many digits or septets. *)
Inductive address_fails : bytes -> fault -> Prop :=
| af_short b : len b < 2 -> address_fails b (Fault "addr" 0 ErrUnderflow)
| af_cut n toa p : len p < (n + 1) / 2 -> address_fails (n :: toa :: p) (Fault "addr" 2 ErrUnderflow)
| af_fewer n toa p rest : toa / 16 mod 8 <> 5 -> len p = (n + 1) / 2 -> len (digits_of p) < n ->
    address_fails (n :: toa :: p ++ rest) (Fault "addr" 2 ErrUnderflow)
| af_more n toa p rest : toa / 16 mod 8 <> 5 -> len p = (n + 1) / 2 -> n < len (digits_of p) ->
    address_fails (n :: toa :: p ++ rest) (Fault "addr" 2 SemiMissingFill)
| af_text n toa p rest g : toa / 16 mod 8 = 5 -> len p = (n + 1) / 2 -> strange_septet (septets_of n p) g ->
    address_fails (n :: toa :: p ++ rest) (Fault "addr" 2 (Gsm7InvalidSeptet g)).

(** A time: the first octet that is not two digits, if there are seven. *)
Definition digits (o : Z) : Prop := exists n, two_digits o n.
Inductive time_fails : bytes -> fault -> Prop :=
| tf_short b : len b < 7 -> time_fails b (Fault "" 0 ErrUnderflow)
| tf_digits p o b : len p < 6 -> 7 <= len (p ++ o :: b) -> Forall digits p -> ~ digits o ->
    time_fails (p ++ o :: b) (Fault "" 0 (BcdInvalidOctet o))
| tf_zone p o b : len p = 6 -> Forall digits p -> ~ (exists n, signed_digits o n) ->
    time_fails (p ++ o :: b) (Fault "" 0 (BcdInvalidOctet o)).

(** A validity period.  In the enhanced format the first octet says how many of
    the other six are in use; the rest is 0. *)
Definition in_use (kind : Z) : Z := match kind with 0 => 0 | 3 => 3 | _ => 1 end.
Inductive period_fails : Z -> bytes -> fault -> Prop :=
| pf_format f b : f < 0 \/ 3 < f -> period_fails f b (Fault "vpf" 0 ErrInvalid)
| pf_relative : period_fails 2 [] (Fault "" 0 ErrUnderflow)
| pf_absolute b f : time_fails b f -> period_fails 3 b f
| pf_short b : len b < 7 -> period_fails 1 b (Fault "" 0 ErrUnderflow)
| pf_reserved efi b : 6 <= len b -> 3 < efi mod 8 -> period_fails 1 (efi :: b) (Fault "enhanced" 0 ErrInvalid)
| pf_digits efi p o b : efi mod 8 = 3 -> len p < 3 -> 6 <= len (p ++ o :: b) -> Forall digits p -> ~ digits o ->
    period_fails 1 (efi :: p ++ o :: b) (Fault "enhanced" 1 (BcdInvalidOctet o))
| pf_filler efi p z o b : efi mod 8 <= 3 -> len p = in_use (efi mod 8) -> (efi mod 8 = 3 -> Forall digits p) ->
    Forall (eq 0) z -> o <> 0 -> len p + len z < 6 -> 6 <= len (p ++ z ++ o :: b) ->
    period_fails 1 (efi :: p ++ z ++ o :: b) (Fault "enhanced" (1 + len p + len z) ErrNonZero).

(** A header of user data: the first octet is the number of those that follow.
    Of an element within it the identifier and the length are there, but nothing
    else need be within the header, if only it is there. *)
Inductive header_fails : bytes -> fault -> Prop :=
| hf_none : header_fails [] (Fault "udhl" 0 ErrUnderflow)
| hf_cut n b : len b < n -> header_fails (n :: b) (Fault "ie" 1 ErrUnderflow)
| hf_element n l b : n = len (elements l) + 1 -> n <= len (elements l ++ b) ->
    header_fails (n :: elements l ++ b) (Fault "ie" (1 + len (elements l)) ErrUnderflow)
| hf_data n l id k b : len (elements l) + 2 <= n -> n <= len (elements l ++ id :: k :: b) -> len b < k ->
    header_fails (n :: elements l ++ id :: k :: b) (Fault "ied" (1 + len (elements l) + 2) ErrUnderflow).

(** Septets behind a header of [n] octets: fewer than announced, or more. *)
Inductive septets_fail (n count : Z) (p : bytes) : gerr -> Prop :=
| sf taken all due why : taken = (8 * n + 6) / 7 -> all = cut7 (skipn (Z.to_nat (7 * taken - 8 * n)) (octet_bits p)) ->
    due = count - taken ->
    (why = ErrUnderflow /\ len all < due \/
     why = ErrOverlength /\ (due + 1 < len all \/ exists u x, all = u ++ [x] /\ len u = due /\ x <> 0)) ->
    septets_fail n count p why.

(** User data: a length, in septets if the alphabet has 7 bits, and as many
    octets.  No length is wrong if it is 0. *)
Inductive user_data_fails (udhi : bool) (dcs : Z) : bytes -> fault -> Prop :=
| uf_none : user_data_fails udhi dcs [] (Fault "udl" 0 ErrUnderflow)
| uf_alphabet l b : l <> 0 -> alphabet_of dcs = None -> user_data_fails udhi dcs (l :: b) (Fault "alphabet" 1 ErrInvalid)
| uf_short l b a : l <> 0 -> alphabet_of dcs = Some a -> len b < (if a =? 0 then (7 * l + 7) / 8 else l) ->
    user_data_fails udhi dcs (l :: b) (Fault "sm" 1 ErrUnderflow)
| uf_long l b a : l <> 0 -> alphabet_of dcs = Some a -> (if a =? 0 then (7 * l + 7) / 8 else l) < len b ->
    user_data_fails udhi dcs (l :: b) (Fault "ud" 1 ErrOverlength)
| uf_header l b a part at_ why : l <> 0 -> alphabet_of dcs = Some a -> len b = (if a =? 0 then (7 * l + 7) / 8 else l) ->
    udhi = true -> header_fails b (Fault part at_ why) ->
    user_data_fails udhi dcs (l :: b) (Fault (within "udh" part) (1 + at_) why)
| uf_septets l b h n m why : l <> 0 -> alphabet_of dcs = Some 0 -> len b = (7 * l + 7) / 8 ->
    (if udhi then header_at b h n else h = None /\ n = 0) -> m = skipn (Z.to_nat n) b -> m <> [] -> septets_fail n l m why ->
    user_data_fails udhi dcs (l :: b) (Fault "sm" (1 + n) why)
| uf_odd l b h n m k : l <> 0 -> alphabet_of dcs = Some 2 -> len b = l ->
    (if udhi then header_at b h n else h = None /\ n = 0) -> m = skipn (Z.to_nat n) b -> len m = 2 * k + 1 ->
    user_data_fails udhi dcs (l :: b) (Fault "sm" (1 + n) ErrOddUCS2Length).

(** What the parameter indicator of a report announces: an octet that is there
    if its bit is set. *)
Definition announced (bit : bool) (v : Z) (o : bytes) : Prop := if bit then o = [v] else o = [] /\ v = 0.
Inductive optional_fails (fo pi : Z) : bytes -> fault -> Prop :=
| of_pid : Z.testbit pi 0 = true -> optional_fails fo pi [] (Fault "pid" 0 ErrUnderflow)
| of_dcs pid pid_o : announced (Z.testbit pi 0) pid pid_o -> Z.testbit pi 1 = true ->
    optional_fails fo pi pid_o (Fault "dcs" (len pid_o) ErrUnderflow)
| of_ud pid pid_o dcs dcs_o b part at_ why : announced (Z.testbit pi 0) pid pid_o -> announced (Z.testbit pi 1) dcs dcs_o ->
    Z.testbit pi 2 = true -> user_data_fails (Z.testbit fo 6) dcs b (Fault part at_ why) ->
    optional_fails fo pi (pid_o ++ dcs_o ++ b) (Fault (within "ud" part) (len pid_o + len dcs_o + at_) why).

(** In a TPDU from the mobile station ([true]) or to it: behind these octets, all
    of which can be read, comes this field, and this is how it may fail. *)
Inductive comes : bool -> bytes -> string -> (bytes -> fault -> Prop) -> Prop :=
| d_oa fo : fo mod 4 = 0 -> comes false [fo] "SmsDeliver.oa" address_fails
| d_pid fo oa a : fo mod 4 = 0 -> address_octets oa a -> comes false ([fo] ++ a) "SmsDeliver.pid" octet_fails
| d_dcs fo oa a pid : fo mod 4 = 0 -> address_octets oa a -> comes false ([fo] ++ a ++ [pid]) "SmsDeliver.dcs" octet_fails
| d_scts fo oa a pid dcs : fo mod 4 = 0 -> address_octets oa a -> comes false ([fo] ++ a ++ [pid; dcs]) "SmsDeliver.scts" time_fails
| d_ud fo oa a pid dcs ts s : fo mod 4 = 0 -> address_octets oa a -> time_octets ts s ->
    comes false ([fo] ++ a ++ [pid; dcs] ++ s) "SmsDeliver.ud" (user_data_fails (Z.testbit fo 6) dcs)

| s_mr fo : fo mod 4 = 1 -> comes true [fo] "SmsSubmit.mr" octet_fails
| s_da fo mr : fo mod 4 = 1 -> comes true [fo; mr] "SmsSubmit.da" address_fails
| s_pid fo mr da a : fo mod 4 = 1 -> address_octets da a -> comes true ([fo; mr] ++ a) "SmsSubmit.pid" octet_fails
| s_dcs fo mr da a pid : fo mod 4 = 1 -> address_octets da a -> comes true ([fo; mr] ++ a ++ [pid]) "SmsSubmit.dcs" octet_fails
| s_vp fo mr da a pid dcs : fo mod 4 = 1 -> address_octets da a ->
    comes true ([fo; mr] ++ a ++ [pid; dcs]) "SmsSubmit.vp" (period_fails (fo / 8 mod 4))
| s_ud fo mr da a pid dcs vp v : fo mod 4 = 1 -> address_octets da a -> period_octets (fo / 8 mod 4) vp v ->
    comes true ([fo; mr] ++ a ++ [pid; dcs] ++ v) "SmsSubmit.ud" (user_data_fails (Z.testbit fo 6) dcs)

| c_mr fo : fo mod 4 = 2 -> comes true [fo] "SmsCommand.mr" octet_fails
| c_pid fo mr : fo mod 4 = 2 -> comes true [fo; mr] "SmsCommand.pid" octet_fails
| c_ct fo mr pid : fo mod 4 = 2 -> comes true [fo; mr; pid] "SmsCommand.ct" octet_fails
| c_mn fo mr pid ct : fo mod 4 = 2 -> comes true [fo; mr; pid; ct] "SmsCommand.mn" octet_fails
| c_da fo mr pid ct mn : fo mod 4 = 2 -> comes true [fo; mr; pid; ct; mn] "SmsCommand.da" address_fails
| c_ud fo mr pid ct mn da a : fo mod 4 = 2 -> address_octets da a ->
    comes true ([fo; mr; pid; ct; mn] ++ a) "SmsCommand.ud" (user_data_fails (Z.testbit fo 6) 4)

| dr_fcs fo : fo mod 4 = 0 -> comes true [fo] "SmsDeliverReport.fcs" octet_fails
| dr_pi fo fcs : fo mod 4 = 0 -> comes true [fo; fcs] "SmsDeliverReport.pi" octet_fails
| dr_rest fo fcs pi : fo mod 4 = 0 -> comes true [fo; fcs; pi] "SmsDeliverReport" (optional_fails fo pi)

| sr_fcs fo : fo mod 4 = 1 -> comes false [fo] "SmsSubmitReport.fcs" octet_fails
| sr_pi fo fcs : fo mod 4 = 1 -> comes false [fo; fcs] "SmsSubmitReport.pi" octet_fails
| sr_scts fo fcs pi : fo mod 4 = 1 -> comes false [fo; fcs; pi] "SmsSubmitReport.scts" time_fails
| sr_rest fo fcs pi ts s : fo mod 4 = 1 -> time_octets ts s -> comes false ([fo; fcs; pi] ++ s) "SmsSubmitReport" (optional_fails fo pi)

| st_mr fo : fo mod 4 = 2 -> comes false [fo] "SmsStatusReport.mr" octet_fails
| st_ra fo mr : fo mod 4 = 2 -> comes false [fo; mr] "SmsStatusReport.ra" address_fails
| st_scts fo mr ra a : fo mod 4 = 2 -> address_octets ra a -> comes false ([fo; mr] ++ a) "SmsStatusReport.scts" time_fails
| st_dt fo mr ra a ts s : fo mod 4 = 2 -> address_octets ra a -> time_octets ts s ->
    comes false ([fo; mr] ++ a ++ s) "SmsStatusReport.dt" time_fails
| st_st fo mr ra a ts s dt d : fo mod 4 = 2 -> address_octets ra a -> time_octets ts s -> time_octets dt d ->
    comes false ([fo; mr] ++ a ++ s ++ d) "SmsStatusReport.st" octet_fails
| st_rest fo mr ra a ts s dt d st pi : fo mod 4 = 2 -> address_octets ra a -> time_octets ts s -> time_octets dt d ->
    comes false ([fo; mr] ++ a ++ s ++ d ++ [st; pi]) "SmsStatusReport" (optional_fails fo pi).

Inductive unreadable : bool -> bytes -> gerr -> Prop :=
| ur_none mo : unreadable mo [] (DecodeErr "tpdu.firstOctet" 0 ErrUnderflow)
| ur_type (mo : bool) fo b : fo mod 4 = 3 ->
    unreadable mo (fo :: b) (DecodeErr "tpdu.firstOctet" 0 (ErrUnsupportedSmsType (if mo then 7 else 6)))
| ur_field mo before field fails b part at_ why : comes mo before field fails -> fails b (Fault part at_ why) ->
    unreadable mo (before ++ b) (DecodeErr (within field part) (len before + at_) why).

(** What is said of a field on its own: the reason, if it is the whole field. *)
Definition alone (f : fault) : gerr :=
  let (part, at_, why) := f in if (part =? "")%string then why else DecodeErr part at_ why.
