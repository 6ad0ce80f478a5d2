(** Independent specification of a TPDU made with options: of each kind the
    last option counts, and what no option names is left alone. *)
From Verif Require Import GoBase Address UserData Tpdu Segment SpecDcs SpecOptions Sms.

(** What an option asks of a field.  A message type ([OptSmsType]) settles the
    direction and the message type indicator (3GPP TS 23.040 clause 9.2.3.1);
    there are six. *)
Definition known_type (st : Z) : bool := (0 <=? st) && (st <=? 5).
Definition asks_direction (o : tpdu_opt) : option Z :=
  match o with
  | OptDirection d => Some d
  | OptSmsType st => if known_type st then Some (st mod 2) else None
  | _ => None
  end.
Definition asks_mti (o : tpdu_opt) : option Z :=
  match o with
  | OptMTI m => Some m
  | OptSmsType st => if known_type st then Some (st / 2) else None
  | _ => None
  end.
Definition asks_dcs (o : tpdu_opt) : option Z :=
  match o with OptDCS d => Some (d mod 256) | _ => None end.
Definition asks_da (o : tpdu_opt) : option address :=
  match o with OptDA a => Some a | _ => None end.
Definition asks_oa (o : tpdu_opt) : option address :=
  match o with OptOA a => Some a | _ => None end.
Definition asks_udh (o : tpdu_opt) : option udh :=
  match o with OptUDH u => Some u | _ => None end.

(** [v] is what the last option that asks for the field asks, or [dflt]. *)
Definition chosen {A B} (f : A -> option B) (opts : list A) (dflt v : B) : Prop :=
  exists o, last_such f opts o /\ v = match o with Some b => b | None => dflt end.

(** A message type indicator has two bits. *)
Definition proper_opt (o : tpdu_opt) : Prop :=
  match o with OptMTI m => 0 <= m <= 3 | _ => True end.
(** An option that cannot be applied. *)
Definition bad_opt (o : tpdu_opt) : Prop :=
  match o with OptSmsType st => known_type st = false | _ => False end.

(** [t] is [T] with the options applied.  Bit 1 of the parameter indicator says
    that the TPDU has a data coding scheme; no other bit of it, and no bit of
    the first octet but the message type indicator, changes. *)
Definition has_asked (T : tpdu) (opts : list tpdu_opt) (t : tpdu) : Prop :=
  chosen asks_direction opts (Direction T) (Direction t) /\
  chosen asks_mti opts (FO T mod 4) (FO t mod 4) /\
  same_bits_except [0; 1] (FO T) (FO t) /\
  chosen asks_dcs opts (DCS T) (DCS t) /\
  (Z.testbit (PI t) 1 = true <-> Z.testbit (PI T) 1 = true \/ exists d, In (OptDCS d) opts) /\
  same_bits_except [1] (PI T) (PI t) /\
  chosen asks_da opts (DA T) (DA t) /\
  chosen asks_oa opts (OA T) (OA t) /\
  chosen asks_udh opts (UDH T) (UDH t) /\
  FCS t = FCS T /\ MR t = MR T /\ CT t = CT T /\ MN t = MN T /\ RA t = RA T /\
  SCTS t = SCTS T /\ DT t = DT T /\ ST t = ST T /\ PID t = PID T /\ VP t = VP T /\ UD t = UD T.

(** The options of an Encoder: the TPDU it starts from is the one of the last
    WithTemplate, or a TPDU without content, and the options given after that
    apply to it. *)
Definition not_template (o : encoder_opt) : Prop :=
  match o with EoTemplate _ => False | _ => True end.
Definition template_option (o : encoder_opt) : list tpdu_opt :=
  match o with EoTemplateOption o => [o] | _ => [] end.
Definition charset_option (o : encoder_opt) : list charset_opt :=
  match o with EoCharset c => [c] | _ => [] end.
Definition starts_from (opts : list encoder_opt) (T : tpdu) (rest : list tpdu_opt) : Prop :=
  exists after, Forall not_template after /\ rest = flat_map template_option after /\
    ((T = zero_tpdu /\ opts = after) \/ exists before, opts = before ++ EoTemplate T :: after).

(** [s] is one of the TPDUs an Encoder makes of the template [T] and the
    options: as asked, but for the header, the text and what follows from them
    (the data coding scheme, bit 6 of the first octet, and bits 1 and 2 of the
    parameter indicator), and the message reference. *)
Definition made_as_asked (T : tpdu) (opts : list tpdu_opt) (s : tpdu) : Prop :=
  chosen asks_direction opts (Direction T) (Direction s) /\
  chosen asks_mti opts (FO T mod 4) (FO s mod 4) /\
  same_bits_except [0; 1; 6] (FO T) (FO s) /\
  same_bits_except [1; 2] (PI T) (PI s) /\
  (exists d, chosen asks_dcs opts (DCS T) d /\ same_bits_except [2; 3] d (DCS s)) /\
  chosen asks_da opts (DA T) (DA s) /\
  chosen asks_oa opts (OA T) (OA s) /\
  FCS s = FCS T /\ CT s = CT T /\ MN s = MN T /\ RA s = RA T /\
  SCTS s = SCTS T /\ DT s = DT T /\ ST s = ST T /\ PID s = PID T /\ VP s = VP T.
