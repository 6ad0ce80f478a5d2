(** What smsdeliver does, as a program that keeps the parts waiting for others in
    one heap: it knows of no keys, pipes or places. *)
From Coq Require Import String.
From Verif Require Import GoBase Utf Address UserData Tpdu PduMode Sms Collector SpecCollect SpecOdd Cmd SpecCmd SpecRefuse Print ErrorText.

(** Two parts of one message: of the same sender, with the same reference and
    number of parts. *)
Definition siblings (t u : tpdu) : bool :=
  match tpdu_concat_info t, tpdu_concat_info u with
  | Some (n, _, r), Some (n', _, r') =>
      (n =? n') && (r =? r') && (a_toa (OA t) =? a_toa (OA u)) &&
      (if list_eq_dec Z.eq_dec (a_addr (OA t)) (a_addr (OA u)) then true else false)
  | _, _ => false
  end.
Definition part_no (t : tpdu) : Z :=
  match tpdu_concat_info t with Some (_, i, _) => i | None => 0 end.
Definition part_count (t : tpdu) : Z :=
  match tpdu_concat_info t with Some (n, _, _) => n | None => 0 end.

(** Of the parts [w], number [k] of the message of [t]; all of them in order. *)
Definition the_part (w : list tpdu) (t : tpdu) (k : Z) : option tpdu :=
  find (fun u => siblings t u && (part_no u =? k)) w.
Definition the_parts (w : list tpdu) (t : tpdu) : list (option tpdu) :=
  map (fun k => the_part w t (Z.of_nat k)) (seq 1 (Z.to_nat (part_count t))).

(** What is said of a message: the sender and the text, or why there is none. *)
Definition said (t : tpdu) (pdus : list (option tpdu)) : list sd_line :=
  match decode pdus [] with
  | Ok msg => [SdPrint (addr_number (OA t)) msg]
  | Err e => [SdLog e]
  | _ => []
  end.

(** With the parts [w] waiting a TPDU comes that is no part, or a DELIVER TPDU:
    what is said, and what waits then. *)
Definition receive (w : list tpdu) (t : tpdu) : list sd_line * list tpdu :=
  if part_count t <? 2 then (said t [Some t], w)
  else if negb ((1 <=? part_no t) && (part_no t <=? part_count t)) then ([SdLog ErrReassemblyInconsistency], w)
  else
    let others := filter (siblings t) w in
    if existsb (fun u => part_no u =? part_no t) others then ([SdLog ErrDuplicateSegment], w)
    else if len others + 1 =? part_count t
    then (said t (the_parts (t :: w) t), filter (fun u => negb (siblings t u)) w)
    else ([], t :: w).

(** Parts that are not DELIVER TPDUs share one pile of places, whatever message
    they are of.  The first makes the pile, with as many places as it names parts;
    all are complained of, but the one with which the pile has as many parts as it
    names: then the pile is decoded as it is, with nil for the empty places, and
    the sender is that of the first place.  Nothing is returned if the program
    crashes: there is no such place, or Decode meets a nil. *)
Definition other_part (t : tpdu) : bool := (2 <=? part_count t) && negb (tpdu_type t =? SmsDeliver).
Definition receive_other (o : option (list (option tpdu))) (t : tpdu)
  : option (list sd_line * option (list (option tpdu))) :=
  let i := part_no t in
  let unsupported := [SdLog (ErrUnsupportedSmsType (tpdu_type t))] in
  if negb ((1 <=? i) && (i <=? part_count t)) then Some ([SdLog ErrReassemblyInconsistency], o)
  else match o with
       | None => Some (unsupported, Some (put (repeat None (Z.to_nat (part_count t))) i t))
       | Some l =>
           if len l <? i then None
           else match nth (Z.to_nat (i - 1)) l None with
                | Some _ => Some ([SdLog ErrDuplicateSegment], o)
                | None =>
                    if len (somes (put l i t)) =? part_count t then
                      match decode (put l i t) [], put l i t with
                      | Ok msg, Some u :: _ => Some ([SdPrint (addr_number (OA u)) msg], None)
                      | Err e, _ => Some ([SdLog e], None)
                      | _, _ => None
                      end
                    else Some (unsupported, Some (put l i t))
                end
       end.

(** The argument [a] is not the hex form of octets or, with the flag -p, these
    do not begin with an SMSC address. *)
Definition no_octets (pm : bool) (a : bytes) (e : gerr) : Prop :=
  hex_decode a = Err e \/ (pm = true /\ exists b, hex_decode a = Ok b /\ pdu_unmarshal b = Err e).

(** From the arguments, the waiting parts and the pile to what is said and how it
    ends: it stops at an argument without octets, it crashes, or the parts and the
    pile are left that still wait. *)
Inductive ending := Stopped (e : gerr) | Crashed | Left_over (w : list tpdu) (o : option (list (option tpdu))).
Inductive session (pm : bool) : list bytes -> list tpdu -> option (list (option tpdu)) -> list sd_line -> ending -> Prop :=
| se_end w o : session pm [] w o [] (Left_over w o)
| se_stop a args w o e : no_octets pm a e -> session pm (a :: args) w o [] (Stopped e)
| se_unread a tb e args w o ls z : payload pm a tb -> unreadable false tb e ->
    session pm args w o ls z -> session pm (a :: args) w o (SdLog e :: ls) z
| se_read a t args w o l w' ls z : shows pm a t -> other_part t = false -> receive w t = (l, w') ->
    session pm args w' o ls z -> session pm (a :: args) w o (l ++ ls) z
| se_other a t args w o l o' ls z : shows pm a t -> other_part t = true -> receive_other o t = Some (l, o') ->
    session pm args w o' ls z -> session pm (a :: args) w o (l ++ ls) z
| se_crash a t args w o : shows pm a t -> other_part t = true -> receive_other o t = None ->
    session pm (a :: args) w o [] Crashed.

(** ** Standard output *)
Definition written (ls : list sd_line) : bytes :=
  flat_map (fun l => match l with SdPrint n m => n ++ str ": " ++ m ++ [10] | SdLog _ => [] end) ls.

(** The report of the message of [t]: type, type of address and number of the
    sender, reference, number of parts; then a word for each part, <nil> for those
    that have not come. *)
Definition with_spaces (ws : list bytes) : bytes :=
  match ws with
  | [] => []
  | w :: ws' => w ++ flat_map (fun x => 32 :: x) ws'
  end.
Definition names (t : tpdu) (b : bytes) : Prop :=
  exists n i r, tpdu_concat_info t = Some (n, i, r) /\
    b = str "0:" ++ fmt_02x (a_toa (OA t)) ++ str ":" ++ a_addr (OA t) ++ str ":" ++ fmt_d r ++ str ":" ++ fmt_d n.
Definition word (o : option tpdu) (b : bytes) : Prop :=
  match o with
  | None => b = str "<nil>"
  | Some _ => exists addr, 0 < addr /\ b = str "0x" ++ fmt_x addr
  end.
Definition reports (w : list tpdu) (t : tpdu) (b : bytes) : Prop :=
  exists name ws, names t name /\ Forall2 word (the_parts w t) ws /\
    b = str "incomplete reassembly:  " ++ name ++ [10] ++ str "[" ++ with_spaces ws ++ str "]" ++ [10].

(** That of the pile has no name. *)
Definition reports_pile (o : option (list (option tpdu))) (b : bytes) : Prop :=
  match o with
  | None => b = []
  | Some l => exists ws, Forall2 word l ws /\
      b = str "incomplete reassembly:  " ++ [10] ++ str "[" ++ with_spaces ws ++ str "]" ++ [10]
  end.

(** One of each message that has parts among [w]. *)
Definition one_each (w ts : list tpdu) : Prop :=
  Forall (fun t => In t w) ts /\
  (forall i j t u, nth_error ts i = Some t -> nth_error ts j = Some u -> siblings t u = true -> i = j) /\
  forall u, In u w -> exists t, In t ts /\ siblings t u = true.

(** What is written at the end, and the status: after a stop or a crash nothing,
    else the reports, in any order. *)
Definition ends (z : ending) (out : bytes) (status : Z) : Prop :=
  match z with
  | Stopped _ => out = [] /\ status = 1
  | Crashed => out = [] /\ status = 2
  | Left_over w o => status = 0 /\ exists ts before after pile,
      one_each w ts /\ Forall2 (reports w) ts (before ++ after) /\ reports_pile o pile /\
      out = concat before ++ pile ++ concat after
  end.
