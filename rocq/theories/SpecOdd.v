(** Independent specification of what a Collector does with parts of TPDUs that
    are neither SUBMIT nor DELIVER: a machine with one pile of places, whatever
    message the parts are of. *)
From Verif Require Import GoBase Address UserData Tpdu Collector SpecCollect.

(** [g] is such a part: number [i] of [n], with [n] at least two. *)
Definition odd_type (g : seg) : bool :=
  negb (tpdu_type (sg_pdu g) =? SmsSubmit) && negb (tpdu_type (sg_pdu g) =? SmsDeliver).
Definition odd_part (g : seg) : option (Z * Z) :=
  match tpdu_concat_info (sg_pdu g) with
  | Some (n, i, _) => if (2 <=? n) && odd_type g then Some (n, i) else None
  | None => None
  end.

(** What can happen to the pile: a part is given to Collect; the time is up; the
    callback of the timer takes it away; the Collector is closed. *)
Inductive o_event := OPart (n i : Z) (g : seg) | OLate | ORemoved | OClosed.

(** The places, if there is a pile; whether its time is up; whether the
    Collector is closed. *)
Record o_state := { o_pile : option (list (option seg)); o_late : bool; o_closed : bool }.
Definition o_start : o_state := {| o_pile := None; o_late := false; o_closed := false |}.

(** The places with [g] in place [i]. *)
Definition put {A} (l : list (option A)) (i : Z) (g : A) : list (option A) :=
  firstn (Z.to_nat (i - 1)) l ++ [Some g] ++ skipn (Z.to_nat i) l.

(** The first part makes a pile with the number of places that it names.  Later
    ones are put in it whatever number they name, and the call panics if the pile
    has no such place.  All are answered with the same error, except that the
    whole pile, nil in the places that are empty, is returned without error when
    the number of parts in it is the number that the last one names. *)
Definition o_react (r : o_state) (e : o_event) : o_state * list output :=
  let answer d err := [OCollect (CReturn d err)] in
  match e with
  | OPart n i g =>
      let unsupported := Some (ErrUnsupportedSmsType (tpdu_type (sg_pdu g))) in
      let new := ({| o_pile := Some (put (repeat None (Z.to_nat n)) i g); o_late := false; o_closed := false |},
                  answer None unsupported) in
      if o_closed r then (r, answer None (Some ErrClosed))
      else if negb ((1 <=? i) && (i <=? n)) then (r, answer None (Some ErrReassemblyInconsistency))
      else match o_pile r with
           | None => new
           | Some l =>
               if len l <? i then (r, [OCollect CPanic])
               else match nth (Z.to_nat (i - 1)) l None with
                    | Some _ => (r, answer None (Some ErrDuplicateSegment))
                    | None =>
                        if o_late r then new
                        else if len (somes (put l i g)) =? n then
                          ({| o_pile := None; o_late := false; o_closed := false |}, answer (Some (put l i g)) None)
                        else
                          ({| o_pile := Some (put l i g); o_late := false; o_closed := false |}, answer None unsupported)
                    end
           end
  | OLate => ({| o_pile := o_pile r; o_late := true; o_closed := o_closed r |}, [])
  | ORemoved => ({| o_pile := None; o_late := false; o_closed := o_closed r |}, [])
  | OClosed => ({| o_pile := o_pile r; o_late := o_late r; o_closed := true |}, [])
  end.
Fixpoint o_reacts (r : o_state) (es : list o_event) : o_state * list output :=
  match es with
  | [] => (r, [])
  | e :: es' => let '(r1, o) := o_react r e in let '(r2, os) := o_reacts r1 es' in (r2, o ++ os)
  end.

(** A list with a part of another type in it. *)
Definition has_odd (l : list (option seg)) : bool :=
  existsb (fun o => match o with Some g => odd_type g | None => false end) l.

(** What of a history concerns the pile: the calls of Collect with such parts,
    the firing of the timer of a pipe that holds one, the callback of such a timer
    if the pipe is still among those that Pipes shows, and Close. *)
Definition o_concerns (s : cstate) (e : event) : list o_event :=
  match e with
  | EvCollect g => match odd_part g with Some (n, i) => [OPart n i g] | None => [] end
  | EvClose => [OClosed]
  | EvPipes => []
  | EvFire tid =>
      match nth_error (c_timers s) tid with
      | Some tm => match tm_state tm with
                   | TActive => if has_odd (pipe_segs s (tm_pipe tm)) then [OLate] else []
                   | _ => []
                   end
      | None => []
      end
  | EvExpire tid =>
      match nth_error (c_timers s) tid with
      | Some tm => match tm_state tm with
                   | TFired => if has_odd (pipe_segs s (tm_pipe tm)) &&
                                  existsb (Nat.eqb (tm_pipe tm)) (map snd (pipes s))
                               then [ORemoved] else []
                   | _ => []
                   end
      | None => []
      end
  | EvHandler _ => []
  end.
Fixpoint o_view (cfg : ccfg) (s : cstate) (es : list event) : list o_event :=
  match es with
  | [] => []
  | e :: es' => o_concerns s e ++ o_view cfg (fst (step cfg s e)) es'
  end.

(** The answers to those calls. *)
Fixpoint odd_replies (es : list event) (os : list output) : list output :=
  match es, os with
  | EvCollect g :: es', o :: os' =>
      match odd_part g with Some _ => o :: odd_replies es' os' | None => odd_replies es' os' end
  | _ :: es', _ :: os' => odd_replies es' os'
  | _, _ => []
  end.
