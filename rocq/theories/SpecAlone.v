(** Independent specification of what a Collector does with one message: a
    machine that knows nothing of other messages, of keys, pipes or timers. *)
From Verif Require Import GoBase Address UserData Tpdu Collector SpecCollect.

(** What can happen to message [m]: its segment number [i] is given to Collect;
    the time for its reassembly is up; what was collected of it is taken away by
    the callback of the timer; the Collector is closed. *)
Inductive m_event := MPart (i : Z) (g : seg) | MLate | MRemoved | MClosed.

(** The segments held, with their numbers; whether their time is up; whether the
    Collector is closed. *)
Record m_state := { r_got : list (Z * seg); r_late : bool; r_closed : bool }.
Definition m_start : m_state := {| r_got := []; r_late := false; r_closed := false |}.

(** The segments in their places, [None] for those that are missing. *)
Definition slot (got : list (Z * seg)) (i : Z) : option seg :=
  option_map snd (find (fun ig => fst ig =? i) got).
Definition in_order (n : Z) (got : list (Z * seg)) : list (option seg) :=
  map (fun k => slot got (Z.of_nat k)) (seq 1 (Z.to_nat n)).

(** A segment is refused if the Collector is closed, if its number is not one of
    1 to n, or if there is one of that number.  It completes the message, is kept
    until others come, or, once the time of those held is up, begins anew. *)
Definition react (m : message) (r : m_state) (e : m_event) : m_state * list output :=
  let answer d err := [OCollect (CReturn d err)] in
  match e with
  | MPart i g =>
      if r_closed r then (r, answer None (Some ErrClosed))
      else if negb ((1 <=? i) && (i <=? m_total m)) then (r, answer None (Some ErrReassemblyInconsistency))
      else if existsb (fun ig => fst ig =? i) (r_got r) then (r, answer None (Some ErrDuplicateSegment))
      else if r_late r then
        ({| r_got := [(i, g)]; r_late := false; r_closed := false |}, answer None None)
      else if len (r_got r) + 1 =? m_total m then
        ({| r_got := []; r_late := false; r_closed := false |},
         answer (Some (in_order (m_total m) ((i, g) :: r_got r))) None)
      else ({| r_got := (i, g) :: r_got r; r_late := false; r_closed := false |}, answer None None)
  | MLate => ({| r_got := r_got r; r_late := true; r_closed := r_closed r |}, [])
  | MRemoved => ({| r_got := []; r_late := false; r_closed := r_closed r |}, [])
  | MClosed => ({| r_got := r_got r; r_late := r_late r; r_closed := true |}, [])
  end.
Fixpoint reacts (m : message) (r : m_state) (es : list m_event) : m_state * list output :=
  match es with
  | [] => (r, [])
  | e :: es' => let '(r1, o) := react m r e in let '(r2, os) := reacts m r1 es' in (r2, o ++ os)
  end.

(** A list of segments with one of [m] in it. *)
Definition has_part (m : message) (l : list (option seg)) : bool :=
  existsb (fun o => match o with
                    | Some g => match seg_no m g with Some _ => true | None => false end
                    | None => false
                    end) l.

(** What of a history concerns [m]: the calls of Collect with its segments, the
    firing of the timer of a pipe that holds segments of it, the callback of such
    a timer if the pipe is still among those that Pipes shows, and Close. *)
Definition concerns (m : message) (s : cstate) (e : event) : list m_event :=
  match e with
  | EvCollect g => match seg_no m g with Some i => [MPart i g] | None => [] end
  | EvClose => [MClosed]
  | EvPipes => []
  | EvFire tid =>
      match nth_error (c_timers s) tid with
      | Some tm => match tm_state tm with
                   | TActive => if has_part m (pipe_segs s (tm_pipe tm)) then [MLate] else []
                   | _ => []
                   end
      | None => []
      end
  | EvExpire tid =>
      match nth_error (c_timers s) tid with
      | Some tm => match tm_state tm with
                   | TFired => if has_part m (pipe_segs s (tm_pipe tm)) &&
                                  existsb (Nat.eqb (tm_pipe tm)) (map snd (pipes s))
                               then [MRemoved] else []
                   | _ => []
                   end
      | None => []
      end
  | EvHandler _ => []
  end.
Fixpoint view (cfg : ccfg) (m : message) (s : cstate) (es : list event) : list m_event :=
  match es with
  | [] => []
  | e :: es' => concerns m s e ++ view cfg m (fst (step cfg s e)) es'
  end.

(** Messages there can be: the fields that tell them apart are of their types,
    and there is more than one segment. *)
Definition proper_message (m : message) : Prop :=
  (m_type m = SmsSubmit \/ m_type m = SmsDeliver) /\ is_byte (m_toa m) /\ 0 <= m_ref m /\ 2 <= m_total m.
