(** Independent specification of a Collector with a clock: histories in which
    each event has a time, what is expected of the timers of the runtime, and what
    then becomes of a message whose segments come at given times. *)
From Verif Require Import GoBase Address UserData Tpdu Collector SpecCollect SpecAlone.

(** The times at which the timers of a Collector were started, in the order of
    their numbers: a timer that is there after an event and was not before it was
    started at the time of the event. *)
Definition started (s s' : cstate) (t : Z) (starts : list Z) : list Z :=
  starts ++ repeat t (length (c_timers s') - length (c_timers s)).

(** An event that happens at time [t], when the Collector is in state [s] and its
    timers were started at the times [starts]. *)
Definition timing := cstate -> list Z -> Z -> event -> Prop.

(** The times of a history do not decrease, and all its events satisfy [P]. *)
Fixpoint keeps (P : timing) (cfg : ccfg) (s : cstate) (starts : list Z) (now : Z) (h : list (Z * event)) : Prop :=
  match h with
  | [] => True
  | (t, e) :: h' =>
      now <= t /\ P s starts t e /\
      keeps P cfg (fst (step cfg s e)) (started s (fst (step cfg s e)) t starts) t h'
  end.
Definition history (P : timing) (cfg : ccfg) (h : list (Z * event)) : Prop :=
  exists now, keeps P cfg new_collector [] now h.

(** A timer of duration [d] that has not been stopped does not fire before [d] has
    passed since it was started. *)
Definition not_early (d : Z) : timing := fun s starts t e =>
  forall tid tm t0, e = EvFire tid -> nth_error (c_timers s) tid = Some tm -> tm_state tm = TActive ->
  nth_error starts tid = Some t0 -> t0 + d <= t.

(** And it does not fire late: when a segment is collected, the timers whose
    duration has passed have fired, and their callbacks have taken the lock. *)
Definition on_time (d : Z) : timing := fun s starts t e =>
  not_early d s starts t e /\
  forall g tid tm t0, e = EvCollect g -> nth_error (c_timers s) tid = Some tm ->
  tm_state tm = TActive \/ tm_state tm = TFired -> nth_error starts tid = Some t0 -> t < t0 + d.

(** Collect was given [g] at time [t] or before. *)
Definition since (past : list (Z * event)) (g : seg) (t : Z) : Prop := exists t', In (t', EvCollect g) past /\ t' <= t.

(** The segments that are held of message [m], and the time at which the last of
    them was collected. *)
Record t_state := { t_held : m_state; t_last : Z }.
Definition t_start : t_state := {| t_held := m_start; t_last := 0 |}.

(** Segment number [i] comes at time [t]. *)
Definition takes (m : message) (q : t_state) (t i : Z) (g : seg) : t_state * list output :=
  let '(r, o) := react m (t_held q) (MPart i g) in
  ({| t_held := r; t_last := if Nat.eqb (length (r_got r)) (length (r_got (t_held q))) then t_last q else t |}, o).
Definition closes (m : message) (q : t_state) : t_state :=
  {| t_held := fst (react m (t_held q) MClosed); t_last := t_last q |}.

(** No segment of [m] comes [d] or more after the last one of it that was kept,
    while it is incomplete and the Collector open. *)
Fixpoint in_time (m : message) (d : Z) (q : t_state) (h : list (Z * event)) : Prop :=
  match h with
  | [] => True
  | (t, EvCollect g) :: h' =>
      match seg_no m g with
      | Some i =>
          (r_got (t_held q) = [] \/ r_closed (t_held q) = true \/ t < t_last q + d) /\
          in_time m d (fst (takes m q t i g)) h'
      | None => in_time m d q h'
      end
  | (_, EvClose) :: h' => in_time m d (closes m q) h'
  | _ :: h' => in_time m d q h'
  end.

(** The answers to the segments of [m] by a machine with a clock in place of
    timers: what is held is forgotten when a segment comes [d] or more after the
    last one that was kept. *)
Definition forgets (d : Z) (q : t_state) (t : Z) : t_state :=
  if negb (r_closed (t_held q)) && (t_last q + d <=? t)
  then {| t_held := m_start; t_last := t_last q |} else q.
Fixpoint timely (m : message) (d : Z) (q : t_state) (h : list (Z * event)) : list output :=
  match h with
  | [] => []
  | (t, EvCollect g) :: h' =>
      match seg_no m g with
      | Some i => let '(q', o) := takes m (forgets d q t) t i g in o ++ timely m d q' h'
      | None => timely m d q h'
      end
  | (_, EvClose) :: h' => timely m d (closes m q) h'
  | _ :: h' => timely m d q h'
  end.

(** The times at which segments of [m] are collected, and no two in a row that are
    [d] or more apart. *)
Definition arrivals (m : message) (h : list (Z * event)) : list Z :=
  flat_map (fun te => match snd te with
                      | EvCollect g => match seg_no m g with Some _ => [fst te] | None => [] end
                      | _ => []
                      end) h.
Fixpoint close_together (d : Z) (ts : list Z) : Prop :=
  match ts with
  | t :: ((t' :: _) as ts') => t' < t + d /\ close_together d ts'
  | _ => True
  end.
