(** Model of collect.go in the steps its goroutines take.

    In [Collector.v] each method is one step.  Here a call waits for the mutex,
    takes it, reads and writes the shared state in steps of its own, and releases
    the mutex when it returns.  The calls of any number of goroutines, the timer
    callbacks and the firing of timers interleave in any order.  The handler may
    itself call the Collector. *)
From Verif Require Import GoBase Address UserData Tpdu Collector.

(** Who calls: the clients, and the goroutine of each timer (collect.go:132). *)
Inductive who := Client (n : nat) | Callback (tid : nat).
Definition who_eqb (v w : who) : bool :=
  match v, w with
  | Client n, Client m => Nat.eqb n m
  | Callback n, Callback m => Nat.eqb n m
  | _, _ => false
  end.

(** What is called: the methods at collect.go:95, 64 and 81, and the critical
    section of the callback (133-138). *)
Inductive call := CallCollect (g : seg) | CallClose | CallPipes | CallExpire (tid : nat).

(** The variables of Collect (collect.go:102-109) after pduKey. *)
Record part := { pt_seg : seg; pt_total : Z; pt_seq : Z; pt_key : bytes; pt_err : option gerr }.

(** Where a goroutine is that holds the mutex. *)
Inductive pc :=
| AtClosed (g : seg)                              (* collect.go:98 *)
| AtLookup (p : part)                             (* 110 *)
| AtSegment (p : part) (id : nat)                 (* 112 *)
| AtStop (p : part) (id : nat)                    (* 115 *)
| AtNew (p : part)                                (* 122-123 *)
| AtPut (p : part) (id : nat)                     (* 125 *)
| AtCount (p : part) (id : nat)                   (* 126-127 *)
| AtDelete (p : part) (id : nat)                  (* 128-129 *)
| AtAfter (p : part) (id : nat)                   (* 131-132, AfterFunc *)
| AtCleanup (p : part) (id tid : nat)             (* 132, the assignment *)
| AtClose                                         (* 67-70 *)
| AtStops (rest : list (bytes * nat))             (* 71-75 *)
| AtPipes                                         (* 83-86 *)
| AtExpire (tid : nat)                            (* 134 *)
| AtRemove (tid : nat) (m : option nat)           (* 135-137 *)
| AtUnlock (o : output).                          (* the return, 66, 87, 97, 138 *)

(** collect.go:96-97, 65-66, 82 and 133: the first position after Lock. *)
Definition entry_pc (c : call) : pc :=
  match c with
  | CallCollect g => AtClosed g
  | CallClose => AtClose
  | CallPipes => AtPipes
  | CallExpire tid => AtExpire tid
  end.

Definition with_heap (s : cstate) (h : list pipe) : cstate :=
  {| c_closed := c_closed s; c_pipes := c_pipes s; c_heap := h; c_timers := c_timers s |}.
Definition with_map (s : cstate) (m : list (bytes * nat)) : cstate :=
  {| c_closed := c_closed s; c_pipes := m; c_heap := c_heap s; c_timers := c_timers s |}.
Definition give (d : option (list (option seg))) (err : option gerr) : pc :=
  AtUnlock (OCollect (CReturn d err)).
(** A panic: the deferred Unlock of collect.go:97 runs. *)
Definition crash : pc := AtUnlock (OCollect CPanic).

(** The order in which the range of collect.go:71 visits the map is anything:
    entry [n] is taken next. *)
Definition take_nth (n : nat) (l : list (bytes * nat)) : option ((bytes * nat) * list (bytes * nat)) :=
  let i := Nat.modulo n (length l) in
  match skipn i l with
  | [] => None
  | x :: r => Some (x, firstn i l ++ r)
  end.

(** One step of the goroutine that holds the mutex, collect.go:64-145. *)
Definition micro (cfg : ccfg) (n : nat) (s : cstate) (i : pc) : cstate * pc :=
  match i with
  | AtClosed g =>
      if c_closed s then (s, give None (Some ErrClosed)) else
      match tpdu_concat_info (sg_pdu g) with
      | None => (s, give (Some [Some g]) None)
      | Some (total, seq, ref) =>
          if total <? 2 then (s, give (Some [Some g]) None)
          else if (seq <? 1) || (total <? seq) then (s, give None (Some ErrReassemblyInconsistency))
          else let '(key, err) := pdu_key (sg_pdu g) total ref in
               (s, AtLookup {| pt_seg := g; pt_total := total; pt_seq := seq; pt_key := key; pt_err := err |})
      end
  | AtLookup p =>
      match klookup (c_pipes s) (pt_key p) with
      | None => (s, AtNew p)
      | Some id => (s, AtSegment p id)
      end
  | AtSegment p id =>
      match nth_error (c_heap s) id with
      | None => (s, crash)
      | Some q =>
          match idx (p_segs q) (pt_seq p - 1) with
          | Ok (Some _) => (s, give None (Some ErrDuplicateSegment))
          | Ok None => (s, AtStop p id)
          | _ => (s, crash)
          end
      end
  | AtStop p id =>
      match nth_error (c_heap s) id with
      | None => (s, crash)
      | Some q =>
          match p_cleanup q with
          | None => (s, AtPut p id)
          | Some tid => let '(s, stopped) := stop_timer s tid in
                        (s, if stopped : bool then AtPut p id else AtNew p)
          end
      end
  | AtNew p => let '(s, id) := new_pipe s (pt_key p) (pt_total p) in (s, AtPut p id)
  | AtPut p id =>
      match nth_error (c_heap s) id with
      | None => (s, crash)
      | Some q =>
          (with_heap s (upd (c_heap s) id
             {| p_cleanup := p_cleanup q;
                p_segs := upd (p_segs q) (Z.to_nat (pt_seq p - 1)) (Some (pt_seg p));
                p_frags := p_frags q |}), AtCount p id)
      end
  | AtCount p id =>
      match nth_error (c_heap s) id with
      | None => (s, crash)
      | Some q =>
          (with_heap s (upd (c_heap s) id
             {| p_cleanup := p_cleanup q; p_segs := p_segs q; p_frags := p_frags q + 1 |}),
           if p_frags q + 1 =? pt_total p then AtDelete p id
           else if cf_timeout cfg then AtAfter p id
           else give None (pt_err p))
      end
  | AtDelete p id => (with_map s (kdelete (c_pipes s) (pt_key p)), give (Some (pipe_segs s id)) None)
  | AtAfter p id =>
      ({| c_closed := c_closed s; c_pipes := c_pipes s; c_heap := c_heap s;
          c_timers := c_timers s ++ [{| tm_pipe := id; tm_key := pt_key p; tm_state := TActive |}] |},
       AtCleanup p id (length (c_timers s)))
  | AtCleanup p id tid =>
      match nth_error (c_heap s) id with
      | None => (s, crash)
      | Some q =>
          (with_heap s (upd (c_heap s) id
             {| p_cleanup := Some tid; p_segs := p_segs q; p_frags := p_frags q |}),
           give None (pt_err p))
      end
  | AtClose =>
      if c_closed s then (s, AtUnlock ONone)
      else ({| c_closed := true; c_pipes := c_pipes s; c_heap := c_heap s; c_timers := c_timers s |},
            AtStops (c_pipes s))
  | AtStops rest =>
      match take_nth n rest with
      | None => (s, AtUnlock ONone)
      | Some (kv, rest) => (stop_pipe s kv, AtStops rest)
      end
  | AtPipes => (s, AtUnlock (OPipes (pipes s)))
  | AtExpire tid =>
      match nth_error (c_timers s) tid with
      | None => (s, crash)
      | Some tm => (s, AtRemove tid (klookup (c_pipes s) (tm_key tm)))
      end
  | AtRemove tid m =>
      match nth_error (c_timers s) tid with
      | None => (s, crash)
      | Some tm =>
          let s := match m with
                   | Some id => if Nat.eqb id (tm_pipe tm)
                                then with_map s (kdelete (c_pipes s) (tm_key tm)) else s
                   | None => s
                   end in
          (set_timer s tid tm TExpired, AtUnlock ONone)
      end
  | AtUnlock o => (s, i)
  end.

(** What a goroutine is doing.  A timer's goroutine is [Absent] until the timer
    fires, and [Handling] between collect.go:138 and 140; afterwards it runs the
    handler, which can call whatever it likes ([Idle]). *)
Inductive doing :=
| Absent | Idle | Waiting (c : call) | Holding (c : call) (i : pc) | Handling (tid : nat).

Record sys := { shared : cstate; mutex : option who; at_ : who -> doing }.
(** collect.go:53-61. *)
Definition start : sys :=
  {| shared := new_collector; mutex := None;
     at_ := fun w => match w with Client _ => Idle | Callback _ => Absent end |}.
Definition moves (f : who -> doing) (w : who) (d : doing) : who -> doing :=
  fun v => if who_eqb v w then d else f v.

(** What the scheduler, the clients and the clock may do next. *)
Inductive mevent :=
| Invoke (w : who) (c : call)       (* a method is called *)
| Acquire (w : who)                 (* Lock succeeds *)
| Go (w : who) (n : nat)            (* one step of [w] *)
| Ring (tid : nat).                 (* a timer fires *)

(** What can be seen: calls and returns, timers that fire, and the handler being
    called.  [Lin] is used in the specification only. *)
Inductive item :=
| Calls (w : who) (c : call)
| Returns (w : who) (c : call) (o : output)
| Rang (tid : nat)
| Handled (tid : nat) (o : output)
| Lin (w : who) (c : call) (o : output).

(** One step of the system of collect.go:64-145; an event that is not possible
    does nothing. *)
Definition mstep (cfg : ccfg) (z : sys) (e : mevent) : sys * list item :=
  match e with
  | Invoke w c =>
      match at_ z w, c with
      | Idle, CallExpire _ => (z, [])
      | Idle, _ => ({| shared := shared z; mutex := mutex z; at_ := moves (at_ z) w (Waiting c) |}, [Calls w c])
      | _, _ => (z, [])
      end
  | Acquire w =>
      match at_ z w, mutex z with
      | Waiting c, None =>
          ({| shared := shared z; mutex := Some w; at_ := moves (at_ z) w (Holding c (entry_pc c)) |}, [])
      | _, _ => (z, [])
      end
  | Go w n =>
      match at_ z w with
      | Holding c (AtUnlock o) =>
          ({| shared := shared z; mutex := None;
              at_ := moves (at_ z) w (match c with CallExpire tid => Handling tid | _ => Idle end) |}, [Returns w c o])
      | Holding c i =>
          let '(s, i) := micro cfg n (shared z) i in
          ({| shared := s; mutex := mutex z; at_ := moves (at_ z) w (Holding c i) |}, [])
      | Handling tid =>
          match nth_error (c_timers (shared z)) tid with
          | None => (z, [])
          | Some tm =>
              ({| shared := set_timer (shared z) tid tm TDone; mutex := mutex z; at_ := moves (at_ z) w Idle |},
               [Handled tid (if cf_handler cfg then OHandled (pipe_segs (shared z) (tm_pipe tm)) else ONone)])
          end
      | _ => (z, [])
      end
  | Ring tid =>
      match nth_error (c_timers (shared z)) tid with
      | Some tm =>
          match tm_state tm with
          | TActive =>
              ({| shared := set_timer (shared z) tid tm TFired; mutex := mutex z;
                  at_ := moves (at_ z) (Callback tid) (Waiting (CallExpire tid)) |},
               [Rang tid; Calls (Callback tid) (CallExpire tid)])
          | _ => (z, [])
          end
      | None => (z, [])
      end
  end.

(** An execution of collect.go from a state: the final state and what was seen. *)
Fixpoint mrun (cfg : ccfg) (z : sys) (es : list mevent) : sys * list item :=
  match es with
  | [] => (z, [])
  | e :: es' =>
      let '(z1, h) := mstep cfg z e in
      let '(z2, h') := mrun cfg z1 es' in
      (z2, h ++ h')
  end.
