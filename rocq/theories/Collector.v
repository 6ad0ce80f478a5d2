(** Model of collect.go as a transition system.

    Collect, Close and Pipes hold the Collector's mutex for their whole body and
    so are single steps.  The callback of a reassembly timer is two steps: its
    critical section, and the call of the expiry handler after unlocking.  The
    firing of a timer by the runtime (which makes Stop return false and starts
    the callback's goroutine) is a step of its own.  Any sequence of steps is
    considered: time itself is not modelled, a timer may fire at any moment. *)
From Verif Require Import GoBase Utf Address UserData Tpdu.

(** The *tpdu.TPDU stored by Collect is the address of its parameter
    (collect.go:95 and 125), fresh in each call.  [sg_id] names the call, so that two calls with equal TPDUs can
    be told apart. *)
Record seg := { sg_id : nat; sg_pdu : tpdu }.

(** collect.go:173-177 [pipe].  [p_cleanup] is the *time.Timer, a timer index.
    A nil entry of segments is [None]. *)
Record pipe := { p_cleanup : option nat; p_segs : list (option seg); p_frags : Z }.

(** The life of a timer created by time.AfterFunc: [TActive] until it fires or
    is stopped; [TFired] once its goroutine is started; [TExpired] after the
    callback has left its critical section (collect.go:133-138); [TDone] after
    the handler call (139-141). *)
Inductive tstate := TActive | TStopped | TFired | TExpired | TDone.

(** A timer with the variables captured by its callback, collect.go:132-142. *)
Record timer := { tm_pipe : nat; tm_key : bytes; tm_state : tstate }.

(** collect.go:17-23 [Collector] with the heap of pipes and timers, which are
    referred to by index. *)
Record cstate := {
  c_closed : bool;
  c_pipes : list (bytes * nat);     (* map[string]*pipe *)
  c_heap : list pipe;
  c_timers : list timer }.

(** collect.go:53-61 [NewCollector]. *)
Definition new_collector : cstate :=
  {| c_closed := false; c_pipes := []; c_heap := []; c_timers := [] |}.

(** collect.go:21-22: duration <> 0, and expiryHandler <> nil. *)
Record ccfg := { cf_timeout : bool; cf_handler : bool }.

(** Maps keyed by strings: the map of collect.go:17-23, used at 110, 123, 128,
    134 and 136. *)
Definition key_eqb (a b : bytes) : bool :=
  if list_eq_dec Z.eq_dec a b then true else false.
Fixpoint klookup (m : list (bytes * nat)) (k : bytes) : option nat :=
  match m with
  | [] => None
  | (k', v) :: m' => if key_eqb k k' then Some v else klookup m' k
  end.
Definition kdelete (m : list (bytes * nat)) (k : bytes) : list (bytes * nat) :=
  filter (fun kv => negb (key_eqb k (fst kv))) m.
Definition kset (m : list (bytes * nat)) (k : bytes) (v : nat) : list (bytes * nat) :=
  (k, v) :: kdelete m k.

(** Assignment to element [i], collect.go:125. *)
Fixpoint upd {A} (l : list A) (i : nat) (x : A) : list A :=
  match l, i with
  | [], _ => []
  | _ :: l', O => x :: l'
  | y :: l', S i' => y :: upd l' i' x
  end.

(** fmt verb %d on a non-negative int, collect.go:152 and 159. *)
Fixpoint dec_loop (fuel : nat) (n : Z) (acc : bytes) : bytes :=
  match fuel with
  | O => acc
  | S f => let acc := 48 + n mod 10 :: acc in
           if n <? 10 then acc else dec_loop f (n / 10) acc
  end.
Definition fmt_d (n : Z) : bytes := dec_loop (S (Z.to_nat (Z.log2 n))) n [].
(** fmt verb %02x on a byte, collect.go:152 and 159. *)
Definition fmt_02x (b : Z) : bytes := [hex_digit (b / 16); hex_digit (b mod 16)].
(** ':', collect.go:152. *)
Definition colon : Z := 58.

(** collect.go:147-169 [pduKey]: the key and the error, which are both used. *)
Definition fmt_key (st toa : Z) (addr : bytes) (ref segments : Z) : bytes :=
  fmt_d st ++ [colon] ++ fmt_02x toa ++ [colon] ++ addr ++ [colon] ++
  fmt_d ref ++ [colon] ++ fmt_d segments.
Definition pdu_key (t : tpdu) (segments ref : Z) : bytes * option gerr :=
  let st := tpdu_type t in
  if st =? SmsSubmit then
    (fmt_key st (a_toa (DA t)) (a_addr (DA t)) ref segments, None)
  else if st =? SmsDeliver then
    (fmt_key st (a_toa (OA t)) (a_addr (OA t)) ref segments, None)
  else ([], Some (ErrUnsupportedSmsType st)).

(** Result of Collect (collect.go:95): the returned slice (nil is [None]) and error, or a
    panic. *)
Inductive cres :=
| CReturn (d : option (list (option seg))) (err : option gerr)
| CPanic.

(** time.Timer.Stop (collect.go:73 and 115): true iff the timer was active. *)
Definition stop_timer (s : cstate) (i : nat) : cstate * bool :=
  match nth_error (c_timers s) i with
  | Some tm =>
      match tm_state tm with
      | TActive =>
          ({| c_closed := c_closed s; c_pipes := c_pipes s; c_heap := c_heap s;
              c_timers := upd (c_timers s) i
                            {| tm_pipe := tm_pipe tm; tm_key := tm_key tm;
                               tm_state := TStopped |} |}, true)
      | _ => (s, false)
      end
  | None => (s, false)
  end.

(** collect.go:122-124: a new pipe stored under [key]. *)
Definition new_pipe (s : cstate) (key : bytes) (segments : Z) : cstate * nat :=
  let id := length (c_heap s) in
  ({| c_closed := c_closed s; c_pipes := kset (c_pipes s) key id;
      c_heap := c_heap s ++
        [{| p_cleanup := None; p_segs := repeat None (Z.to_nat segments);
            p_frags := 0 |}];
      c_timers := c_timers s |}, id).

(** collect.go:125-144: the segment is stored in pipe [id]. *)
Definition store (cfg : ccfg) (s : cstate) (id : nat) (key : bytes)
           (segments seqno : Z) (g : seg) (err : option gerr) : cstate * cres :=
  match nth_error (c_heap s) id with
  | None => (s, CPanic)
  | Some p =>
      let segs := upd (p_segs p) (Z.to_nat (seqno - 1)) (Some g) in
      let frags := p_frags p + 1 in
      if frags =? segments then
        ({| c_closed := c_closed s; c_pipes := kdelete (c_pipes s) key;
            c_heap := upd (c_heap s) id
              {| p_cleanup := p_cleanup p; p_segs := segs; p_frags := frags |};
            c_timers := c_timers s |}, CReturn (Some segs) None)
      else if cf_timeout cfg then
        ({| c_closed := c_closed s; c_pipes := c_pipes s;
            c_heap := upd (c_heap s) id
              {| p_cleanup := Some (length (c_timers s)); p_segs := segs;
                 p_frags := frags |};
            c_timers := c_timers s ++
              [{| tm_pipe := id; tm_key := key; tm_state := TActive |}] |},
         CReturn None err)
      else
        ({| c_closed := c_closed s; c_pipes := c_pipes s;
            c_heap := upd (c_heap s) id
              {| p_cleanup := p_cleanup p; p_segs := segs; p_frags := frags |};
            c_timers := c_timers s |}, CReturn None err)
  end.

(** collect.go:95-145 [Collector.Collect]. *)
Definition collect (cfg : ccfg) (s : cstate) (g : seg) : cstate * cres :=
  if c_closed s then (s, CReturn None (Some ErrClosed)) else
  match tpdu_concat_info (sg_pdu g) with
  | None => (s, CReturn (Some [Some g]) None)
  | Some (segments, seqno, ref) =>
      if segments <? 2 then (s, CReturn (Some [Some g]) None)
      else if (seqno <? 1) || (segments <? seqno)
      then (s, CReturn None (Some ErrReassemblyInconsistency))
      else
        let '(key, err) := pdu_key (sg_pdu g) segments ref in
        let fresh s :=
          let '(s, id) := new_pipe s key segments in
          store cfg s id key segments seqno g err in
        match klookup (c_pipes s) key with
        | None => fresh s
        | Some id =>
            match nth_error (c_heap s) id with
            | None => (s, CPanic)
            | Some p =>
                match idx (p_segs p) (seqno - 1) with
                | Ok (Some _) => (s, CReturn None (Some ErrDuplicateSegment))
                | Ok None =>
                    match p_cleanup p with
                    | None => store cfg s id key segments seqno g err
                    | Some tid =>
                        let '(s, stopped) := stop_timer s tid in
                        if stopped : bool then store cfg s id key segments seqno g err
                        else fresh s
                    end
                | _ => (s, CPanic)
                end
            end
        end
  end.

(** collect.go:64-76 [Collector.Close]: stops the timers of the pipes in the
    map, in any order. *)
Definition stop_pipe (s : cstate) (kv : bytes * nat) : cstate :=
  match nth_error (c_heap s) (snd kv) with
  | Some p => match p_cleanup p with
              | Some tid => fst (stop_timer s tid)
              | None => s
              end
  | None => s
  end.
Definition close (s : cstate) : cstate :=
  if c_closed s then s else
  fold_left stop_pipe (c_pipes s)
    {| c_closed := true; c_pipes := c_pipes s; c_heap := c_heap s;
       c_timers := c_timers s |}.

(** collect.go:81-89 [Collector.Pipes].  The slices in the returned map share
    their backing arrays with the pipes: the result holds the pipe, and what a
    caller sees in it is [pipe_segs] in the state at the time of looking. *)
Definition pipes (s : cstate) : list (bytes * nat) := c_pipes s.
Definition pipe_segs (s : cstate) (id : nat) : list (option seg) :=
  match nth_error (c_heap s) id with Some p => p_segs p | None => [] end.

(** The events of a history: calls of the methods at collect.go:64, 81 and 95,
    and the stages of a timer callback (132-142). *)
Inductive event :=
| EvCollect (g : seg)
| EvClose
| EvPipes
| EvFire (tid : nat)      (* the runtime fires timer [tid] *)
| EvExpire (tid : nat)    (* the callback's critical section, collect.go:133-138 *)
| EvHandler (tid : nat).  (* the handler call, collect.go:139-141 *)

Inductive output :=
| OCollect (r : cres)
| OPipes (m : list (bytes * nat))
| OHandled (segs : list (option seg))
| ONone.

Definition set_timer (s : cstate) (tid : nat) (tm : timer) (st : tstate) : cstate :=
  {| c_closed := c_closed s; c_pipes := c_pipes s; c_heap := c_heap s;
     c_timers := upd (c_timers s) tid
       {| tm_pipe := tm_pipe tm; tm_key := tm_key tm; tm_state := st |} |}.

(** collect.go:133-138: the pipe is removed if it is still the one stored. *)
Definition expire_pipe (s : cstate) (tm : timer) : cstate :=
  match klookup (c_pipes s) (tm_key tm) with
  | Some id => if Nat.eqb id (tm_pipe tm)
               then {| c_closed := c_closed s;
                       c_pipes := kdelete (c_pipes s) (tm_key tm);
                       c_heap := c_heap s; c_timers := c_timers s |}
               else s
  | None => s
  end.

(** One step of collect.go:64-145.  An event that is not enabled (a timer not in the right state)
    does nothing. *)
Definition step (cfg : ccfg) (s : cstate) (e : event) : cstate * output :=
  match e with
  | EvCollect g => let '(s, r) := collect cfg s g in (s, OCollect r)
  | EvClose => (close s, ONone)
  | EvPipes => (s, OPipes (pipes s))
  | EvFire tid =>
      match nth_error (c_timers s) tid with
      | Some tm => match tm_state tm with
                   | TActive => (set_timer s tid tm TFired, ONone)
                   | _ => (s, ONone)
                   end
      | None => (s, ONone)
      end
  | EvExpire tid =>
      match nth_error (c_timers s) tid with
      | Some tm => match tm_state tm with
                   | TFired => (set_timer (expire_pipe s tm) tid tm TExpired, ONone)
                   | _ => (s, ONone)
                   end
      | None => (s, ONone)
      end
  | EvHandler tid =>
      match nth_error (c_timers s) tid with
      | Some tm => match tm_state tm with
                   | TExpired =>
                       (set_timer s tid tm TDone,
                        if cf_handler cfg then OHandled (pipe_segs s (tm_pipe tm))
                        else ONone)
                   | _ => (s, ONone)
                   end
      | None => (s, ONone)
      end
  end.

(** A history (of calls and timers of collect.go) from a state: the final state and the outputs in order. *)
Fixpoint run (cfg : ccfg) (s : cstate) (es : list event) : cstate * list output :=
  match es with
  | [] => (s, [])
  | e :: es' =>
      let '(s1, o) := step cfg s e in
      let '(s2, os) := run cfg s1 es' in
      (s2, o :: os)
  end.
