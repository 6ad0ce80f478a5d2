(** What it means for the calls of many goroutines to behave as if they were made
    one at a time. *)
From Verif Require Import GoBase Collector CollectorLock SpecCollect.

(** A history with, for each call, the moment [Lin] at which it takes effect.
    Erasing these gives what was seen. *)
Definition erase (h : list item) : list item :=
  filter (fun x => match x with Lin _ _ _ => false | _ => true end) h.

(** The steps of the sequential Collector, with what each gave. *)
Definition event_of (c : call) : event :=
  match c with
  | CallCollect g => EvCollect g
  | CallClose => EvClose
  | CallPipes => EvPipes
  | CallExpire tid => EvExpire tid
  end.
Definition effects (h : list item) : list (event * output) :=
  flat_map (fun x => match x with
    | Lin _ c o => [(event_of c, o)]
    | Rang tid => [(EvFire tid, ONone)]
    | Handled tid o => [(EvHandler tid, o)]
    | _ => []
    end) h.

(** Each goroutine calls, the call takes effect once, and then it returns what
    the effect gave. *)
Inductive stage := Free | Called (c : call) | Took (c : call) (o : output).
Definition about (w : who) (x : item) : bool :=
  match x with
  | Calls v _ | Lin v _ _ | Returns v _ _ => who_eqb v w
  | _ => false
  end.
Inductive stage_of (w : who) : list item -> stage -> Prop :=
| stage_new : stage_of w [] Free
| stage_inv h c : stage_of w h Free -> stage_of w (h ++ [Calls w c]) (Called c)
| stage_lin h c o : stage_of w h (Called c) -> stage_of w (h ++ [Lin w c o]) (Took c o)
| stage_ret h c o : stage_of w h (Took c o) -> stage_of w (h ++ [Returns w c o]) Free
| stage_other h x st : about w x = false -> stage_of w h st -> stage_of w (h ++ [x]) st.
Definition orderly (h : list item) : Prop := forall w, exists st, stage_of w h st.

(** The history [h] can be explained by the sequential Collector, which ends in
    state [s]. *)
Definition explained (cfg : ccfg) (h : list item) (s : cstate) : Prop :=
  exists h', erase h' = h /\ orderly h' /\
    run cfg new_collector (map fst (effects h')) = (s, map snd (effects h')).

(** ** What a client sees *)

(** The calls that returned, in the order in which they released the mutex. *)
Definition answers (h : list item) : list (event * output) :=
  flat_map (fun x => match x with Returns _ c o => [(event_of c, o)] | _ => [] end) h.
(** The segments given to Collect, and those that came back, from Collect or to
    the handler. *)
Definition given (h : list item) : list seg :=
  flat_map (fun x => match x with Calls _ (CallCollect g) => [g] | _ => [] end) h.
Definition came_back (h : list item) : list seg :=
  flat_map (fun x => match x with
    | Returns _ _ o => returned o
    | Handled _ o => handled o
    | _ => []
    end) h.
(** How often the scheduler lets [w] go on. *)
Definition turns (w : who) (es : list mevent) : nat :=
  length (filter (fun e => match e with Go v _ => who_eqb v w | _ => false end) es).
