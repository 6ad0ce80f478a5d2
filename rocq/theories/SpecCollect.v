(** Specification of reassembly: which message a segment belongs to, and where
    the segments given to a Collector are. *)
From Verif Require Import GoBase UserData Tpdu Address Collector.

Definition somes {A} (l : list (option A)) : list A :=
  flat_map (fun o => match o with Some x => [x] | None => [] end) l.

(** ** Messages *)

(** What identifies a message: the type of its TPDUs, the address it is sent to
    or comes from, the reference and the number of segments. *)
Record message := { m_type : Z; m_toa : Z; m_addr : bytes; m_ref : Z; m_total : Z }.

(** Segment [g] is number [i] of message [m]. *)
Definition is_segment (m : message) (i : Z) (g : seg) : Prop :=
  let t := sg_pdu g in
  tpdu_concat_info t = Some (m_total m, i, m_ref m) /\
  ((m_type m = SmsSubmit /\ tpdu_type t = SmsSubmit /\ DA t = {| a_toa := m_toa m; a_addr := m_addr m |}) \/
   (m_type m = SmsDeliver /\ tpdu_type t = SmsDeliver /\ OA t = {| a_toa := m_toa m; a_addr := m_addr m |})).

(** The same as a function: the number of [g] in [m], if it is part of [m]. *)
Definition seg_no (m : message) (g : seg) : option Z :=
  let t := sg_pdu g in
  let a := if m_type m =? SmsSubmit then DA t else OA t in
  match tpdu_concat_info t with
  | Some (n, i, r) =>
      if (n =? m_total m) && (r =? m_ref m) && (tpdu_type t =? m_type m) &&
         ((m_type m =? SmsSubmit) || (m_type m =? SmsDeliver)) &&
         (a_toa a =? m_toa m) && (if list_eq_dec Z.eq_dec (a_addr a) (m_addr m) then true else false)
      then Some i else None
  | None => None
  end.

(** The segments of [m] collected in a history, with their numbers, in order of
    arrival, and the replies to those calls. *)
Definition parts (m : message) (es : list event) : list (Z * seg) :=
  flat_map (fun e => match e with
                     | EvCollect g => match seg_no m g with Some i => [(i, g)] | None => [] end
                     | _ => []
                     end) es.
Fixpoint replies (m : message) (es : list event) (os : list output) : list output :=
  match es, os with
  | EvCollect g :: es', o :: os' =>
      match seg_no m g with Some _ => o :: replies m es' os' | None => replies m es' os' end
  | _ :: es', _ :: os' => replies m es' os'
  | _, _ => []
  end.

(** The fields that identify the message are of the Go types: a byte for the
    type of address, bytes in the header. *)
Definition typed (g : seg) : Prop :=
  is_byte (a_toa (DA (sg_pdu g))) /\ is_byte (a_toa (OA (sg_pdu g))) /\
  Forall (fun i => Forall is_byte (ie_data i)) (ies (UDH (sg_pdu g))).

(** A TPDU of a type the Collector supports. *)
Definition supported (g : seg) : Prop :=
  tpdu_type (sg_pdu g) = SmsSubmit \/ tpdu_type (sg_pdu g) = SmsDeliver.

(** Part of a message of several segments. *)
Definition is_part (g : seg) : bool :=
  match tpdu_concat_info (sg_pdu g) with Some (n, _, _) => 2 <=? n | None => false end.

(** ** Where the segments are *)

Definition stored (s : cstate) (id : nat) : bool :=
  existsb (fun kv => Nat.eqb (snd kv) id) (c_pipes s).

(** Held: in the pipes shown by Pipes. *)
Definition held (s : cstate) : list seg :=
  flat_map (fun kv => somes (pipe_segs s (snd kv))) (c_pipes s).

(** About to be given to the handler: the timer has fired or its callback has
    removed the pipe, and the handler has not been called. *)
Definition due (s : cstate) (tm : timer) : list seg :=
  match tm_state tm with
  | TFired | TExpired => if stored s (tm_pipe tm) then [] else somes (pipe_segs s (tm_pipe tm))
  | _ => []
  end.
Definition pending (s : cstate) : list seg := flat_map (due s) (c_timers s).

(** Returned by Collect, and given to the handler. *)
Definition returned (o : output) : list seg :=
  match o with OCollect (CReturn (Some d) _) => somes d | _ => [] end.
Definition handled (o : output) : list seg :=
  match o with OHandled d => somes d | _ => [] end.

(** The segments a Collect call took over: it returned without an error, or with
    the error for an unsupported type, which does not stop the collection. *)
Definition taken (e : event) (o : output) : list seg :=
  match e, o with
  | EvCollect g, OCollect (CReturn _ None) => [g]
  | EvCollect g, OCollect (CReturn _ (Some (ErrUnsupportedSmsType _))) => [g]
  | _, _ => []
  end.
Fixpoint all_taken (es : list event) (os : list output) : list seg :=
  match es, os with
  | e :: es', o :: os' => taken e o ++ all_taken es' os'
  | _, _ => []
  end.

(** ** Histories *)

(** States reached from a new Collector by a history satisfying [P]. *)
Definition reachable (cfg : ccfg) (P : event -> Prop) (s : cstate) : Prop :=
  exists es, Forall P es /\ fst (run cfg new_collector es) = s.
Definition any_event (e : event) : Prop := True.
(** Any TPDUs there can be in Go. *)
Definition typed_event (e : event) : Prop := match e with EvCollect g => typed g | _ => True end.
(** Histories in which the parts of messages are SUBMIT or DELIVER TPDUs. *)
Definition supported_event (e : event) : Prop :=
  match e with EvCollect g => typed g /\ (is_part g = true -> supported g) | _ => True end.

(** No reassembly timer of message [m] fires in the history. *)
Fixpoint no_timeout (cfg : ccfg) (m : message) (s : cstate) (es : list event) : Prop :=
  match es with
  | [] => True
  | e :: es' =>
      match e with
      | EvFire tid =>
          forall tm g, nth_error (c_timers s) tid = Some tm -> tm_state tm = TActive ->
            In (Some g) (pipe_segs s (tm_pipe tm)) -> seg_no m g = None
      | _ => True
      end /\ no_timeout cfg m (fst (step cfg s e)) es'
  end.

(** The handler calls made for timer [tid]. *)
Fixpoint calls (tid : nat) (es : list event) (os : list output) : list (list (option seg)) :=
  match es, os with
  | EvHandler j :: es', OHandled d :: os' => if Nat.eqb j tid then d :: calls tid es' os' else calls tid es' os'
  | _ :: es', _ :: os' => calls tid es' os'
  | _, _ => []
  end.

(** The callback of timer [tid] runs in the history: its critical section and,
    later, the handler call. *)
Fixpoint expires (tid : nat) (es : list event) : bool :=
  match es with
  | [] => false
  | EvExpire j :: es' => if Nat.eqb j tid then existsb (fun e => match e with EvHandler j => Nat.eqb j tid | _ => false end) es'
                         else expires tid es'
  | _ :: es' => expires tid es'
  end.
