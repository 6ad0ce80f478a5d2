(** Concurrent calls of Encode on one Encoder, as far as its option slice is
    concerned (see Heap.v).  The Encoder is passed by value (encode.go:89), so a
    call has its own copy of the slice and of the template, but the copies share
    the array of the options. *)
From Verif Require Import GoBase Dcs UserData Tpdu Segment Sms Heap.

(** options.go:99-101, 114-116, 135-137 and 156-158: [e.eopts = append(e.eopts, o)]
    as NewEncoder does it for each of its options, encode.go:57-61. *)
Fixpoint h_append_opts (grow : nat -> nat -> nat) (junk : charset_opt) (h : heap charset_opt) (s : gslice)
    (opts : list encoder_opt) : heap charset_opt * gslice :=
  match opts with
  | [] => (h, s)
  | EoCharset c :: opts' =>
      let (h', s') := gappend grow junk h s [c] in h_append_opts grow junk h' s' opts'
  | _ :: opts' => h_append_opts grow junk h s opts'
  end.

(** A call of Encode on the way, encode.go:89-105: the message, the options still
    to be applied, the call's copy of the Encoder ([c_enc] without its eopts, and
    [c_eopts]), and once it gets that far what it passes to Segment. *)
Record call := {
  c_msg : bytes; c_todo : list encoder_opt; c_enc : sms_encoder; c_eopts : gslice;
  c_done : option (res (tpdu * bytes)) }.

(** encode.go:89-92: a call starts with a copy of the Encoder. *)
Definition start_call (e : sms_encoder) (s : gslice) (msg : bytes) (opts : list encoder_opt) : call :=
  {| c_msg := msg; c_todo := opts; c_enc := e; c_eopts := s; c_done := None |}.

(** The Encoder with the options that its slice has in memory. *)
Definition with_eopts (e : sms_encoder) (l : list charset_opt) : sms_encoder :=
  {| e_eopts := l; e_pdu := e_pdu e; e_msg_count := e_msg_count e; e_concat_ref := e_concat_ref e |}.

(** One step of a call: apply one option (encode.go:90-92), or encode the user
    data with the options in memory (encode.go:95-112). *)
Definition step (grow : nat -> nat -> nat) (junk : charset_opt) (h : heap charset_opt) (c : call) : heap charset_opt * call :=
  match c_todo c with
  | EoCharset o :: r =>
      let (h', s') := gappend grow junk h (c_eopts c) [o] in
      (h', {| c_msg := c_msg c; c_todo := r; c_enc := c_enc c; c_eopts := s'; c_done := c_done c |})
  | o :: r =>
      (h, {| c_msg := c_msg c; c_todo := r; c_enc := apply_encoder_opt (c_enc c) o; c_eopts := c_eopts c; c_done := c_done c |})
  | [] =>
      (h, match c_done c with
          | Some _ => c
          | None => {| c_msg := c_msg c; c_todo := []; c_enc := c_enc c; c_eopts := c_eopts c;
                       c_done := Some (encode_prepare (with_eopts (c_enc c) (view h (c_eopts c))) (c_msg c)) |}
          end)
  end.

(** Any number of calls, scheduled in any way: [sched] names the call that makes
    each step. *)
Fixpoint run_calls (grow : nat -> nat -> nat) (junk : charset_opt) (h : heap charset_opt) (cs : list call) (sched : list nat)
  : heap charset_opt * list call :=
  match sched with
  | [] => (h, cs)
  | k :: sched' =>
      match nth_error cs k with
      | Some c => let (h', c') := step grow junk h c in run_calls grow junk h' (update cs k c') sched'
      | None => run_calls grow junk h cs sched'
      end
  end.
