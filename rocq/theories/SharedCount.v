(** Concurrent calls of Encode on one Encoder, as far as its counters are
    concerned.  The Encoder is passed by value (encode.go:89), but MsgCount and
    ConcatRef are pointers, so the calls share the counters; Count is atomic
    (encode.go:124-126).  The option slice is the subject of HeapEncoder.v. *)
From Verif Require Import GoBase Dcs UserData Tpdu Segment Sms Heap.

(** The two counters, encode.go:39-54. *)
Record counters := { ct_msg : Z; ct_concat : Z }.

(** Where a call is between two calls of Count, encoding/tpdu/tpdu.go:189-229. *)
Inductive counting :=
| CBefore (t : tpdu) (msg : bytes)                  (* before line 190 *)
| CLoop (t : tpdu) (ref count : Z) (i : nat) (chunks : list bytes) (pdus : list tpdu) (* at line 218 *)
| CDone (r : res (list tpdu)).                      (* returned *)

(** encode.go:89-112: a call prepares the template and user data, of which it has
    its own copies, and calls Segment. *)
Definition begin_encode (e : sms_encoder) (msg : bytes) (opts : list encoder_opt) : counting :=
  match encode_prepare (fold_left apply_encoder_opt opts e) msg with
  | Ok (t, d) => CBefore t d
  | Err x => CDone (Err x)
  | Panic => CDone Panic
  | Diverge => CDone Diverge
  end.

(** A step of a call, up to and including its next Count: encoding/tpdu/tpdu.go:190-204
    (a message without octets and one that fits), 206-217 (the reference), and
    218-227 (one turn of the loop). *)
Definition count_step (n : counters) (c : counting) : counters * counting :=
  match c with
  | CBefore t msg =>
      if len msg =? 0 then (n, CDone (Ok []))
      else if len msg <=? ud_block_size t then
        let v := counter_count (ct_msg n) in
        ({| ct_msg := v; ct_concat := ct_concat n |}, CDone (Ok [set_MR (set_UDf t msg) (to_byte v)]))
      else
        let l := ies (UDH t) in
        let t := set_udh t (Some (l ++ [new_ie false 0 0 0])) in
        let bs := ud_block_size t in
        let t := set_UDHf t (Some l) in
        match chunk msg (dcs_alpha (DCS t)) bs with
        | Ok chunks =>
            let v := counter_count (ct_concat n) in
            ({| ct_msg := ct_msg n; ct_concat := v |}, CLoop t v (len chunks) 0 chunks [])
        | Err x => (n, CDone (Err x))
        | Panic => (n, CDone Panic)
        | Diverge => (n, CDone Diverge)
        end
  | CLoop t ref count i (c :: chunks) pdus =>
      let v := counter_count (ct_msg n) in
      let t' := set_MR t (to_byte v) in
      let h := ies (UDH t) ++ [new_ie false ref count (Z.of_nat i + 1)] in
      ({| ct_msg := v; ct_concat := ct_concat n |},
       CLoop t ref count (S i) chunks (pdus ++ [set_UDf (set_udh t' (Some h)) c]))
  | CLoop _ _ _ _ [] pdus => (n, CDone (Ok pdus))
  | CDone _ => (n, c)
  end.

(** Any number of calls, scheduled in any way: [sched] names the call that makes
    each step. *)
Fixpoint run_counting (n : counters) (cs : list counting) (sched : list nat) : counters * list counting :=
  match sched with
  | [] => (n, cs)
  | k :: sched' =>
      match nth_error cs k with
      | Some c => let (n', c') := count_step n c in run_counting n' (update cs k c') sched'
      | None => run_counting n cs sched'
      end
  end.
