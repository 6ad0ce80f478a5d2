(** Vocabulary for calls of Encode that run at the same time (C97). *)
From Verif Require Import GoBase UserData Tpdu Sms SharedCount.

(** Calls of Encode on encoder [e], each with its message and options, run in
    the order [sched] gives: [cs] is how far each has got, [n] what the counters
    are then. *)
Definition interleaved (e : sms_encoder) (calls : list (bytes * list encoder_opt)) (sched : list nat)
    (n : counters) (cs : list counting) : Prop :=
  run_counting {| ct_msg := e_msg_count e; ct_concat := e_concat_ref e |}
    (map (fun c => begin_encode e (fst c) (snd c)) calls) sched = (n, cs).

(** What a call returned, and whether it has. *)
Definition returned (c : counting) : option (res (list tpdu)) := match c with CDone r => Some r | _ => None end.
Definition returned_tpdus (c : counting) : list tpdu := match c with CDone (Ok l) => l | _ => [] end.

(** The same TPDU but for its message reference and, if it is part of a longer
    message, the reference number in its concatenation element. *)
Definition same_but_numbers (s s' : tpdu) : Prop :=
  set_MR (set_UDHf s None) 0 = set_MR (set_UDHf s' None) 0 /\
  (UDH s = UDH s' \/
   exists l r r' n k, UDH s = Some (l ++ [{| ie_id := 0; ie_data := [r; n; k] |}]) /\
                      UDH s' = Some (l ++ [{| ie_id := 0; ie_data := [r'; n; k] |}])).
Definition same_outcome (r : res (list tpdu)) (r' : res (list tpdu * sms_encoder)) : Prop :=
  match r, r' with
  | Ok l, Ok (l', _) => Forall2 same_but_numbers l l'
  | Err x, Err y => x = y
  | Panic, Panic | Diverge, Diverge => True
  | _, _ => False
  end.

(** The reference number of a concatenated message: that in the last element of
    its first TPDU. *)
Definition reference_of (pdus : list tpdu) : option Z :=
  match pdus with
  | s :: _ => match rev (ies (UDH s)) with
              | {| ie_id := 0; ie_data := r :: _ |} :: _ => Some r
              | _ => None
              end
  | [] => None
  end.
