(** Model of internal/readme/readme.go: the loops by which the README shows how
    messages are sent and received.  Errors are ignored, as there. *)
From Verif Require Import GoBase Address UserData Tpdu Segment Sms Collector.

(** internal/readme/readme.go:30-34, the body of the loop of [encoder] for one
    message: the octets given to sendPDU, and the Encoder with its counters
    advanced.  A TPDU that MarshalBinary refuses is sent as nil, and after an
    error of Encode there are none.  A panic is the end. *)
Definition readme_send_one (e : sms_encoder) (msg : bytes) : res (list bytes * sms_encoder) :=
  match encoder_encode e msg [] with
  | Ok (pdus, e') => Ok (map (fun p => match tpdu_marshal p with Ok b => b | _ => [] end) pdus, e')
  | Err _ => Ok ([], e)
  | Panic => Panic
  | Diverge => Diverge
  end.
(** internal/readme/readme.go:28-35 for the messages that msgChan gives: what is
    sent for each. *)
Fixpoint readme_send (e : sms_encoder) (msgs : list bytes) : res (list (list bytes)) :=
  match msgs with
  | [] => Ok []
  | m :: msgs' =>
      '(b, e') <- readme_send_one e m ;;
      bs <- readme_send e' msgs' ;;
      Ok (b :: bs)
  end.

(** How a round of internal/readme/readme.go:65-74 [collect] ends: it waits for
    the next TPDU, or panics. *)
Inductive loop_end := Waits | Panics | Hangs.

(** internal/readme/readme.go:64, a Collector without options. *)
Definition readme_cfg : ccfg := {| cf_timeout := false; cf_handler := false |}.

(** internal/readme/readme.go:65-74 for the octets that pduChan gives: the
    messages given to handleMsg, nil (here empty) if Decode fails.  [n] counts
    the calls of Collect.  After an error of Unmarshal the pointer that is
    dereferenced in line 68 is nil.  [mo] stands for the option AsMO of
    Unmarshal, which the README describes and the loop does not use. *)
Fixpoint readme_receive (mo : bool) (s : cstate) (n : nat) (stream : list bytes) : list bytes * loop_end :=
  match stream with
  | [] => ([], Waits)
  | b :: stream' =>
      match unmarshal b mo with
      | Ok t =>
          match collect readme_cfg s {| sg_id := n; sg_pdu := t |} with
          | (_, CPanic) => ([], Panics)
          | (s', CReturn d _) =>
              let go := readme_receive mo s' (S n) stream' in
              match d with
              | None | Some [] => go
              | Some segs =>
                  match decode (map (option_map sg_pdu) segs) [] with
                  | Ok msg => (msg :: fst go, snd go)
                  | Err _ => ([] :: fst go, snd go)
                  | Panic => ([], Panics)
                  | Diverge => ([], Hangs)
                  end
              end
          end
      | Err _ => ([], Panics)
      | Panic => ([], Panics)
      | Diverge => ([], Hangs)
      end
  end.
