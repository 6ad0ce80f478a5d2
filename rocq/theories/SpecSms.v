(** Vocabulary for the properties of the top-level package. *)
From Verif Require Import GoBase Utf Charset Dcs UserData Tpdu Segment Sms SpecSelect SpecDcs.

(** The encoder as seen by one call of Encode with options [opts]: options
    given to Encode apply to that call only. *)
Definition with_options (e : sms_encoder) (opts : list encoder_opt) : sms_encoder :=
  fold_left apply_encoder_opt opts e.

(** A session: calls of Encode on one encoder, with the TPDUs each returns.  A
    call that does not return TPDUs leaves the counters alone. *)
Fixpoint session (e : sms_encoder) (calls : list (bytes * list encoder_opt))
  : list (list tpdu) * sms_encoder :=
  match calls with
  | [] => ([], e)
  | (msg, opts) :: calls' =>
      match encoder_encode e msg opts with
      | Ok (pdus, e') => let '(out, e'') := session e' calls' in (pdus :: out, e'')
      | _ => session e calls'
      end
  end.

Definition multi_part (pdus : list tpdu) : bool := 1 <? len pdus.

(** Threads sharing a counter: [sched] lists which thread calls Count next, as
    the calls are atomic.  The result lists the thread and the value it got. *)
Fixpoint counts (c : Z) (sched : list nat) : list (nat * Z) :=
  match sched with
  | [] => []
  | th :: sched' => (th, counter_count c) :: counts (counter_count c) sched'
  end.

(** The alphabet a message needs: the one named by the template's DCS if that
    is 8-bit or UCS-2, else the one EncodeUserData selects. *)
Definition needed_alphabet (dcs : Z) (msg : bytes) (opts : list charset_opt) : Z :=
  match alphabet_of dcs with
  | Some 1 => 1
  | Some 2 => 2
  | _ => match choose msg opts with ChUcs2 => 2 | _ => 0 end
  end.
(** In the first case the message is given in that form already. *)
Definition given_encoded (dcs : Z) : bool :=
  match alphabet_of dcs with Some 1 | Some 2 => true | _ => false end.

(** The message is national-language text, so that its TPDUs need a header. *)
Definition national (dcs : Z) (msg : bytes) (opts : list charset_opt) : bool :=
  negb (given_encoded dcs) &&
  match choose msg opts with ChLocking _ | ChShift _ | ChBoth _ => true | _ => false end.

(** [pdus] are all the TPDUs of one message, in order: a single one without
    concatenation information, or n of them that agree on the reference and
    the total n and are numbered 1 to n. *)
Definition complete (pdus : list tpdu) : Prop :=
  (exists s, pdus = [s] /\ tpdu_concat_info s = None) \/
  (pdus <> [] /\ exists ref, forall k s, nth_error pdus k = Some s ->
     tpdu_concat_info s = Some (len pdus, Z.of_nat k + 1, ref)).

(** The length of a message in the units that smscounter counts: septets, an
    escaped character taking two, or UTF-16 units. *)
Definition sum (l : list Z) : Z := fold_right Z.add 0 l.
Definition real_length (msg : bytes) (opts : list charset_opt) : Z :=
  match choice_tables (choose msg opts) with
  | Some (l, s) => sum (map (fun r => if covers (new_encoder l) r then 1 else 2) (runes_of msg))
  | None => sum (map (fun r => if r <? 65536 then 1 else 2) (runes_of msg))
  end.
(** Whether the septets contain escapes, and the resulting name. *)
Definition encoding_name (msg : bytes) (opts : list charset_opt) : string :=
  match choice_tables (choose msg opts) with
  | Some (l, s) =>
      if existsb (fun r => match assoc (new_encoder l) r with
                           | Some c => c =? 27 | None => true end) (runes_of msg)
      then "7BIT_EX" else "7BIT"
  | None => "UCS-2"
  end.
(** The character set options that smscounter makes of a language number. *)
Definition language_opts (nli : Z) : list charset_opt := if nli =? 0 then [] else [OptCharset [nli]].
Definition count_opts (nli : Z) : list encoder_opt := map EoCharset (language_opts nli).

(** The data of the last element with identifier [id]. *)
Fixpoint last_ie (id : Z) (l : list ie) : option bytes :=
  match l with
  | [] => None
  | i :: l' => match last_ie id l' with
               | Some d => Some d
               | None => if ie_id i =? id then Some (ie_data i) else None
               end
  end.
