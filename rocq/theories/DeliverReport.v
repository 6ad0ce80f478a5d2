(** Model of what smsdeliver writes to standard output, with the report of
    incomplete messages, and of its exit status. *)
From Coq Require Import Permutation String.
From Verif Require Import GoBase Address Tpdu UserData Sms Collector Cmd Print ErrorText PrintTools.

(** cmd/smsdeliver/smsdeliver.go:68: an element of a []*tpdu.TPDU as fmt shows it;
    *TPDU has no String method, so it is <nil> or the address, [at_] of the segment. *)
Definition pointer (at_ : seg -> Z) (o : option seg) : bytes :=
  match o with Some g => str "0x" ++ fmt_x (at_ g) | None => str "<nil>" end.
Fixpoint spaced (ws : list bytes) : bytes :=
  match ws with
  | [] => []
  | [w] => w
  | w :: ws' => w ++ [32] ++ spaced ws'
  end.
(** cmd/smsdeliver/smsdeliver.go:67-68: Println puts a space between its
    operands, beside the one in the text. *)
Definition report_pipe (at_ : seg -> Z) (kv : bytes * list (option seg)) : bytes :=
  str "incomplete reassembly: " ++ [32] ++ fst kv ++ [10] ++
  str "[" ++ spaced (map (pointer at_) (snd kv)) ++ str "]" ++ [10].
Definition report_text (at_ : seg -> Z) (kvs : list (bytes * list (option seg))) : bytes :=
  flat_map (report_pipe at_) kvs.

(** The keys and slices of the map returned by Pipes, collect.go:86-92, which
    cmd/smsdeliver/smsdeliver.go:65 calls. *)
Definition shown_pipes (s : cstate) : list (bytes * list (option seg)) :=
  map (fun kv => (fst kv, pipe_segs s (snd kv))) (pipes s).

(** cmd/smsdeliver/smsdeliver.go:20-70 [main] behind the flags: the octets on
    standard output and the exit status.  The pipes are reported in any order,
    that of a Go map (line 66); the TPDUs are anywhere in memory but at 0.  Without
    arguments (lines 25-28) nothing is written and the status is 1; log.Fatal
    (lines 34 and 40) exits with 1.  A panic exits with 2. *)
Inductive deliver_run (pm : bool) (args : list bytes) : bytes -> Z -> Prop :=
| dr_usage : args = [] -> deliver_run pm args [] 1
| dr_fatal ls e : args <> [] -> smsdeliver pm args = (ls, SdFatal e) -> deliver_run pm args (deliver_text ls) 1
| dr_done ls s at_ kvs : args <> [] -> smsdeliver pm args = (ls, SdDone s) ->
    Permutation kvs (shown_pipes s) -> (forall g, 0 < at_ g) ->
    deliver_run pm args (deliver_text ls ++ report_text at_ kvs) 0
| dr_panic ls : args <> [] -> smsdeliver pm args = (ls, SdPanic) -> deliver_run pm args (deliver_text ls) 2.
