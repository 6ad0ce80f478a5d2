(** Model of the main functions of the tools from the command line on: their
    flags, standard output and exit status.  The package flag of the Go library
    (flag.Parse, as of Go 1.15) is modelled as far as the tools use it: flags of
    type bool, string and int; what it and the usage functions write goes to
    standard error and is left out. *)
From Coq Require Import String.
From Verif Require Import GoBase Utf Address Tpdu Sms Collector Cmd Print ErrorText PrintTools DeliverReport.

Definition same (a b : bytes) : bool := if list_eq_dec Z.eq_dec a b then true else false.
(** strings.HasPrefix and the like are not needed: '-' and '='. *)
Definition dash : Z := 45.
Definition equals : Z := 61.
Definition underscore : Z := 95.

(** ** Values *)

(** strconv.ParseBool, for cmd/smsdecode/smsdecode.go:23-24 and
    cmd/smsdeliver/smsdeliver.go:22. *)
Definition parse_bool (s : bytes) : option bool :=
  if existsb (fun w => same s (str w)) ["1"; "t"; "T"; "TRUE"; "true"; "True"]%string then Some true
  else if existsb (fun w => same s (str w)) ["0"; "f"; "F"; "FALSE"; "false"; "False"]%string then Some false
  else None.

(** strconv.ParseInt(s, 0, 64), for cmd/smssubmit/smssubmit.go:24 and
    cmd/smscounter/smscounter.go:28.  The kinds of error are not told apart, so
    that the overflow is looked for at the end.  strconv.lower sets bit 5, which
    for what is looked for, letters, is the same. *)
Definition lower (c : Z) : Z := if (65 <=? c) && (c <=? 90) then c + 32 else c.
Definition digit_of (c : Z) : option Z :=
  if (48 <=? c) && (c <=? 57) then Some (c - 48)
  else if (97 <=? lower c) && (lower c <=? 122) then Some (lower c - 97 + 10)
  else None.
Fixpoint digits_loop (base : Z) (s : bytes) (n : Z) : option Z :=
  match s with
  | [] => Some n
  | c :: s' =>
      if c =? underscore then digits_loop base s' n
      else match digit_of c with
           | Some d => if base <=? d then None else digits_loop base s' (n * base + d)
           | None => None
           end
  end.
(** strconv.underscoreOK behind the prefix: [saw] is the last character, with 0
    for a digit, 1 for an underscore and 2 for the beginning or another one. *)
Fixpoint underscores_loop (hex : bool) (s : bytes) (saw : Z) : bool :=
  match s with
  | [] => negb (saw =? 1)
  | c :: s' =>
      if ((48 <=? c) && (c <=? 57)) || (hex && (97 <=? lower c) && (lower c <=? 102)) then underscores_loop hex s' 0
      else if c =? underscore then if saw =? 0 then underscores_loop hex s' 1 else false
      else if saw =? 1 then false else underscores_loop hex s' 2
  end.
Definition underscore_ok (s : bytes) : bool :=
  match s with
  | z :: c :: s' =>
      if (z =? 48) && ((lower c =? 98) || (lower c =? 111) || (lower c =? 120))
      then underscores_loop (lower c =? 120) s' 0
      else underscores_loop false s 2
  | _ => underscores_loop false s 2
  end.
Definition parse_uint (s : bytes) : option Z :=
  let '(base, ds) :=
    match s with
    | z :: c :: d :: ds =>
        if z =? 48 then
          if lower c =? 98 then (2, d :: ds)
          else if lower c =? 111 then (8, d :: ds)
          else if lower c =? 120 then (16, d :: ds)
          else (8, c :: d :: ds)
        else (10, s)
    | z :: s' => if z =? 48 then (8, s') else (10, s)
    | [] => (10, s)
    end in
  if len s =? 0 then None
  else match digits_loop base ds 0 with
       | None => None
       | Some n =>
           if existsb (Z.eqb underscore) ds && negb (underscore_ok s) then None
           else if 2 ^ 64 <=? n then None else Some n
       end.
Definition parse_int (s : bytes) : option Z :=
  let '(neg, u) :=
    match s with
    | c :: s' => if c =? 43 then (false, s') else if c =? 45 then (true, s') else (false, s)
    | [] => (false, s)
    end in
  match parse_uint u with
  | None => None
  | Some n =>
      if negb neg && (2 ^ 63 <=? n) then None
      else if neg && (2 ^ 63 <? n) then None
      else Some (if neg then - n else n)
  end.

(** ** Flags *)
Inductive kind := KBool | KString | KInt.
Inductive fval := VBool (b : bool) | VString (s : bytes) | VInt (z : Z).
Definition set_value (k : kind) (s : bytes) : option fval :=
  match k with
  | KBool => option_map VBool (parse_bool s)
  | KString => Some (VString s)
  | KInt => option_map VInt (parse_int s)
  end.

(** How flag.Parse ends: with the arguments behind the flags, with the usage asked
    for by -h or -help, or with an error. *)
Inductive fend := FRest (rest : list bytes) | FHelp | FBad.

(** The name and the value behind the first '=' that is not the first
    character. *)
Fixpoint cut_value (name : bytes) : bytes * option bytes :=
  match name with
  | [] => ([], None)
  | c :: n =>
      match n with
      | e :: v => if e =? equals then ([c], Some v)
                  else let '(m, x) := cut_value n in (c :: m, x)
      | [] => ([c], None)
      end
  end.
Definition flag_kind (defs : list (bytes * kind)) (name : bytes) : option kind :=
  option_map snd (find (fun d => same (fst d) name) defs).

(** flag.FlagSet.Parse and parseOne: the values set, in order, and the end. *)
Fixpoint parse_flags (defs : list (bytes * kind)) (args : list bytes) : list (bytes * fval) * fend :=
  match args with
  | [] => ([], FRest [])
  | s :: args' =>
      match s with
      | m :: c :: x =>
          if negb (m =? dash) then ([], FRest args)
          else if (c =? dash) && (len x =? 0) then ([], FRest args')
          else
            let name := if c =? dash then x else c :: x in
            if match name with c1 :: _ => (c1 =? dash) || (c1 =? equals) | [] => true end then ([], FBad)
            else
              let '(name, value) := cut_value name in
              match flag_kind defs name with
              | None => if same name (str "help") || same name (str "h") then ([], FHelp) else ([], FBad)
              | Some KBool =>
                  match set_value KBool (match value with Some v => v | None => str "true" end) with
                  | Some v => let '(st, e) := parse_flags defs args' in ((name, v) :: st, e)
                  | None => ([], FBad)
                  end
              | Some k =>
                  match value with
                  | Some v =>
                      match set_value k v with
                      | Some v => let '(st, e) := parse_flags defs args' in ((name, v) :: st, e)
                      | None => ([], FBad)
                      end
                  | None =>
                      match args' with
                      | v :: args'' =>
                          match set_value k v with
                          | Some v => let '(st, e) := parse_flags defs args'' in ((name, v) :: st, e)
                          | None => ([], FBad)
                          end
                      | [] => ([], FBad)
                      end
                  end
              end
      | _ => ([], FRest args)
      end
  end.

(** The variable of a flag after flag.Parse: the last value set. *)
Fixpoint final (name : string) (dflt : fval) (st : list (bytes * fval)) : fval :=
  match st with
  | [] => dflt
  | (n, v) :: st' => final name (if same n (str name) then v else dflt) st'
  end.
Definition final_bool (name : string) (st : list (bytes * fval)) : bool :=
  match final name (VBool false) st with VBool b => b | _ => false end.
Definition final_string (name : string) (st : list (bytes * fval)) : bytes :=
  match final name (VString []) st with VString s => s | _ => [] end.
Definition final_int (name : string) (st : list (bytes * fval)) : Z :=
  match final name (VInt 0) st with VInt z => z | _ => 0 end.

(** ** The main functions: standard output and exit status; a panic has status 2 *)

(** cmd/smsdecode/smsdecode.go:22-39 [main]. *)
Definition smsdecode_flags : list (bytes * kind) := [(str "p", KBool); (str "o", KBool)].
Definition smsdecode_main (args : list bytes) : bytes * Z :=
  match parse_flags smsdecode_flags args with
  | (_, FHelp) => ([], 0)
  | (_, FBad) => ([], 2)
  | (st, FRest [a]) =>
      match smsdecode_text a (final_bool "p" st) (final_bool "o" st) with
      | Ok out => (out, 0)
      | Err _ => ([], 1)
      | _ => ([], 2)
      end
  | (_, FRest _) => ([], 1)
  end.

(** cmd/smsdeliver/smsdeliver.go:20-70 [main]; from line 25 on see
    DeliverReport.v. *)
Definition smsdeliver_flags : list (bytes * kind) := [(str "p", KBool)].
Definition smsdeliver_main (args : list bytes) (out : bytes) (status : Z) : Prop :=
  match parse_flags smsdeliver_flags args with
  | (_, FHelp) => out = [] /\ status = 0
  | (_, FBad) => out = [] /\ status = 2
  | (st, FRest rest) => deliver_run (final_bool "p" st) rest out status
  end.

(** cmd/smssubmit/smssubmit.go:18-51 [main]: an error of Encode is logged, and
    main returns (lines 37-40). *)
Definition smssubmit_flags : list (bytes * kind) := [(str "number", KString); (str "message", KString); (str "language", KInt)].
Definition smssubmit_main (args : list bytes) : bytes * Z :=
  match parse_flags smssubmit_flags args with
  | (_, FHelp) => ([], 0)
  | (_, FBad) => ([], 2)
  | (st, FRest _) =>
      let number := final_string "number" st in
      let msg := final_string "message" st in
      if (len number =? 0) || (len msg =? 0) then ([], 1)
      else match smssubmit_text number msg (final_int "language" st) with
           | Ok out => (out, 0)
           | Err _ => ([], 0)
           | _ => ([], 2)
           end
  end.

(** cmd/smscounter/smscounter.go:24-40 [main]. *)
Definition smscounter_flags : list (bytes * kind) := [(str "message", KString); (str "language", KInt)].
Definition smscounter_main (args : list bytes) : bytes * Z :=
  match parse_flags smscounter_flags args with
  | (_, FHelp) => ([], 0)
  | (_, FBad) => ([], 2)
  | (st, FRest _) =>
      let msg := final_string "message" st in
      if len msg =? 0 then ([], 1)
      else match new_count msg (final_int "language" st) with
           | Ok c => (count_string c, 0)
           | Err _ => ([], 1)
           | _ => ([], 2)
           end
  end.
