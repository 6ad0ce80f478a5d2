(** The grammar of the command lines of the tools. *)
From Coq Require Import String.
From Verif Require Import GoBase Print CmdLine.

(** ** Values *)

(** Integers as in Go source: decimal, or with 0b, 0 or 0o, 0x in front; single
    underscores may stand between digits and behind the prefix. *)
Definition digit_value (c d : Z) : Prop :=
  (48 <= c <= 57 /\ d = c - 48) \/ (97 <= c <= 122 /\ d = c - 87) \/ (65 <= c <= 90 /\ d = c - 55).
Definition number_of (base : Z) (ds : list Z) : Z := fold_left (fun n d => n * base + d) ds 0.
(** Groups of digits with an underscore between. *)
Inductive grouped (base : Z) : bytes -> list Z -> Prop :=
| gr_one c d : digit_value c d -> d < base -> grouped base [c] [d]
| gr_next c d s ds : digit_value c d -> d < base -> grouped base s ds -> grouped base (c :: s) (d :: ds)
| gr_under c d s ds : digit_value c d -> d < base -> grouped base s ds -> grouped base (c :: 95 :: s) (d :: ds).
Definition prefix (base : Z) (p : bytes) : Prop :=
  (base = 2 /\ (p = str "0b" \/ p = str "0B")) \/ (base = 8 /\ (p = str "0" \/ p = str "0o" \/ p = str "0O")) \/
  (base = 16 /\ (p = str "0x" \/ p = str "0X")).
Inductive natural : bytes -> Z -> Prop :=
| na_zero : natural (str "0") 0
| na_decimal c s ds : c <> 48 -> grouped 10 (c :: s) ds -> natural (c :: s) (number_of 10 ds)
| na_prefix base p s ds : prefix base p -> grouped base s ds -> natural (p ++ s) (number_of base ds)
| na_prefix_under base p s ds : prefix base p -> grouped base s ds -> natural (p ++ 95 :: s) (number_of base ds).
Definition integer (s : bytes) (z : Z) : Prop :=
  - 2 ^ 63 <= z < 2 ^ 63 /\
  ((exists n, natural s n /\ z = n) \/ (exists s' n, s = 43 :: s' /\ natural s' n /\ z = n) \/
   (exists s' n, s = 45 :: s' /\ natural s' n /\ z = - n)).

Definition value (k : kind) (s : bytes) (v : fval) : Prop :=
  match k with
  | KString => v = VString s
  | KInt => exists z, integer s z /\ v = VInt z
  | KBool => exists b, v = VBool b /\
      In s (map str (if b then ["1"; "t"; "T"; "true"; "TRUE"; "True"] else ["0"; "f"; "F"; "false"; "FALSE"; "False"])%string)
  end.

(** ** Lines *)

(** One minus sign or two. *)
Definition minus (d : bytes) : Prop := d = [45] \/ d = [45; 45].
(** Words that end the flags: the empty one, a single minus sign, and those that
    do not begin with one. *)
Definition plain (w : bytes) : Prop := w = [] \/ w = [45] \/ exists c x, w = c :: x /\ c <> 45.
(** The name of a flag in a word, be it defined or not. *)
Definition a_name (n : bytes) : Prop := ~ In 61 n /\ exists c x, n = c :: x /\ c <> 45.
Definition known (defs : list (bytes * kind)) (n : bytes) : Prop := exists k, In (n, k) defs.

Inductive line (defs : list (bytes * kind)) : list bytes -> list (bytes * fval) -> fend -> Prop :=
| li_end : line defs [] [] (FRest [])
| li_plain w ws : plain w -> line defs (w :: ws) [] (FRest (w :: ws))
| li_stop ws : line defs ([45; 45] :: ws) [] (FRest ws)
| li_switch d n ws st e : minus d -> In (n, KBool) defs ->
    line defs ws st e -> line defs ((d ++ n) :: ws) ((n, VBool true) :: st) e
| li_equal d n k v x ws st e : minus d -> In (n, k) defs -> value k v x ->
    line defs ws st e -> line defs ((d ++ n ++ 61 :: v) :: ws) ((n, x) :: st) e
| li_next d n k v x ws st e : minus d -> In (n, k) defs -> k <> KBool -> value k v x ->
    line defs ws st e -> line defs ((d ++ n) :: v :: ws) ((n, x) :: st) e
| li_help d n tail ws : minus d -> n = str "h" \/ n = str "help" -> ~ known defs n ->
    tail = [] \/ (exists v, tail = 61 :: v) -> line defs ((d ++ n ++ tail) :: ws) [] FHelp
| li_syntax d c x ws : d = [45] /\ c = 61 \/ d = [45; 45] /\ (c = 45 \/ c = 61) -> line defs ((d ++ c :: x) :: ws) [] FBad
| li_unknown d n tail ws : minus d -> a_name n -> ~ known defs n -> n <> str "h" -> n <> str "help" ->
    tail = [] \/ (exists v, tail = 61 :: v) -> line defs ((d ++ n ++ tail) :: ws) [] FBad
| li_invalid d n k v ws : minus d -> In (n, k) defs -> (forall x, ~ value k v x) ->
    line defs ((d ++ n ++ 61 :: v) :: ws) [] FBad
| li_invalid_next d n k v ws : minus d -> In (n, k) defs -> k <> KBool -> (forall x, ~ value k v x) ->
    line defs ((d ++ n) :: v :: ws) [] FBad
| li_missing d n k : minus d -> In (n, k) defs -> k <> KBool -> line defs [d ++ n] [] FBad.

(** The flags of a tool: names that can be written, each once. *)
Definition proper_flags (defs : list (bytes * kind)) : Prop :=
  NoDup (map fst defs) /\ Forall (fun d => a_name (fst d)) defs.

(** The value of a flag: that of its last occurrence. *)
Definition chosen (st : list (bytes * fval)) (n : bytes) (dflt v : fval) : Prop :=
  (~ In n (map fst st) /\ v = dflt) \/
  exists before after, st = before ++ (n, v) :: after /\ ~ In n (map fst after).

(** ** The flags of the tools *)
Definition decode_has : list (bytes * kind) := [(str "p", KBool); (str "o", KBool)].
Definition deliver_has : list (bytes * kind) := [(str "p", KBool)].
Definition submit_has : list (bytes * kind) := [(str "number", KString); (str "message", KString); (str "language", KInt)].
Definition counter_has : list (bytes * kind) := [(str "message", KString); (str "language", KInt)].

(** ** What smssubmit writes *)
(** A single TPDU has no number; several are counted from one. *)
Definition submitted (hexes : list bytes) : bytes :=
  match hexes with
  | [h] => str "Submit TPDU:" ++ [10] ++ h ++ [10]
  | _ => concat (map (fun k => str "Submit TPDU " ++ fmt_int (Z.of_nat k) ++ str ":" ++ [10] ++ nth (k - 1) hexes [] ++ [10])
                     (seq 1 (length hexes)))
  end.
