(** Model of the package variables of encoding/gsm7/charset/charset.go and of
    the calls that fill and return them, run by several goroutines at once.  A Go
    map is a reference, so the maps live in a store and the variables hold
    references.  A call takes up to three steps, each of them atomic: look at the
    variable, build a map and assign it, read the variable and return.  What the
    Go memory model allows a racy reader to see beyond that is left out. *)
From Verif Require Import GoBase CharsetTables Charset.

(** The functions of encoding/gsm7/charset/charset.go:9-76: [NewDecoder],
    [NewExtDecoder], [NewEncoder] and [NewExtEncoder].  The functions without an
    argument (:9, :28, :41, :60) are those for language 0. *)
Inductive kind := KDec | KExtDec | KEnc | KExtEnc.
Definition kind_eqb (a b : kind) : bool :=
  match a, b with
  | KDec, KDec | KExtDec, KExtDec | KEnc, KEnc | KExtEnc, KExtEnc => true
  | _, _ => false
  end.

(** A package variable such as [turkishEncoder]: its kind and its language, 0
    for the defaults. *)
Definition var := (kind * Z)%type.
Definition var_eqb (a b : var) : bool := kind_eqb (fst a) (fst b) && (snd a =? snd b).

(** encoding/gsm7/charset/charset.go:168-229: the variable a function uses for
    a language.  Spanish is not in [decoder] and [encoder]; identifiers that are
    in no map use the default variable. *)
Definition var_of (k : kind) (nli : Z) : var :=
  match k with
  | KDec | KEnc => if (nli =? 1) || ((3 <=? nli) && (nli <=? 13)) then (k, nli) else (k, 0)
  | KExtDec | KExtEnc => if (1 <=? nli) && (nli <=? 13) then (k, nli) else (k, 0)
  end.

(** The variables with a map literal as initial value, e.g.
    encoding/gsm7/charset/bengali.go:8 and 125, encoding/gsm7/charset/default.go:9;
    all others are nil at first. *)
Definition literals : list (var * list (Z * Z)) :=
  [((KExtDec, 0), defaultExtDecoder); ((KExtDec, 1), turkishExtDecoder);
   ((KExtDec, 2), spanishExtDecoder); ((KExtDec, 3), portugueseExtDecoder);
   ((KExtDec, 4), bengaliExtDecoder); ((KExtDec, 5), gujaratiExtDecoder);
   ((KExtDec, 6), hindiExtDecoder); ((KExtDec, 7), kannadaExtDecoder);
   ((KExtDec, 8), malayalamExtDecoder); ((KExtDec, 9), oriyaExtDecoder);
   ((KExtDec, 10), punjabiExtDecoder); ((KExtDec, 11), tamilExtDecoder);
   ((KExtDec, 12), teluguExtDecoder); ((KExtDec, 13), urduExtDecoder);
   ((KDec, 4), bengaliDecoder); ((KDec, 5), gujaratiDecoder); ((KDec, 6), hindiDecoder);
   ((KDec, 7), kannadaDecoder); ((KDec, 8), malayalamDecoder); ((KDec, 9), oriyaDecoder);
   ((KDec, 10), punjabiDecoder); ((KDec, 11), tamilDecoder); ((KDec, 12), teluguDecoder);
   ((KDec, 13), urduDecoder)].

(** The memory: the maps, and the reference in each variable. *)
Record lmem := { maps : list (list (Z * Z)); vars : var -> option nat }.

Fixpoint position {A} (v : var) (l : list (var * A)) (i : nat) : option nat :=
  match l with
  | [] => None
  | (w, _) :: l' => if var_eqb v w then Some i else position v l' (S i)
  end.
(** The state of the package after initialisation. *)
Definition lmem_init : lmem :=
  {| maps := map snd literals; vars := fun v => position v literals 0 |}.

(** The map a variable refers to. *)
Definition content (m : lmem) (v : var) : option (list (Z * Z)) :=
  match vars m v with Some r => nth_error (maps m) r | None => None end.

(** The generators in encoding/gsm7/charset/charset.go:168-229, e.g.
    encoding/gsm7/charset/turkish.go:36-46 and
    encoding/gsm7/charset/bengali.go:215-221; nil for the variables with a
    literal.  An encoder is generated from the map its decoder variable refers to
    at that time; ranging over a nil map yields nothing. *)
Definition runes_for (n : Z) : option (list Z) :=
  if n =? 0 then Some defaultRunes else if n =? 1 then Some turkishRunes
  else if n =? 3 then Some portugueseRunes else None.
Definition or_empty (o : option (list (Z * Z))) : list (Z * Z) :=
  match o with Some d => d | None => [] end.
Definition generate (m : lmem) (v : var) : option (list (Z * Z)) :=
  let (k, n) := v in
  match k with
  | KDec => option_map generate_decoder_from_runes (runes_for n)
  | KExtDec => None
  | KEnc => match runes_for n with
            | Some rs => Some (generate_encoder_from_runes rs)
            | None => Some (generate_encoder (or_empty (content m (KDec, n))))
            end
  | KExtEnc => Some (generate_encoder (or_empty (content m (KExtDec, n))))
  end.

(** How far a call has come. *)
Inductive progress :=
  Called            (* about to look at the variable *)
| FoundNil          (* found nil: about to call the generator *)
| Returning         (* about to read the variable and return it *)
| Returned (map : option nat)
| Crashed.          (* called a nil generator *)

(** One step of a call for variable [v]: encoding/gsm7/charset/charset.go:9-14,
    17-25, 41-46, 49-57, 60-65 and 68-76.  The functions for extension decoders
    (:28-30 and 33-38) only read the variable. *)
Definition call_step (m : lmem) (v : var) (p : progress) : lmem * progress :=
  match p with
  | Called =>
      match fst v with
      | KExtDec => (m, Returned (vars m v))
      | _ => match vars m v with Some _ => (m, Returning) | None => (m, FoundNil) end
      end
  | FoundNil =>
      match generate m v with
      | Some t => ({| maps := maps m ++ [t];
                      vars := fun w => if var_eqb w v then Some (length (maps m)) else vars m w |},
                   Returning)
      | None => (m, Crashed)
      end
  | Returning => (m, Returned (vars m v))
  | Returned _ | Crashed => (m, p)
  end.

(** The goroutines: what each calls and how far it is. *)
Record lstate := { mem : lmem; calls : list (kind * Z * progress) }.

Fixpoint set_nth {A} (l : list A) (i : nat) (x : A) : list A :=
  match l, i with
  | [], _ => []
  | _ :: l', O => x :: l'
  | y :: l', S i' => y :: set_nth l' i' x
  end.

(** What may happen: goroutine [i] takes a step, or assigns [m[k] = x] in the
    map it was given. *)
Inductive levent := Step (i : nat) | Assign (i : nat) (k x : Z).
Definition lstep (s : lstate) (e : levent) : lstate :=
  match e with
  | Step i =>
      match nth_error (calls s) i with
      | Some (k, n, p) =>
          let (m, p') := call_step (mem s) (var_of k n) p in
          {| mem := m; calls := set_nth (calls s) i (k, n, p') |}
      | None => s
      end
  | Assign i k x =>
      match nth_error (calls s) i with
      | Some (_, _, Returned (Some r)) =>
          match nth_error (maps (mem s)) r with
          | Some t => {| mem := {| maps := set_nth (maps (mem s)) r (assoc_set t k x);
                                   vars := vars (mem s) |};
                         calls := calls s |}
          | None => s
          end
      | _ => s
      end
  end.

Definition lrun (requests : list (kind * Z)) (es : list levent) : lstate :=
  fold_left lstep es
    {| mem := lmem_init; calls := map (fun q => (fst q, snd q, Called)) requests |}.
