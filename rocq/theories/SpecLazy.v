(** Independent specification of the built-in tables as they are handed out. *)
From Verif Require Import GoBase SpecAlphabet Charset LazyTables.

(** The table a call asks for. *)
Definition table_for (k : kind) (nli : Z) : list (Z * Z) :=
  match k with
  | KDec => new_decoder nli
  | KExtDec => new_ext_decoder nli
  | KEnc => new_encoder nli
  | KExtEnc => new_ext_encoder nli
  end.

(** The language whose tables serve a call: an unknown one is served by the
    defaults (0), and so is Spanish, except for its extension tables. *)
Definition served_by (k : kind) (nli : Z) : Z :=
  match language_of nli, k with
  | None, _ => 0
  | Some Spanish, (KDec | KEnc) => 0
  | Some _, _ => nli
  end.

(** How many steps goroutine [i] takes. *)
Definition steps_of (i : nat) (es : list levent) : nat :=
  length (filter (fun e => match e with Step j => (j =? i)%nat | Assign _ _ _ => false end) es).
