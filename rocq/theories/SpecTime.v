(** Independent specification of the Gregorian calendar: the day after a given
    day, and the date of the n-th day after 1970-01-01. *)
From Coq Require Import ZArith Bool.
Open Scope Z_scope.

Definition leap_year (y : Z) : bool :=
  if y mod 400 =? 0 then true else if y mod 100 =? 0 then false else y mod 4 =? 0.
Definition month_len (y m : Z) : Z :=
  if m =? 2 then (if leap_year y then 29 else 28)
  else if (m =? 4) || (m =? 6) || (m =? 9) || (m =? 11) then 30 else 31.
Definition next_day (date : Z * Z * Z) : Z * Z * Z :=
  let '(y, m, d) := date in
  if d <? month_len y m then (y, m, d + 1)
  else if m <? 12 then (y, m + 1, 1)
  else (y + 1, 1, 1).
Definition nth_day (n : nat) : Z * Z * Z := Nat.iter n next_day (1970, 1, 1).

(** A calendar date. *)
Definition is_date (y m d : Z) : Prop := 1 <= m <= 12 /\ 1 <= d <= month_len y m.

(** The number of seconds in the hundred years from 1970 to 2069, which have
    36525 days. *)
Definition century : Z := 36525 * 86400.
