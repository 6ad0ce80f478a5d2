(** Model of the parts of package time used by the library, and of
    encoding/tpdu/timestamp.go.

    A [time.Time] is the UTC instant in seconds since 1970-01-01T00:00:00Z, the
    nanoseconds within the second, and the offset in seconds east of UTC of its
    location at that instant.  The zone name is not modelled, and UTC is the
    same as a fixed zone with offset 0. *)
From Verif Require Import GoBase Bcd.

Record gotime := { t_unix : Z; t_nsec : Z; t_off : Z }.

(** The zero time.Time (the fields at encoding/tpdu/tpdu.go:65-77 when unset), January 1 of year 1, 00:00:00 UTC. *)
Definition zero_time : gotime := {| t_unix := -62135596800; t_nsec := 0; t_off := 0 |}.

(** Gregorian leap year (time.isLeap), under encoding/tpdu/timestamp.go:26 and 73. *)
Definition is_leap (y : Z) : bool :=
  (y mod 4 =? 0) && (negb (y mod 100 =? 0) || (y mod 400 =? 0)).

(** Days before month [m] (1..12) in a year (time.daysBefore), under
    encoding/tpdu/timestamp.go:73. *)
Definition days_before_month (leap : bool) (m : Z) : Z :=
  let adj := if leap && (2 <? m) then 1 else 0 in
  adj + nth (Z.to_nat (m - 1)) [0;31;59;90;120;151;181;212;243;273;304;334] 0.

(** Days in month [m] of a year, under encoding/tpdu/timestamp.go:27. *)
Definition days_in_month (leap : bool) (m : Z) : Z :=
  if m =? 2 then (if leap then 29 else 28)
  else nth (Z.to_nat (m - 1)) [31;28;31;30;31;30;31;31;30;31;30;31] 0.

(** Days from 0000-03-00.. style counts are avoided: [days_before_year y] is
    the number of days from 0001-01-01 to y-01-01 (negative for y < 1), as in
    time.daysSinceEpoch, under encoding/tpdu/timestamp.go:73. *)
Definition days_before_year (y : Z) : Z :=
  let p := y - 1 in 365 * p + p / 4 - p / 100 + p / 400.

(** Day number of 1970-01-01 counted from 0001-01-01, under
    encoding/tpdu/timestamp.go:73. *)
Definition unix_epoch_day : Z := 719162.

(** time.Date(year, month, day, hour, min, sec, 0, FixedZone(off)), as called at
    encoding/tpdu/timestamp.go:60-73, including
    Go's normalisation of out-of-range values: the month overflows into the
    year and everything else is linear. *)
Definition go_date (year month day hour min sec off : Z) : gotime :=
  let m0 := month - 1 in
  let y := year + m0 / 12 in
  let m := m0 mod 12 + 1 in
  let days := days_before_year y + days_before_month (is_leap y) m + (day - 1)
              - unix_epoch_day in
  {| t_unix := days * 86400 + hour * 3600 + min * 60 + sec - off;
     t_nsec := 0; t_off := off |}.

(** Finds the month from a day of the year (0-based): returns month and day,
    under encoding/tpdu/timestamp.go:27. *)
Fixpoint find_month (leap : bool) (m : Z) (fuel : nat) (d : Z) : Z * Z :=
  match fuel with
  | O => (m, d + 1)
  | S f => let n := days_in_month leap m in
           if d <? n then (m, d + 1) else find_month leap (m + 1) f (d - n)
  end.

(** time.absDate: year, month, day of a day number counted from 0001-01-01, by
    400-, 100-, 4- and 1-year cycles; under encoding/tpdu/timestamp.go:26-27. *)
Definition civil_of_days (n : Z) : Z * Z * Z :=
  let c400 := n / 146097 in
  let d := n mod 146097 in
  let c100 := d / 36524 in
  let c100 := c100 - c100 / 4 in
  let d := d - 36524 * c100 in
  let c4 := d / 1461 in
  let d := d - 1461 * c4 in
  let c1 := d / 365 in
  let c1 := c1 - c1 / 4 in
  let d := d - 365 * c1 in
  let y := 400 * c400 + 100 * c100 + 4 * c4 + c1 + 1 in
  let '(m, day) := find_month (is_leap y) 1 12 d in
  (y, m, day).

(** Local wall clock of a time: time.Time.Date and time.Time.Clock, as used at
    encoding/tpdu/timestamp.go:26-27. *)
Definition t_local (t : gotime) : Z := t_unix t + t_off t.
Definition t_date (t : gotime) : Z * Z * Z :=
  civil_of_days (t_local t / 86400 + unix_epoch_day).
Definition t_hour (t : gotime) : Z := t_local t mod 86400 / 3600.
Definition t_minute (t : gotime) : Z := t_local t mod 3600 / 60.
Definition t_second (t : gotime) : Z := t_local t mod 60.

(** encoding/tpdu/timestamp.go:24-42 [Timestamp.MarshalBinary].  Go's [%] and
    [/] truncate. *)
Definition ts_marshal (t : gotime) : res bytes :=
  let '(year, mon, day) := t_date t in
  y <- bcd_encode (Z.rem year 100) ;;
  mo <- bcd_encode mon ;;
  d <- bcd_encode day ;;
  h <- bcd_encode (t_hour t) ;;
  mi <- bcd_encode (t_minute t) ;;
  s <- bcd_encode (t_second t) ;;
  z <- bcd_encode_signed (Z.quot (t_off t) 900) ;;
  Ok [y; mo; d; h; mi; s; z].

(** encoding/tpdu/timestamp.go:45-75 [Timestamp.UnmarshalBinary]. *)
Definition ts_unmarshal (src : bytes) : res gotime :=
  if len src <? 7 then Err ErrUnderflow else
  b0 <- idx src 0 ;; y <- bcd_decode b0 ;;
  b1 <- idx src 1 ;; mo <- bcd_decode b1 ;;
  b2 <- idx src 2 ;; d <- bcd_decode b2 ;;
  b3 <- idx src 3 ;; h <- bcd_decode b3 ;;
  b4 <- idx src 4 ;; mi <- bcd_decode b4 ;;
  b5 <- idx src 5 ;; s <- bcd_decode b5 ;;
  b6 <- idx src 6 ;; tz <- bcd_decode_signed b6 ;;
  let year := if y <? 70 then y + 2000 else y + 1900 in
  Ok (go_date year mo d h mi s (tz * 15 * 60)).
