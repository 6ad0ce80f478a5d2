(** Lemmas about timestamps (C23). *)
From Verif Require Import GoBase GoLemmas SafeLemmas Bcd SpecDigits DigitsProofs GoTime SpecTime.

Lemma leap_year_eq y : is_leap y = leap_year y.
Proof.
  unfold is_leap, leap_year.
  destruct (Z.eqb_spec (y mod 400) 0), (Z.eqb_spec (y mod 100) 0), (Z.eqb_spec (y mod 4) 0);
    cbn [negb andb orb]; try reflexivity; exfalso; lia.
Qed.

(** * The calendar, for every day *)

(** The year of a day and the day within the year. *)
Definition year_of (n : Z) : Z * Z :=
  let c400 := n / 146097 in
  let d := n mod 146097 in
  let c100 := d / 36524 in
  let c100 := c100 - c100 / 4 in
  let d := d - 36524 * c100 in
  let c4 := d / 1461 in
  let d := d - 1461 * c4 in
  let c1 := d / 365 in
  let c1 := c1 - c1 / 4 in
  let d := d - 365 * c1 in
  (400 * c400 + 100 * c100 + 4 * c4 + c1 + 1, d).
Definition year_len (y : Z) : Z := if is_leap y then 366 else 365.

Lemma civil_year_of n : civil_of_days n =
  let '(y, d) := year_of n in let '(m, day) := find_month (is_leap y) 1 12 d in (y, m, day).
Proof. unfold civil_of_days, year_of. cbv zeta. reflexivity. Qed.

(** The cycles of 400, 100, 4 and 1 years. *)
Lemma leap_cycles a b c e : 0 <= b <= 3 -> 0 <= c <= 24 -> 0 <= e <= 3 ->
  is_leap (400 * a + 100 * b + 4 * c + e + 1) = ((e =? 3) && (negb (c =? 24) || (b =? 3))).
Proof.
  intros Hb Hc He. unfold is_leap.
  replace ((400 * a + 100 * b + 4 * c + e + 1) mod 4) with ((e + 1) mod 4) by lia.
  replace ((400 * a + 100 * b + 4 * c + e + 1) mod 100) with ((4 * c + e + 1) mod 100) by lia.
  replace ((400 * a + 100 * b + 4 * c + e + 1) mod 400) with ((100 * b + 4 * c + e + 1) mod 400) by lia.
  destruct (e =? 3) eqn:E3.
  - assert (e = 3) by lia. subst e. change ((3 + 1) mod 4 =? 0) with true. cbn [andb].
    destruct (c =? 24) eqn:E24; cbn [negb orb].
    + assert (c = 24) by lia. subst c. change ((4 * 24 + 3 + 1) mod 100 =? 0) with true. cbn [negb orb].
      destruct (b =? 3) eqn:Eb; lia.
    + replace ((4 * c + 3 + 1) mod 100) with (4 * c + 4) by lia.
      replace (4 * c + 4 =? 0) with false by lia. reflexivity.
  - replace ((e + 1) mod 4) with (e + 1) by lia. now replace (e + 1 =? 0) with false by lia.
Qed.
Lemma days_cycles a b c e : 0 <= b <= 3 -> 0 <= c <= 24 -> 0 <= e <= 3 ->
  days_before_year (400 * a + 100 * b + 4 * c + e + 1) = 146097 * a + 36524 * b + 1461 * c + 365 * e.
Proof.
  intros Hb Hc He. unfold days_before_year.
  replace (400 * a + 100 * b + 4 * c + e + 1 - 1) with (400 * a + 100 * b + 4 * c + e) by lia.
  replace ((400 * a + 100 * b + 4 * c + e) / 4) with (100 * a + 25 * b + c) by lia.
  replace ((400 * a + 100 * b + 4 * c + e) / 100) with (4 * a + b) by lia.
  replace ((400 * a + 100 * b + 4 * c + e) / 400) with a by lia. lia.
Qed.

Lemma year_of_spec n y d : year_of n = (y, d) ->
  days_before_year y + d = n /\ 0 <= d < year_len y.
Proof.
  unfold year_of. cbv zeta.
  set (a := n / 146097). set (d0 := n mod 146097).
  assert (E0 : n = 146097 * a + d0 /\ 0 <= d0 < 146097) by (subst a d0; lia). clearbody a d0.
  set (b := d0 / 36524 - d0 / 36524 / 4).
  assert (Hb : 0 <= b <= 3 /\ 0 <= d0 - 36524 * b /\ (d0 - 36524 * b < 36524 \/ b = 3 /\ d0 - 36524 * b <= 36524))
    by (subst b; lia).
  clearbody b. set (d1 := d0 - 36524 * b) in *. assert (E1 : d0 = 36524 * b + d1) by (subst d1; lia).
  clearbody d1. set (c := d1 / 1461). set (d2 := d1 - 1461 * c).
  assert (Hc : 0 <= c <= 24 /\ 0 <= d2 < 1461 /\ d1 = 1461 * c + d2) by (subst d2 c; lia).
  clearbody c d2. set (e := d2 / 365 - d2 / 365 / 4). set (d3 := d2 - 365 * e).
  assert (He : 0 <= e <= 3 /\ 0 <= d3 /\ (d3 < 365 \/ e = 3 /\ d3 <= 365) /\ d2 = 365 * e + d3)
    by (subst d3 e; lia).
  clearbody e d3. intros H. apply pair_equal_spec in H as [<- <-].
  rewrite days_cycles by lia. split; [lia|].
  unfold year_len. rewrite leap_cycles by lia.
  destruct ((e =? 3) && (negb (c =? 24) || (b =? 3))) eqn:L; lia.
Qed.

Lemma year_len_next y : days_before_year (y + 1) = days_before_year y + year_len y.
Proof.
  unfold days_before_year, year_len, is_leap.
  replace (y + 1 - 1) with y by lia.
  destruct (Z.eqb_spec (y mod 4) 0), (Z.eqb_spec (y mod 100) 0), (Z.eqb_spec (y mod 400) 0);
    cbn [negb andb orb]; lia.
Qed.
Lemma days_before_mono y y' : y <= y' -> days_before_year y <= days_before_year y'.
Proof. intros H. unfold days_before_year. lia. Qed.
Lemma year_unique y d y' d' : days_before_year y + d = days_before_year y' + d' ->
  0 <= d < year_len y -> 0 <= d' < year_len y' -> y = y' /\ d = d'.
Proof.
  intros E H H'. assert (y = y').
  { destruct (Z.lt_trichotomy y y') as [L|[L|L]]; [|assumption|]; exfalso.
    - pose proof (days_before_mono (y + 1) y' ltac:(lia)) as M. rewrite year_len_next in M. lia.
    - pose proof (days_before_mono (y' + 1) y ltac:(lia)) as M. rewrite year_len_next in M. lia. }
  subst y'. lia.
Qed.
Lemma year_of_unique n y d : days_before_year y + d = n -> 0 <= d < year_len y -> year_of n = (y, d).
Proof.
  intros E H. destruct (year_of n) as [y' d'] eqn:Ey. apply year_of_spec in Ey as (E' & H').
  destruct (year_unique y' d' y d) as (-> & ->); auto. lia.
Qed.

(** Within a year, by month: both kinds of year, all 366 days. *)
Definition mlen (leap : bool) (m : Z) : Z :=
  if m =? 2 then (if leap then 29 else 28)
  else if (m =? 4) || (m =? 6) || (m =? 9) || (m =? 11) then 30 else 31.
Definition month_ok (leap : bool) (d : Z) : bool :=
  let '(m, day) := find_month leap 1 12 d in
  let last := if leap then 365 else 364 in
  if last <? d then true else
  (1 <=? m) && (m <=? 12) && (1 <=? day) && (day <=? mlen leap m) &&
  (days_before_month leap m + (day - 1) =? d) &&
  (if d <? last then
     let '(m', day') := find_month leap 1 12 (d + 1) in
     if day <? mlen leap m then (m' =? m) && (day' =? day + 1)
     else (m <? 12) && (m' =? m + 1) && (day' =? 1)
   else (m =? 12) && (day =? 31)).
Lemma month_check : forallb (month_ok true) (zrange 366) && forallb (month_ok false) (zrange 366) = true.
Proof. vm_compute. reflexivity. Qed.
Lemma month_day leap d : 0 <= d < 366 -> month_ok leap d = true.
Proof.
  intros H. pose proof month_check as C. apply andb_prop in C as [C1 C2].
  destruct leap; apply (zrange_sweep 366); assumption.
Qed.
Lemma month_len_mlen y m : month_len y m = mlen (is_leap y) m.
Proof. unfold month_len, mlen. now rewrite leap_year_eq. Qed.

Definition date_ok (a : Z * Z * Z) : bool :=
  let '(y, m, d) := a in (1 <=? m) && (m <=? 12) && (1 <=? d) && (d <=? month_len y m).
Definition day_number (a : Z * Z * Z) : Z :=
  let '(y, m, d) := a in days_before_year y + days_before_month (is_leap y) m + (d - 1).

Lemma civil_all n : let a := civil_of_days n in
  civil_of_days (n + 1) = next_day a /\ date_ok a = true /\ day_number a = n.
Proof.
  cbn zeta. rewrite (civil_year_of n). destruct (year_of n) as [y d] eqn:Ey.
  apply year_of_spec in Ey as (En & Hd).
  assert (Hl : year_len y = if is_leap y then 366 else 365) by reflexivity.
  pose proof (month_day (is_leap y) d ltac:(destruct (is_leap y); lia)) as M.
  unfold month_ok in M. destruct (find_month (is_leap y) 1 12 d) as [m day] eqn:Em.
  replace ((if is_leap y then 365 else 364) <? d) with false in M by (destruct (is_leap y); lia).
  apply andb_prop in M as [M M2]. apply andb_prop in M as [M M1].
  cbn [next_day date_ok day_number]. rewrite month_len_mlen.
  split; [|split; [exact M|lia]].
  destruct (d <? (if is_leap y then 365 else 364)) eqn:El.
  - rewrite (civil_year_of (n + 1)), (year_of_unique (n + 1) y (d + 1)) by (destruct (is_leap y); lia).
    destruct (find_month (is_leap y) 1 12 (d + 1)) as [m' day'].
    destruct (day <? mlen (is_leap y) m); [repeat f_equal; lia|].
    replace (m <? 12) with true by lia. repeat f_equal; lia.
  - assert (m = 12 /\ day = 31) as (-> & ->) by lia.
    change (mlen (is_leap y) 12) with 31. change (31 <? 31) with false. change (12 <? 12) with false. cbv iota.
    rewrite (civil_year_of (n + 1)), (year_of_unique (n + 1) (y + 1) 0).
    + destruct (is_leap (y + 1)); reflexivity.
    + rewrite year_len_next. destruct (is_leap y); lia.
    + unfold year_len. destruct (is_leap (y + 1)); lia.
Qed.

(** Dates and day numbers correspond one to one. *)
Lemma before_month_range (leap : bool) m day : 1 <= m <= 12 -> 1 <= day <= mlen leap m ->
  0 <= days_before_month leap m + (day - 1) < (if leap then 366 else 365) /\
  find_month leap 1 12 (days_before_month leap m + (day - 1)) = (m, day).
Proof.
  intros Hm Hd.
  assert (C : forallb (fun m => forallb (fun day => forallb (fun leap : bool =>
    if day + 1 <=? mlen leap (m + 1) then
      let n := days_before_month leap (m + 1) + (day + 1 - 1) in
      let '(m', day') := find_month leap 1 12 n in
      (0 <=? n) && (n <? (if leap then 366 else 365)) && (m' =? m + 1) && (day' =? day + 1)
    else true) [true; false]) (zrange 31)) (zrange 12) = true) by (vm_compute; reflexivity).
  assert (mlen leap m <= 31).
  { unfold mlen. destruct (m =? 2); [destruct leap; lia|]. destruct (_ || _); lia. }
  pose proof (zrange_sweep2 12 31 _ C (m - 1) (day - 1) ltac:(lia) ltac:(lia)) as H1.
  rewrite forallb_forall in H1. specialize (H1 leap ltac:(destruct leap; cbn; tauto)).
  cbv beta zeta in H1. replace (m - 1 + 1) with m in H1 by lia.
  replace (day - 1 + 1) with day in H1 by lia.
  replace (day <=? mlen leap m) with true in H1 by lia.
  destruct (find_month leap 1 12 (days_before_month leap m + (day - 1))) as [m' day'].
  split; [lia|]. f_equal; lia.
Qed.
Lemma civil_day_number y m d : is_date y m d ->
  civil_of_days (day_number (y, m, d)) = (y, m, d).
Proof.
  intros [Hm Hd]. rewrite month_len_mlen in Hd.
  destruct (before_month_range (is_leap y) m d Hm Hd) as (R & F).
  cbn [day_number]. rewrite civil_year_of.
  rewrite (year_of_unique _ y (days_before_month (is_leap y) m + (d - 1))).
  - now rewrite F.
  - lia.
  - exact R.
Qed.

Lemma civil_nth n : civil_of_days (Z.of_nat n + unix_epoch_day) = nth_day n.
Proof.
  induction n as [|n IH]; [vm_compute; reflexivity|].
  replace (Z.of_nat (S n) + unix_epoch_day) with (Z.of_nat n + unix_epoch_day + 1) by lia.
  destruct (civil_all (Z.of_nat n + unix_epoch_day)) as (E & _). rewrite E, IH. reflexivity.
Qed.

(** * A timestamp *)
Lemma civil_years n y m d : 0 <= n < 36525 -> civil_of_days (n + unix_epoch_day) = (y, m, d) ->
  1970 <= y <= 2069.
Proof.
  intros H E. rewrite civil_year_of in E. destruct (year_of (n + unix_epoch_day)) as [y0 d0] eqn:Ey.
  destruct (find_month _ 1 12 d0). injection E as -> _ _. apply year_of_spec in Ey as (En & Hd).
  assert (E1 : days_before_year 1970 = unix_epoch_day) by reflexivity.
  assert (E2 : days_before_year 2070 = 36525 + unix_epoch_day) by reflexivity.
  pose proof (year_len_next y) as N.
  destruct (Z.lt_ge_cases y 1970) as [L|L].
  - pose proof (days_before_mono (y + 1) 1970 ltac:(lia)). lia.
  - split; [assumption|]. destruct (Z.lt_ge_cases y 2070) as [L2|L2]; [lia|].
    pose proof (days_before_mono 2070 y L2). lia.
Qed.

Lemma month_len_31 y m : month_len y m <= 31.
Proof.
  unfold month_len. destruct (m =? 2); [destruct (leap_year y); lia|].
  destruct (_ || _); lia.
Qed.

Lemma century_date n y m d : 0 <= n < 36525 -> nth_day (Z.to_nat n) = (y, m, d) ->
  1970 <= y <= 2069 /\ is_date y m d /\ d <= 31 /\
  days_before_year y + days_before_month (is_leap y) m + (d - 1) - unix_epoch_day = n.
Proof.
  intros H E. rewrite <- civil_nth, Z2Nat.id in E by lia.
  pose proof (civil_years n y m d H E) as HY.
  destruct (civil_all (n + unix_epoch_day)) as (_ & H2 & H3). rewrite E in H2, H3.
  cbn [date_ok day_number] in H2, H3. unfold is_date. pose proof (month_len_31 y m).
  repeat split; lia.
Qed.

Lemma local_parts l : 
  86400 * (l / 86400) + l mod 86400 / 3600 * 3600 + l mod 3600 / 60 * 60 + l mod 60 = l.
Proof.
  replace (l mod 3600) with (l mod 86400 mod 3600) by lia.
  replace (l mod 60) with (l mod 86400 mod 3600 mod 60) by lia. lia.
Qed.

Lemma go_date_ok n y m d l off :
  nth_day (Z.to_nat n) = (y, m, d) -> 0 <= n < 36525 -> n = l / 86400 ->
  go_date y m d (l mod 86400 / 3600) (l mod 3600 / 60) (l mod 60) off
    = {| t_unix := l - off; t_nsec := 0; t_off := off |}.
Proof.
  intros E H Hn. destruct (century_date n y m d H E) as (Hy & [Hm Hd] & _ & HD).
  unfold go_date. replace ((m - 1) / 12) with 0 by lia. replace ((m - 1) mod 12) with (m - 1) by lia.
  rewrite Z.add_0_r. replace (m - 1 + 1) with m by lia. rewrite HD. f_equal.
  pose proof (local_parts l). lia.
Qed.

Definition ts_octets (date : Z * Z * Z) (l q : Z) : bytes :=
  let '(y, m, d) := date in
  [bcd_octet (y mod 100); bcd_octet m; bcd_octet d; bcd_octet (l mod 86400 / 3600);
   bcd_octet (l mod 3600 / 60); bcd_octet (l mod 60);
   bcd_octet (Z.abs q) + (if q <? 0 then 8 else 0)].

Lemma bcd_ok u : 0 <= u <= 99 ->
  bcd_encode u = Ok (bcd_octet u) /\ bcd_decode (bcd_octet u) = Ok u /\ is_byte (bcd_octet u).
Proof.
  intros H. pose proof (bcd_encode_spec u) as E.
  replace ((0 <=? u) && (u <=? 99)) with true in E by lia.
  split; [exact E|]. split; [now apply bcd_decode_encode|].
  unfold bcd_octet, is_byte. lia.
Qed.
Lemma bcd_signed_ok q : -79 <= q <= 79 ->
  let b := bcd_octet (Z.abs q) + (if q <? 0 then 8 else 0) in
  bcd_encode_signed q = Ok b /\ bcd_decode_signed b = Ok q /\ is_byte b.
Proof.
  intros H. cbn zeta. pose proof (bcd_encode_signed_spec q) as E.
  replace ((-79 <=? q) && (q <=? 79)) with true in E by lia.
  split; [exact E|]. split; [now apply bcd_decode_signed_encode|].
  unfold bcd_octet, is_byte. destruct (q <? 0); lia.
Qed.

Lemma quot_900 q : Z.quot (900 * q) 900 = q.
Proof. rewrite Z.mul_comm. now rewrite Z.quot_mul. Qed.

Lemma ts_marshal_ok t q :
  0 <= t_unix t + t_off t < century -> t_off t = 900 * q -> -79 <= q <= 79 ->
  let l := t_unix t + t_off t in
  ts_marshal t = Ok (ts_octets (nth_day (Z.to_nat (l / 86400))) l q).
Proof.
  intros HL HO HQ. cbn zeta. unfold century in HL.
  unfold ts_marshal, t_date, t_hour, t_minute, t_second, t_local.
  set (l := t_unix t + t_off t) in *.
  set (n := l / 86400). assert (Hn : 0 <= n < 36525) by (subst n; lia).
  pose proof (civil_nth (Z.to_nat n)) as EC. rewrite Z2Nat.id in EC by lia. rewrite EC.
  destruct (nth_day (Z.to_nat n)) as [[y m] d] eqn:Ed.
  destruct (century_date n y m d Hn Ed) as (Hy & [Hm Hd] & Hd31 & HD).
  assert (Hh : 0 <= l mod 86400 / 3600 <= 99) by lia.
  assert (Hmi : 0 <= l mod 3600 / 60 <= 99) by lia.
  assert (Hs : 0 <= l mod 60 <= 99) by lia.
  rewrite Z.rem_mod_nonneg by lia.
  destruct (bcd_ok (y mod 100)) as (-> & _); [lia|].
  destruct (bcd_ok m) as (-> & _); [lia|]. destruct (bcd_ok d) as (-> & _); [lia|].
  destruct (bcd_ok _ Hh) as (-> & _). destruct (bcd_ok _ Hmi) as (-> & _).
  destruct (bcd_ok _ Hs) as (-> & _). cbn [bind].
  rewrite HO, quot_900. destruct (bcd_signed_ok q HQ) as (-> & _). reflexivity.
Qed.

Lemma ts_octets_bytes n l q : 0 <= n < 36525 -> -79 <= q <= 79 ->
  let b := ts_octets (nth_day (Z.to_nat n)) l q in len b = 7 /\ Forall is_byte b.
Proof.
  intros Hn HQ. cbn zeta. unfold ts_octets.
  destruct (nth_day (Z.to_nat n)) as [[y m] d] eqn:Ed.
  destruct (century_date n y m d Hn Ed) as (Hy & [Hm Hd] & Hd31 & HD).
  split; [reflexivity|].
  repeat (apply Forall_cons; [first [apply bcd_ok; lia | apply bcd_signed_ok; lia]|]). constructor.
Qed.

Lemma idx_seven (a0 a1 a2 a3 a4 a5 a6 : Z) rest :
  let l := a0 :: a1 :: a2 :: a3 :: a4 :: a5 :: a6 :: rest in
  idx l 0 = Ok a0 /\ idx l 1 = Ok a1 /\ idx l 2 = Ok a2 /\ idx l 3 = Ok a3 /\ idx l 4 = Ok a4 /\
  idx l 5 = Ok a5 /\ idx l 6 = Ok a6.
Proof. cbn zeta. repeat split; reflexivity. Qed.

Lemma ts_unmarshal_ok l q rest :
  0 <= l < century -> -79 <= q <= 79 ->
  ts_unmarshal (ts_octets (nth_day (Z.to_nat (l / 86400))) l q ++ rest)
    = Ok {| t_unix := l - 900 * q; t_nsec := 0; t_off := 900 * q |}.
Proof.
  intros HL HQ. unfold century in HL.
  set (n := l / 86400). assert (Hn : 0 <= n < 36525) by (subst n; lia).
  unfold ts_octets. destruct (nth_day (Z.to_nat n)) as [[y m] d] eqn:Ed.
  destruct (century_date n y m d Hn Ed) as (Hy & [Hm Hd] & Hd31 & HD).
  unfold ts_unmarshal. cbn [app]. rewrite !len_cons. pose proof (len_nonneg rest).
  replace (1 + (1 + (1 + (1 + (1 + (1 + (1 + len rest)))))) <? 7) with false by lia.
  assert (Hh : 0 <= l mod 86400 / 3600 <= 99) by lia.
  assert (Hmi : 0 <= l mod 3600 / 60 <= 99) by lia.
  assert (Hs : 0 <= l mod 60 <= 99) by lia.
  destruct (bcd_ok (y mod 100)) as (_ & E1 & _); [lia|].
  destruct (bcd_ok m) as (_ & E2 & _); [lia|]. destruct (bcd_ok d) as (_ & E3 & _); [lia|].
  destruct (bcd_ok _ Hh) as (_ & E4 & _). destruct (bcd_ok _ Hmi) as (_ & E5 & _).
  destruct (bcd_ok _ Hs) as (_ & E6 & _). destruct (bcd_signed_ok q HQ) as (_ & E7 & _).
  match goal with |- context [?a0 :: ?a1 :: ?a2 :: ?a3 :: ?a4 :: ?a5 :: ?a6 :: rest] =>
    destruct (idx_seven a0 a1 a2 a3 a4 a5 a6 rest) as (-> & -> & -> & -> & -> & -> & ->) end.
  cbn [bind]. rewrite E1. cbn [bind]. rewrite E2. cbn [bind]. rewrite E3. cbn [bind].
  rewrite E4. cbn [bind]. rewrite E5. cbn [bind]. rewrite E6. cbn [bind]. rewrite E7. cbn [bind].
  replace (if y mod 100 <? 70 then y mod 100 + 2000 else y mod 100 + 1900) with y
    by (destruct (y mod 100 <? 70) eqn:?; lia).
  f_equal. rewrite (go_date_ok n) by (assumption || reflexivity).
  f_equal; lia.
Qed.

Lemma ts_roundtrip t q :
  t_nsec t = 0 -> 0 <= t_unix t + t_off t < century -> t_off t = 900 * q -> -79 <= q <= 79 ->
  exists b, ts_marshal t = Ok b /\ len b = 7 /\ Forall is_byte b /\
    forall rest, ts_unmarshal (b ++ rest) = Ok t.
Proof.
  intros HN HL HO HQ. pose proof (ts_marshal_ok t q HL HO HQ) as E. cbn zeta in E.
  eexists. split; [exact E|].
  destruct (ts_octets_bytes ((t_unix t + t_off t) / 86400) (t_unix t + t_off t) q) as (L & B);
    [unfold century in HL; lia|assumption|].
  split; [exact L|]. split; [exact B|]. intros rest.
  rewrite ts_unmarshal_ok by assumption. f_equal. destruct t as [u s o]; cbn [t_unix t_nsec t_off] in *.
  f_equal; lia.
Qed.

(** Reading any seven octets is safe. *)
Lemma bcd_decode_safe b : is_byte b ->
  (exists u, bcd_decode b = Ok u /\ 0 <= u <= 99) \/ bcd_decode b = Err (BcdInvalidOctet b).
Proof.
  intros H. rewrite bcd_decode_spec by assumption. unfold is_byte in H.
  destruct ((b mod 16 <=? 9) && (b / 16 <=? 9)) eqn:E; [left|right; reflexivity].
  eexists; split; [reflexivity|lia].
Qed.
Lemma bcd_decode_signed_safe b : is_byte b ->
  (exists u, bcd_decode_signed b = Ok u /\ -79 <= u <= 79) \/
  bcd_decode_signed b = Err (BcdInvalidOctet b).
Proof.
  intros H. rewrite bcd_decode_signed_spec by assumption. unfold is_byte in H.
  destruct (b / 16 <=? 9) eqn:E; [left|right; reflexivity].
  eexists; split; [reflexivity|]. destruct (Z.testbit b 3); lia.
Qed.

Lemma ts_unmarshal_cases src : Forall is_byte src ->
  (len src < 7 /\ ts_unmarshal src = Err ErrUnderflow) \/
  (7 <= len src /\ exists b, ts_unmarshal src = Err (BcdInvalidOctet b) /\ In b src) \/
  (7 <= len src /\ exists t, ts_unmarshal src = Ok t /\ t_nsec t = 0 /\
     exists q, t_off t = 900 * q /\ -79 <= q <= 79).
Proof.
  intros HB. unfold ts_unmarshal. destruct (len src <? 7) eqn:E7; [left; split; [lia|reflexivity]|right].
  destruct src as [|b0 [|b1 [|b2 [|b3 [|b4 [|b5 [|b6 rest]]]]]]]; try discriminate.
  destruct (idx_seven b0 b1 b2 b3 b4 b5 b6 rest) as (-> & -> & -> & -> & -> & -> & ->).
  cbn [bind]. rewrite !Forall_cons_iff in HB. destruct HB as (H0 & H1 & H2 & H3 & H4 & H5 & H6 & _).
  destruct (bcd_decode_safe b0 H0) as [(? & -> & _)| ->];
    [cbn [bind]|left; split; [lia|]; exists b0; split; [reflexivity|cbn; tauto]].
  destruct (bcd_decode_safe b1 H1) as [(? & -> & _)| ->];
    [cbn [bind]|left; split; [lia|]; exists b1; split; [reflexivity|cbn; tauto]].
  destruct (bcd_decode_safe b2 H2) as [(? & -> & _)| ->];
    [cbn [bind]|left; split; [lia|]; exists b2; split; [reflexivity|cbn; tauto]].
  destruct (bcd_decode_safe b3 H3) as [(? & -> & _)| ->];
    [cbn [bind]|left; split; [lia|]; exists b3; split; [reflexivity|cbn; tauto]].
  destruct (bcd_decode_safe b4 H4) as [(? & -> & _)| ->];
    [cbn [bind]|left; split; [lia|]; exists b4; split; [reflexivity|cbn; tauto]].
  destruct (bcd_decode_safe b5 H5) as [(? & -> & _)| ->];
    [cbn [bind]|left; split; [lia|]; exists b5; split; [reflexivity|cbn; tauto]].
  destruct (bcd_decode_signed_safe b6 H6) as [(q & -> & HQ)| ->];
    [cbn [bind]|left; split; [lia|]; exists b6; split; [reflexivity|cbn; tauto]].
  right. split; [lia|]. eexists. split; [reflexivity|]. unfold go_date. cbn [t_nsec t_off].
  split; [reflexivity|]. exists q. split; [lia|assumption].
Qed.

Lemma ts_unmarshal_safe src n : Forall is_byte src -> safe n (ts_unmarshal src).
Proof.
  intros H. destruct (ts_unmarshal_cases src H) as [(_ & ->)|[(_ & b & -> & _)|(_ & t & -> & _)]];
    exact I.
Qed.
Lemma ts_unmarshal_len src t : ts_unmarshal src = Ok t -> 7 <= len src.
Proof. unfold ts_unmarshal. destruct (len src <? 7) eqn:E; [discriminate|lia]. Qed.
Lemma ts_unmarshal_local src ext t : ts_unmarshal src = Ok t -> ts_unmarshal (src ++ ext) = Ok t.
Proof.
  intros H. pose proof (ts_unmarshal_len _ _ H) as L. revert H. unfold ts_unmarshal.
  rewrite len_app. pose proof (len_nonneg ext).
  replace (len src <? 7) with false by lia. replace (len src + len ext <? 7) with false by lia.
  rewrite !idx_app_l by lia. exact (fun H => H).
Qed.

(** * Writing back a well-formed stamp *)
Lemma wf_date y m d : 1970 <= y <= 2069 -> is_date y m d ->
  civil_of_days (day_number (y, m, d)) = (y, m, d) /\
  unix_epoch_day <= day_number (y, m, d) < unix_epoch_day + 36525.
Proof.
  intros Hy Hd. split; [now apply civil_day_number|].
  destruct Hd as [Hm Hd]. rewrite month_len_mlen in Hd.
  destruct (before_month_range (is_leap y) m d Hm Hd) as (R & _). cbn [day_number].
  assert (E1 : days_before_year 1970 = unix_epoch_day) by reflexivity.
  assert (E2 : days_before_year 2070 = 36525 + unix_epoch_day) by reflexivity.
  pose proof (year_len_next y) as N. unfold year_len in N.
  pose proof (days_before_mono 1970 y ltac:(lia)).
  pose proof (days_before_mono (y + 1) 2070 ltac:(lia)). lia.
Qed.

Lemma ts_reencode y m d h mi s q :
  1970 <= y <= 2069 -> is_date y m d -> 0 <= h < 24 -> 0 <= mi < 60 -> 0 <= s < 60 ->
  -79 <= q <= 79 ->
  let b := [bcd_octet (y mod 100); bcd_octet m; bcd_octet d; bcd_octet h; bcd_octet mi; bcd_octet s;
            bcd_octet (Z.abs q) + (if q <? 0 then 8 else 0)] in
  exists t, ts_unmarshal b = Ok t /\ ts_marshal t = Ok b /\
    t_off t = 900 * q /\ t_nsec t = 0 /\
    t_date t = (y, m, d) /\ t_hour t = h /\ t_minute t = mi /\ t_second t = s.
Proof.
  intros Hy Hd Hh Hmi Hs HQ. cbn zeta.
  destruct (wf_date y m d Hy Hd) as (EC & HD).
  set (n := day_number (y, m, d) - unix_epoch_day) in *.
  set (l := n * 86400 + h * 3600 + mi * 60 + s).
  assert (Hn : 0 <= n < 36525) by (subst n; lia).
  assert (El : l / 86400 = n) by (subst l; clearbody n; lia).
  assert (Eh : l mod 86400 / 3600 = h) by (subst l; clearbody n; lia).
  assert (Em : l mod 3600 / 60 = mi).
  { replace l with ((n * 24 + h) * 3600 + (mi * 60 + s)) by (subst l; lia).
    rewrite Z.add_comm, Z.mod_add by lia. rewrite Z.mod_small by lia. lia. }
  assert (Es : l mod 60 = s).
  { replace l with (s + ((n * 24 + h) * 60 + mi) * 60) by (subst l; lia).
    rewrite Z.mod_add by lia. apply Z.mod_small; lia. }
  assert (EN : nth_day (Z.to_nat n) = (y, m, d)).
  { rewrite <- civil_nth, Z2Nat.id by lia. rewrite <- EC. f_equal. subst n. lia. }
  assert (HL : 0 <= l < century) by (unfold century; subst l; clearbody n; lia).
  assert (EO : [bcd_octet (y mod 100); bcd_octet m; bcd_octet d; bcd_octet h; bcd_octet mi; bcd_octet s;
            bcd_octet (Z.abs q) + (if q <? 0 then 8 else 0)]
          = ts_octets (nth_day (Z.to_nat (l / 86400))) l q).
  { rewrite El, EN. unfold ts_octets. now rewrite Eh, Em, Es. }
  rewrite EO.
  exists {| t_unix := l - 900 * q; t_nsec := 0; t_off := 900 * q |}.
  split.
  { rewrite <- (app_nil_r (ts_octets _ l q)). now apply ts_unmarshal_ok. }
  assert (EL : l - 900 * q + 900 * q = l) by lia.
  split.
  { pose proof (ts_marshal_ok {| t_unix := l - 900 * q; t_nsec := 0; t_off := 900 * q |} q) as HM.
    cbn [t_unix t_off t_nsec] in HM. rewrite EL in HM. exact (HM HL eq_refl HQ). }
  unfold t_date, t_hour, t_minute, t_second, t_local. cbn [t_unix t_off t_nsec].
  rewrite EL. rewrite El, Eh, Em, Es. repeat split; try reflexivity.
  rewrite <- EC. f_equal. subst n. lia.
Qed.
