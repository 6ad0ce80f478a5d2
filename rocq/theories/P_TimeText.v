(** C88: the text of a Timestamp tells the time. *)
From Coq Require Import String Ascii.
From Verif Require Import GoBase GoLemmas GoTime SpecTime TimeProofs CollectorMsgProofs Print ErrorText ErrorTextProofs PrintProofs SpecShown DumpProofs ShownProofs.
Open Scope Z_scope.

(** ** Lemmas *)
Lemma pad_d_long w n : (w <= length (pad_d w n))%nat.
Proof. unfold pad_d. rewrite app_length, repeat_length. lia. Qed.

(** A number with its sign, in front of a '-'. *)
Lemma signed_front w y y' x x' : (0 < w)%nat ->
  append_int w y ++ 45 :: x = append_int w y' ++ 45 :: x' -> y = y' /\ x = x'.
Proof.
  intros W. assert (D : forall n r r', 0 <= n -> 45 :: r = pad_d w n ++ r' -> False).
  { intros n r r' N E. pose proof (pad_d_long w n) as L. pose proof (pad_d_digits w n N) as G.
    destruct (pad_d w n) as [|c p]; [cbn [length] in L; lia|]. cbn [app] in E. injection E as <- _.
    inversion G; subst. lia. }
  assert (P : forall n n', 0 <= n -> 0 <= n' -> pad_d w n ++ 45 :: x = pad_d w n' ++ 45 :: x' -> n = n' /\ x = x').
  { intros n n' N N' E. apply split_first in E as (E & ->);
      [|apply digits_not; [now apply pad_d_digits|lia]|apply digits_not; [now apply pad_d_digits|lia]].
    split; [|reflexivity]. rewrite <- (pad_d_val w n N), <- (pad_d_val w n' N'). now rewrite E. }
  unfold append_int. destruct (y <? 0) eqn:S, (y' <? 0) eqn:S'; intros E.
  - cbn [app] in E. injection E as E. apply P in E; [|lia|lia]. split; [lia|tauto].
  - exfalso. cbn [app] in E. apply D in E; [exact E|lia].
  - exfalso. cbn [app] in E. symmetry in E. apply D in E; [exact E|lia].
  - apply P in E; [exact E|lia|lia].
Qed.

(** A number of any length, and one of two digits behind it, at the end. *)
Lemma zone_end h m h' m' : 0 <= h -> 0 <= h' -> 0 <= m < 60 -> 0 <= m' < 60 ->
  append_int 2 h ++ append_int 2 m = append_int 2 h' ++ append_int 2 m' -> h = h' /\ m = m'.
Proof.
  intros H H' M M'. unfold append_int. replace (h <? 0) with false by lia. replace (h' <? 0) with false by lia.
  replace (m <? 0) with false by lia. replace (m' <? 0) with false by lia. intros E.
  assert (L : length (pad_d 2 h) = length (pad_d 2 h')).
  { apply (f_equal (@length Z)) in E. rewrite !app_length in E. rewrite (pad_d_length 2 m), (pad_d_length 2 m') in E by (cbn; lia). lia. }
  apply app_inv_len in E as (E1 & E2); [|exact L].
  apply (f_equal dval) in E1, E2. rewrite !pad_d_val in E1, E2 by lia. auto.
Qed.

(** ** C88 *)

(** Two Timestamps, of any year and zone, print alike exactly if they show the
    same date and time of day, to the second, and zones that are equal to the
    minute. *)
Theorem C88_timestamp : forall t t', ts_string t = ts_string t' <->
  t_unix t + t_off t = t_unix t' + t_off t' /\ Z.quot (t_off t) 60 = Z.quot (t_off t') 60.
Proof.
  intros t t'. split.
  - intros E. unfold ts_string in E.
    destruct (t_date t) as [[y m] d] eqn:ED. destruct (t_date t') as [[y' m'] d'] eqn:ED'.
    pose proof (t_date_ok _ _ _ _ ED) as (M & D & DN). pose proof (t_date_ok _ _ _ _ ED') as (M' & D' & DN').
    cbv zeta in E. unfold t_hour, t_minute, t_second in E. fold (t_local t) (t_local t').
    set (u := t_local t) in *. set (u' := t_local t') in *.
    set (q := Z.quot (t_off t) 60) in *. set (q' := Z.quot (t_off t') 60) in *.
    rewrite <- ?app_assoc in E. apply signed_front in E as (Ey & E); [|lia].
    apply append_int_front in E as [Em E]; [|lia|cbn; lia|cbn; lia]. apply app_inv_head in E.
    apply append_int_front in E as [Ed E]; [|lia|cbn; lia|cbn; lia]. apply app_inv_head in E.
    apply append_int_front in E as [Eh E]; [|lia|cbn; lia|cbn; lia]. apply app_inv_head in E.
    apply append_int_front in E as [Emi E]; [|lia|cbn; lia|cbn; lia]. apply app_inv_head in E.
    apply append_int_front in E as [Es E]; [|lia|cbn; lia|cbn; lia]. apply app_inv_head in E.
    assert (HQ : q = q').
    { destruct (q <? 0) eqn:S1, (q' <? 0) eqn:S2; try (exfalso; cbn in E; injection E; intros; discriminate);
      apply app_inv_head in E; apply zone_end in E; lia. }
    split; [|exact HQ]. subst y' m' d'. rewrite DN in DN'. lia.
  - intros (L & Q). unfold ts_string, t_date, t_hour, t_minute, t_second, t_local. now rewrite L, Q.
Qed.
Print Assumptions C88_timestamp.

(** What it prints for the years 1 to 9999 and zones of whole minutes below 100
    hours is the date, the time of day and the zone. *)
Theorem C88_timestamp_says : forall t,
  -62135596800 <= t_unix t + t_off t < 253402300800 -> t_off t mod 60 = 0 -> Z.abs (t_off t) < 360000 ->
  time_shown t (ts_string t).
Proof.
  intros t0. assert (G : forall t, t_nsec t = 0 -> -62135596800 <= t_unix t + t_off t < 253402300800 -> t_off t mod 60 = 0 ->
    Z.abs (t_off t) < 360000 -> time_shown t (ts_string t)).
  2: { destruct t0 as [u n o]. exact (G {| t_unix := u; t_nsec := 0; t_off := o |} eq_refl). }
  clear t0. intros t N Y O A. apply time_says. split; [exact N|]. split; [|exists (t_off t / 60); lia].
  unfold year_of_time. destruct (t_date t) as [[y m] d] eqn:ED. pose proof (t_date_ok _ _ _ _ ED) as (M & D & DN).
  unfold t_local in DN. pose proof (before_month_small (is_leap y) m M) as B.
  assert (L : 0 <= day_number (y, m, d) <= 3652058) by (rewrite DN; unfold unix_epoch_day; lia). clear DN.
  unfold day_number, days_before_year in L. set (p := y - 1) in *. replace y with (p + 1) by lia. clearbody p.
  assert (P : 365 * p + p / 4 - p / 100 + p / 400 <= 3652058 /\ -365 <= 365 * p + p / 4 - p / 100 + p / 400) by lia.
  clear L. lia.
Qed.
Print Assumptions C88_timestamp_says.

(** Years before 0, a zone of 100 hours and more, and one that is not of whole
    minutes. *)
Example C88_timestamp_instance :
  ts_string {| t_unix := -62356780800; t_nsec := 5; t_off := -12600 |} = str "-0007-12-28 20:30:00 -0330" /\
  ts_string {| t_unix := 0; t_nsec := 0; t_off := 360059 |} = str "1970-01-05 04:00:59 +10000" /\
  time_shown {| t_unix := 1584057599; t_nsec := 7; t_off := 19800 |} (str "2020-03-13 05:29:59 +0530").
Proof.
  split; [|split].
  - vm_compute. reflexivity.
  - vm_compute. reflexivity.
  - apply (C88_timestamp_says {| t_unix := 1584057599; t_nsec := 7; t_off := 19800 |}); cbn; (lia || reflexivity).
Qed.
