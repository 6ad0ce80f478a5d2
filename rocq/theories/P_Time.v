(** C23-C25: timestamps and validity periods. *)
From Verif Require Import GoBase GoLemmas SafeLemmas SpecDigits TpduError GoTime SpecTime TimeProofs
  ValidityPeriod SpecVP VPProofs.

(** C23.  Every local time from 1970-01-01 00:00:00 to 2069-12-31 23:59:59, in
    whole seconds, with a zone of q quarters of an hour, |q| <= 79, survives:
    same instant and same offset. *)
Theorem C23_timestamp_roundtrip : forall t q,
  t_nsec t = 0 -> 0 <= t_unix t + t_off t < century -> t_off t = 900 * q -> -79 <= q <= 79 ->
  exists b, ts_marshal t = Ok b /\ len b = 7 /\ Forall is_byte b /\
    forall rest, ts_unmarshal (b ++ rest) = Ok t.
Proof. exact ts_roundtrip. Qed.
Print Assumptions C23_timestamp_roundtrip.

(** The octets are the local calendar date (counted day by day from 1970-01-01),
    the local time of day and the zone, as swapped decimal digits. *)
Theorem C23_timestamp_octets : forall t q y m d,
  0 <= t_unix t + t_off t < century -> t_off t = 900 * q -> -79 <= q <= 79 ->
  let local := t_unix t + t_off t in
  nth_day (Z.to_nat (local / 86400)) = (y, m, d) ->
  ts_marshal t = Ok [bcd_octet (y mod 100); bcd_octet m; bcd_octet d;
    bcd_octet (local mod 86400 / 3600); bcd_octet (local mod 3600 / 60); bcd_octet (local mod 60);
    bcd_octet (Z.abs q) + (if q <? 0 then 8 else 0)].
Proof.
  intros t q y m d HL HO HQ local E. rewrite (ts_marshal_ok t q HL HO HQ).
  fold local. rewrite E. reflexivity.
Qed.
Print Assumptions C23_timestamp_octets.

(** The other way: a stamp with a calendar date of those years, a time of day
    and a zone decodes to that date, time and zone, and encodes back to the
    same octets. *)
Theorem C23_timestamp_reencode : forall y m d h mi s q,
  1970 <= y <= 2069 -> is_date y m d -> 0 <= h < 24 -> 0 <= mi < 60 -> 0 <= s < 60 ->
  -79 <= q <= 79 ->
  let b := [bcd_octet (y mod 100); bcd_octet m; bcd_octet d; bcd_octet h; bcd_octet mi; bcd_octet s;
            bcd_octet (Z.abs q) + (if q <? 0 then 8 else 0)] in
  exists t, ts_unmarshal b = Ok t /\ ts_marshal t = Ok b /\
    t_off t = 900 * q /\ t_nsec t = 0 /\
    t_date t = (y, m, d) /\ t_hour t = h /\ t_minute t = mi /\ t_second t = s.
Proof. exact ts_reencode. Qed.
Print Assumptions C23_timestamp_reencode.

(** Any other octets give a time, an underflow or an error naming a bad octet. *)
Theorem C23_timestamp_safe : forall src, Forall is_byte src ->
  (len src < 7 /\ ts_unmarshal src = Err ErrUnderflow) \/
  (7 <= len src /\ exists b, ts_unmarshal src = Err (BcdInvalidOctet b) /\ In b src) \/
  (7 <= len src /\ exists t, ts_unmarshal src = Ok t /\ t_nsec t = 0 /\
     exists q, t_off t = 900 * q /\ -79 <= q <= 79).
Proof. exact ts_unmarshal_cases. Qed.
Print Assumptions C23_timestamp_safe.

Example C23_instance : (* 2000-02-29 23:59:58 +11:00 *)
  let t := {| t_unix := 951829198 - 600; t_nsec := 0; t_off := 39600 |} in
  0 <= t_unix t + t_off t < century /\ t_off t = 900 * 44 /\
  ts_unmarshal [0; 32; 146; 50; 149; 133; 68] =
    Ok {| t_unix := 951829198; t_nsec := 0; t_off := 39600 |} /\
  ts_marshal {| t_unix := 951829198; t_nsec := 0; t_off := 39600 |} =
    Ok [0; 32; 146; 50; 149; 133; 68] /\
  t_date {| t_unix := 951829198; t_nsec := 0; t_off := 39600 |} = (2000, 2, 29) /\
  is_date 2000 2 29 /\ ~ is_date 1900 2 29.
Proof.
  cbn zeta. split; [vm_compute; split; [discriminate|reflexivity]|].
  repeat (split; [vm_compute; reflexivity|]).
  split; [vm_compute; repeat split; discriminate|].
  unfold is_date. intros [_ [_ H]]. vm_compute in H. now apply H.
Qed.

(** C24.  The claim is false between five and ten minutes: five minutes is
    representable (octet 0) but encodes as octet 1, ten minutes. *)
Theorem C24_largest_refuted : exists d o p,
  0 <= d /\ relative_vp 0 d /\ duration_to_relative d = o /\ relative_vp o p /\ d < p.
Proof.
  exists (minutes 5), 1, (minutes 10).
  split; [vm_compute; discriminate|]. split; [exact (rv_5min 0 ltac:(lia))|].
  split; [vm_compute; reflexivity|]. split; [exact (rv_5min 1 ltac:(lia))|]. vm_compute. reflexivity.
Qed.
Print Assumptions C24_largest_refuted.

(** Octet 0 does not survive decoding and encoding. *)
Theorem C24_octet_zero_refuted :
  duration_to_relative (relative_to_duration 0) <> 0.
Proof. vm_compute. discriminate. Qed.
Print Assumptions C24_octet_zero_refuted.

(** From ten minutes up the encoded period is the largest representable one not
    exceeding the duration.  Missing: five to ten minutes. *)
Theorem C24_largest_partial : forall d, minutes 10 <= d ->
  exists p, relative_vp (duration_to_relative d) p /\ p <= d /\
    forall o p', relative_vp o p' -> p' <= d -> p' <= p /\ o <= duration_to_relative d.
Proof. exact relative_largest. Qed.
Print Assumptions C24_largest_partial.

(** Below five minutes it is the smallest representable one; between five and
    ten minutes it is ten minutes. *)
Theorem C24_short : forall d,
  (0 <= d < minutes 5 -> duration_to_relative d = 0) /\
  (minutes 5 <= d < minutes 10 -> duration_to_relative d = 1).
Proof.
  intros d. assert (minutes 5 < minutes 10) by reflexivity.
  assert (0 < minutes 5) by reflexivity.
  split; intros Hd; destruct (duration_cases d ltac:(lia)) as [[A E]|[[A E]|(A & _)]];
    first [exact E|lia].
Qed.
Print Assumptions C24_short.

(** Every octet decodes to the period the standard gives it, and every octet but
    0 encodes back to itself.  Missing: octet 0. *)
Theorem C24_decode : forall o, 0 <= o <= 255 -> relative_vp o (relative_to_duration o).
Proof. exact relative_to_duration_spec. Qed.
Print Assumptions C24_decode.

Theorem C24_octet_partial : forall o, 1 <= o <= 255 ->
  duration_to_relative (relative_to_duration o) = o.
Proof. exact relative_reencode. Qed.
Print Assumptions C24_octet_partial.

(** The encoding is monotone, on durations that are not negative. *)
Theorem C24_monotone : forall d d', 0 <= d <= d' ->
  duration_to_relative d <= duration_to_relative d'.
Proof. exact relative_monotone. Qed.
Print Assumptions C24_monotone.

(** Negative durations are not rejected: minus ten minutes becomes 61 weeks. *)
Theorem C24_negative_wraps : duration_to_relative (- minutes 10) = 253 /\ relative_vp 253 (weeks 61).
Proof. split; [vm_compute; reflexivity|]. exact (rv_week 253 ltac:(lia)). Qed.
Print Assumptions C24_negative_wraps.

Example C24_instance :
  duration_to_relative (hours 13) = 145 /\ relative_vp 145 (hours 13) /\
  duration_to_relative (days 33) = 196 /\ duration_to_relative (weeks 700) = 255.
Proof.
  split; [vm_compute; reflexivity|]. split; [exact (rv_30min 145 ltac:(lia))|].
  split; vm_compute; reflexivity.
Qed.

(** C25.  Five minutes, though representable, does not survive in the relative
    format. *)
Theorem C25_roundtrip_refuted : exists d b,
  relative_vp 0 d /\ vp_marshal (vp_relative d) = Ok b /\
  vp_unmarshal vp_zero b VpfRelative <> Ok (vp_relative d, 1).
Proof.
  exists (minutes 5), [1]. split; [exact (rv_5min 0 ltac:(lia))|].
  split; [vm_compute; reflexivity|]. vm_compute. discriminate.
Qed.
Print Assumptions C25_roundtrip_refuted.

(** Every other representable value of every format survives, whatever follows.
    Missing: the relative octet 0. *)
Theorem C25_roundtrip_partial : forall v, vp_value v ->
  exists b, vp_marshal v = Ok b /\ Forall is_byte b /\ len b = vp_size (vp_format v) /\
    0 <= vp_format v <= 3 /\
    forall rest, vp_unmarshal vp_zero (b ++ rest) (vp_format v) = Ok (v, len b).
Proof. exact vp_roundtrip. Qed.
Print Assumptions C25_roundtrip_partial.

(** An enhanced field is accepted exactly if it has its seven octets, a format
    from 0 to 3, decimal digits where needed, and zeroes elsewhere. *)
Theorem C25_enhanced_accepted_iff : forall src, Forall is_byte src ->
  (exists r, vp_unmarshal_enhanced src = Ok r) <->
  7 <= len src /\ let f := nth 0 src 0 mod 8 in
  f <= 3 /\ (f = 3 -> bcd_valid (nth 1 src 0) /\ bcd_valid (nth 2 src 0) /\ bcd_valid (nth 3 src 0)) /\
  forall k, evp_used f < k <= 6 -> nth (Z.to_nat k) src 0 = 0.
Proof. exact enhanced_accept. Qed.
Print Assumptions C25_enhanced_accepted_iff.

(** Reserved formats are not written either. *)
Theorem C25_reserved_not_written : forall v,
  (3 < vp_format v -> vp_marshal v = Err (EncodeErr "vpf" ErrInvalid)) /\
  (vp_format v = VpfEnhanced -> 3 < vp_efi v mod 8 -> vp_marshal v = Err (EncodeErr "fi" ErrInvalid)).
Proof.
  intros v. split.
  - intros H. unfold vp_marshal, VpfAbsolute, VpfEnhanced, VpfRelative, VpfNotPresent.
    replace (vp_format v =? 3) with false by lia. replace (vp_format v =? 1) with false by lia.
    replace (vp_format v =? 2) with false by lia. now replace (vp_format v =? 0) with false by lia.
  - intros E H. unfold vp_marshal. rewrite E. change (VpfEnhanced =? VpfAbsolute) with false.
    change (VpfEnhanced =? VpfEnhanced) with true. cbv iota. rewrite land7.
    unfold EvpfRelativeHHMMSS. now replace (3 <? vp_efi v mod 8) with true by lia.
Qed.
Print Assumptions C25_reserved_not_written.

(** Decoding is safe for every format and input. *)
Theorem C25_unmarshal_safe : forall v src f, Forall is_byte src ->
  safe (len src) (vp_unmarshal v src f) /\
  forall v' n, vp_unmarshal v src f = Ok (v', n) ->
    0 <= n <= len src /\ vp_format v' = f /\ 0 <= f <= 3 /\ n = vp_size f.
Proof.
  intros v src f H. split; [now apply vp_unmarshal_safe|]. intros v' n. apply vp_unmarshal_size.
Qed.
Print Assumptions C25_unmarshal_safe.

Example C25_instance : (* 12:34:56 with the single-shot bit *)
  vp_value (vp_enhanced (12 * 3600000000000 + 34 * 60000000000 + 56 * 1000000000) 67) /\
  vp_marshal (vp_enhanced (12 * 3600000000000 + 34 * 60000000000 + 56 * 1000000000) 67)
    = Ok [67; 33; 67; 101; 0; 0; 0] /\
  vp_unmarshal_enhanced [67; 33; 67; 101; 0; 1; 0] = Err (DecodeErr "enhanced" 5 ErrNonZero) /\
  vp_unmarshal_enhanced [4; 0; 0; 0; 0; 0; 0] = Err (DecodeErr "enhanced" 0 ErrInvalid).
Proof.
  split. { apply vv_enh; [unfold is_byte; lia|]. apply ev_hms; try lia. }
  repeat split; vm_compute; reflexivity.
Qed.
