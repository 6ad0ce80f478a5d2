(** * Durations written in the enhanced format (C66) *)
From Verif Require Import GoBase GoLemmas SafeLemmas Bcd TpduError GoTime GoFloat SpecTime ValidityPeriod SpecVP FloatProofs VPProofs.

Lemma marshal_none efi d : efi mod 8 = 0 -> vp_marshal (vp_enhanced d efi) = vp_marshal (vp_enhanced 0 efi).
Proof.
  intros E. unfold vp_marshal, vp_enhanced. cbn [vp_format vp_efi vp_duration]. now rewrite land7, E.
Qed.
Lemma marshal_rel efi d d' : efi mod 8 = 1 -> duration_to_relative d = duration_to_relative d' ->
  vp_marshal (vp_enhanced d efi) = vp_marshal (vp_enhanced d' efi).
Proof.
  intros E H. unfold vp_marshal, vp_enhanced. cbn [vp_format vp_efi vp_duration]. now rewrite land7, E, H.
Qed.
Lemma marshal_sec efi d : efi mod 8 = 2 -> 0 <= d ->
  vp_marshal (vp_enhanced d efi) = vp_marshal (vp_enhanced (Z.min 255 (d / 1000000000) * 1000000000) efi).
Proof.
  intros E H. unfold vp_marshal, vp_enhanced. cbn [vp_format vp_efi vp_duration]. rewrite land7, E.
  unfold ns_second. rewrite Z.quot_mul by lia. rewrite Z.quot_div_nonneg by lia.
  replace (255 <? Z.min 255 (d / 1000000000)) with false by lia.
  replace (if 255 <? d / 1000000000 then 255 else d / 1000000000) with (Z.min 255 (d / 1000000000)); [reflexivity|].
  destruct (255 <? d / 1000000000) eqn:C; lia.
Qed.
Lemma marshal_hms efi d : efi mod 8 = 3 -> 0 <= d < hours 100 ->
  vp_marshal (vp_enhanced d efi) = vp_marshal (vp_enhanced (d / 1000000000 * 1000000000) efi).
Proof.
  intros E H. unfold vp_marshal, vp_enhanced. cbn [vp_format vp_efi vp_duration]. rewrite land7, E.
  change (hours 100) with 360000000000000 in H.
  assert (U : ns_hour = 3600000000000 /\ ns_minute = 60000000000 /\ ns_second = 1000000000) by (repeat split).
  destruct (hms_exact d) as (-> & -> & ->); [change (4096 * ns_hour) with 14745600000000000; lia|].
  destruct (hms_exact (d / 1000000000 * 1000000000)) as (-> & -> & ->); [change (4096 * ns_hour) with 14745600000000000; lia|].
  destruct U as (-> & -> & ->). rewrite !Z.quot_div_nonneg by lia.
  replace (d / 1000000000 * 1000000000 / 3600000000000) with (d / 3600000000000) by lia.
  replace (d / 1000000000 * 1000000000 / 60000000000) with (d / 60000000000) by lia.
  now rewrite Z.div_mul by lia.
Qed.

(** The claim: writing a duration in the enhanced format and reading it back gives
    the longest period of that format that is not longer.  It is false for five to
    ten minutes (C24), for 100 hours and more in hh:mm:ss, where the hours are
    taken modulo 100, and for negative durations in seconds, which wrap.  Far above
    100 hours even the digits are wrong: one nanosecond less than 4097 hours is
    written as 97:59:59, because the hours are rounded up on the way. *)
Theorem C66_longest_refuted :
  vp_marshal (vp_enhanced (hours 100) 3) = Ok [3; 0; 0; 0; 0; 0; 0] /\
  vp_marshal (vp_enhanced (- 5 * 1000000000) 2) = Ok [2; 251; 0; 0; 0; 0; 0] /\
  vp_marshal (vp_enhanced (hours 4097 - 1) 3) = Ok [3; 121; 149; 149; 0; 0; 0] /\
  vp_unmarshal_enhanced [3; 121; 149; 149; 0; 0; 0] = Ok (3, hours 97 + minutes 59 + 59 * 1000000000).
Proof. repeat split; vm_compute; reflexivity. Qed.
Print Assumptions C66_longest_refuted.

(** For everything else it is true. *)
Theorem C66_longest_partial : forall efi d, is_byte efi -> efi mod 8 <= 3 -> 0 <= d ->
  (efi mod 8 = 1 -> minutes 10 <= d) -> (efi mod 8 = 3 -> d < hours 100) ->
  exists b d',
    vp_marshal (vp_enhanced d efi) = Ok b /\
    (forall rest, vp_unmarshal vp_zero (b ++ rest) VpfEnhanced = Ok (vp_enhanced d' efi, 7)) /\
    enhanced_value efi d' /\ d' <= d /\ forall p, enhanced_value efi p -> p <= d -> p <= d'.
Proof.
  intros efi d HB HF H0 H1 H3.
  assert (K : forall d', enhanced_value efi d' -> vp_marshal (vp_enhanced d efi) = vp_marshal (vp_enhanced d' efi) ->
    d' <= d -> (forall p, enhanced_value efi p -> p <= d -> p <= d') ->
    exists b d', vp_marshal (vp_enhanced d efi) = Ok b /\
      (forall rest, vp_unmarshal vp_zero (b ++ rest) VpfEnhanced = Ok (vp_enhanced d' efi, 7)) /\
      enhanced_value efi d' /\ d' <= d /\ forall p, enhanced_value efi p -> p <= d -> p <= d').
  { intros d' V E L G. destruct (vp_roundtrip _ (vv_enh efi d' HB V)) as (b & Eb & _ & LB & _ & R).
    exists b, d'. split; [now rewrite E|]. split; [|auto]. change (vp_size _) with 7 in LB. intros rest. rewrite <- LB. exact (R rest). }
  pose proof (Z.mod_pos_bound efi 8 ltac:(lia)) as HM.
  assert (C : efi mod 8 = 0 \/ efi mod 8 = 1 \/ efi mod 8 = 2 \/ efi mod 8 = 3) by lia.
  destruct C as [E|[E|[E|E]]].
  - apply (K 0); [now apply ev_none|now apply marshal_none|lia|].
    intros p V _. destruct V as [V|o p V|s V|h m s V]; lia.
  - destruct (relative_largest d (H1 E)) as (p & HP & LP & G). pose proof (relative_vp_fun _ _ HP) as (HO & EP).
    assert (O1 : 1 <= duration_to_relative d).
    { destruct (G 1 (minutes 10)) as (_ & X); auto. exact (rv_5min 1 ltac:(lia)). }
    apply (K p).
    + now apply ev_rel with (duration_to_relative d).
    + apply marshal_rel; [assumption|]. rewrite EP, relative_reencode by lia. reflexivity.
    + assumption.
    + intros q V LQ. destruct V as [V|o q V HQ Ho|s V Hs|h m s V]; try lia. now destruct (G o q HQ LQ).
  - apply (K (Z.min 255 (d / 1000000000) * 1000000000)).
    + apply ev_sec; [assumption|]. pose proof (Z.div_pos d 1000000000 ltac:(lia) ltac:(lia)). lia.
    + now apply marshal_sec.
    + lia.
    + intros p V LP. destruct V as [V|o p V HQ Ho|s V Hs|h m s V]; lia.
  - specialize (H3 E). change (hours 100) with 360000000000000 in H3. apply (K (d / 1000000000 * 1000000000)).
    + set (s := d / 1000000000). assert (0 <= s < 360000) by (subst s; lia).
      replace (s * 1000000000) with (s / 3600 * 3600000000000 + s / 60 mod 60 * 60000000000 + s mod 60 * 1000000000) by lia.
      apply ev_hms; [assumption|lia|lia|lia].
    + apply marshal_hms; [assumption|]. change (hours 100) with 360000000000000. lia.
    + lia.
    + intros p V LP. destruct V as [V|o p V HQ Ho|s V Hs|h m s V Hh Hm Hs]; lia.
Qed.
Print Assumptions C66_longest_partial.

Example C66_instance :
  vp_marshal (vp_enhanced (hours 100 - 1) 3) = Ok [3; 153; 149; 149; 0; 0; 0] /\
  vp_unmarshal vp_zero [3; 153; 149; 149; 0; 0; 0] VpfEnhanced = Ok (vp_enhanced (hours 100 - 1000000000) 3, 7) /\
  vp_marshal (vp_enhanced (minutes 59 + 1) 2) = Ok [2; 255; 0; 0; 0; 0; 0].
Proof. repeat split; vm_compute; reflexivity. Qed.

(** The whole hours, minutes and seconds of a duration, which the code computes
    with float64, are exact below 4096 hours, for negative durations too. *)
Theorem C66_float_exact : forall d, Z.abs d < hours 4096 ->
  in_units (hours 1) d = Z.quot d (hours 1) /\
  in_units (minutes 1) d = Z.quot d (minutes 1) /\
  in_units 1000000000 d = Z.quot d 1000000000.
Proof. exact hms_exact. Qed.
Print Assumptions C66_float_exact.

(** The bound is right. *)
Theorem C66_float_inexact : in_units (hours 1) (hours 4097 - 1) = 4097 /\ in_units (hours 1) (hours 4096 - 1) = 4095.
Proof. split; vm_compute; reflexivity. Qed.
Print Assumptions C66_float_inexact.
