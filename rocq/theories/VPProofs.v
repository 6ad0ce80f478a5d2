(** Lemmas about validity periods (C24, C25). *)
From Verif Require Import GoBase GoLemmas SafeLemmas Bcd SpecDigits DigitsProofs TpduError GoTime
  SpecTime TimeProofs ValidityPeriod SpecVP FloatProofs.

Ltac vpu := unfold relative_to_duration, duration_to_relative, ns_week, ns_day, ns_hour, ns_minute,
  ns_second, minutes, hours, days, weeks in *;
  unfold minutes, hours, days, weeks in *; unfold minutes, hours, days in *;
  unfold minutes, hours in *; unfold minutes in *.

Lemma relative_to_duration_spec o : 0 <= o <= 255 -> relative_vp o (relative_to_duration o).
Proof.
  intros H. unfold relative_to_duration.
  destruct (o <? 144) eqn:E1.
  - rewrite to_byte_id by lia. replace (5 * ns_minute * (o + 1)) with (minutes (5 * (o + 1))) by (vpu; lia).
    constructor; lia.
  - destruct (o <? 168) eqn:E2.
    + rewrite to_byte_id by lia.
      replace (30 * ns_minute * (o - 119)) with (hours 12 + minutes (30 * (o - 143))) by (vpu; lia).
      constructor; lia.
    + destruct (o <? 197) eqn:E3; rewrite to_byte_id by lia.
      * replace (ns_day * (o - 166)) with (days (o - 166)) by (vpu; lia). constructor; lia.
      * replace (ns_week * (o - 192)) with (weeks (o - 192)) by (vpu; lia). constructor; lia.
Qed.

Lemma relative_vp_fun o d : relative_vp o d -> 0 <= o <= 255 /\ d = relative_to_duration o.
Proof.
  unfold relative_to_duration. intros H. destruct H as [o H|o H|o H|o H]; (split; [lia|]).
  - replace (o <? 144) with true by lia. rewrite to_byte_id by lia. vpu; lia.
  - replace (o <? 144) with false by lia. replace (o <? 168) with true by lia.
    rewrite to_byte_id by lia. vpu; lia.
  - replace (o <? 144) with false by lia. replace (o <? 168) with false by lia.
    replace (o <? 197) with true by lia. rewrite to_byte_id by lia. vpu; lia.
  - replace (o <? 144) with false by lia. replace (o <? 168) with false by lia.
    replace (o <? 197) with false by lia. rewrite to_byte_id by lia. vpu; lia.
Qed.

(** The decoding grows with the octet. *)
Lemma relative_mono o o' : 0 <= o -> o < o' -> o' <= 255 ->
  relative_to_duration o < relative_to_duration o'.
Proof.
  intros H1 H2 H3. unfold relative_to_duration.
  destruct (o <? 144) eqn:E1, (o' <? 144) eqn:F1; try lia;
  try (destruct (o <? 168) eqn:E2); try (destruct (o' <? 168) eqn:F2); try lia;
  try (destruct (o <? 197) eqn:E3); try (destruct (o' <? 197) eqn:F3); try lia;
  rewrite !to_byte_id by lia; vpu; lia.
Qed.

Lemma duration_cases d : 0 <= d ->
  (0 <= d < minutes 5 /\ duration_to_relative d = 0) \/
  (minutes 5 <= d < minutes 10 /\ duration_to_relative d = 1) \/
  (minutes 10 <= d /\ let o := duration_to_relative d in
     1 <= o <= 255 /\ relative_to_duration o <= d /\
     (o = 255 \/ d < relative_to_duration (o + 1))).
Proof.
  intros H. 
  destruct (d <? minutes 5) eqn:E5.
  { left. split; [lia|]. unfold duration_to_relative.
    replace (d <? 12 * ns_hour) with true by (vpu; lia).
    rewrite Z.quot_small by (vpu; lia). reflexivity. }
  right. destruct (d <? minutes 10) eqn:E10.
  { left. split; [lia|]. unfold duration_to_relative.
    replace (d <? 12 * ns_hour) with true by (vpu; lia).
    rewrite Z.quot_div_nonneg by (vpu; lia).
    replace (d / (5 * ns_minute)) with 1 by (vpu; lia). reflexivity. }
  right. split; [lia|]. cbn zeta. unfold duration_to_relative.
  destruct (d <? 12 * ns_hour) eqn:E1.
  - rewrite Z.quot_div_nonneg by (vpu; lia).
    set (q := d / (5 * ns_minute)). assert (2 <= q <= 143) by (subst q; vpu; lia).
    rewrite to_byte_id by lia. replace (1 <? q) with true by lia.
    split; [lia|]. unfold relative_to_duration.
    replace (q - 1 <? 144) with true by lia. replace (q - 1 + 1) with q by lia.
    rewrite to_byte_id by lia. split; [subst q; vpu; lia|]. right.
    replace (q <? 144) with true by lia. rewrite to_byte_id by lia. subst q; vpu; lia.
  - destruct (d <? 24 * ns_hour) eqn:E2.
    + rewrite Z.quot_div_nonneg by (vpu; lia).
      set (q := d / (30 * ns_minute)). assert (24 <= q <= 47) by (subst q; vpu; lia).
      rewrite (to_byte_id q) by lia. rewrite to_byte_id by lia.
      split; [lia|]. destruct (Z.eq_dec q 24) as [E24|N24].
      * rewrite E24. change (119 + 24) with 143. split; [vpu; cbn; lia|]. right.
        change (143 + 1) with 144. change (relative_to_duration 144) with (30 * ns_minute * 25).
        subst q; vpu; lia.
      * unfold relative_to_duration. replace (119 + q <? 144) with false by lia.
        replace (119 + q <? 168) with true by lia. rewrite to_byte_id by lia.
        split; [subst q; vpu; lia|]. right.
        replace (119 + q + 1 <? 144) with false by lia.
        replace (119 + q + 1 <? 168) with true by lia. rewrite to_byte_id by lia.
        subst q; vpu; lia.
    + destruct (d <? 30 * ns_day) eqn:E3.
      * rewrite Z.quot_div_nonneg by (vpu; lia).
        set (q := d / ns_day). assert (1 <= q <= 29) by (subst q; vpu; lia).
        rewrite (to_byte_id q) by lia. rewrite to_byte_id by lia.
        split; [lia|]. destruct (Z.eq_dec q 1) as [E24|N24].
        -- rewrite E24. change (166 + 1) with 167. split; [vpu; cbn; lia|]. right.
           change (relative_to_duration (167 + 1)) with (ns_day * 2).
           subst q; vpu; lia.
        -- unfold relative_to_duration. replace (166 + q <? 144) with false by lia.
           replace (166 + q <? 168) with false by lia. replace (166 + q <? 197) with true by lia.
           rewrite to_byte_id by lia. split; [subst q; vpu; lia|]. right.
           replace (166 + q + 1 <? 144) with false by lia.
           replace (166 + q + 1 <? 168) with false by lia.
           replace (166 + q + 1 <? 197) with true by lia. rewrite to_byte_id by lia.
           subst q; vpu; lia.
      * destruct (d <? 63 * ns_week) eqn:E4.
        -- rewrite Z.quot_div_nonneg by (vpu; lia).
           set (q := d / ns_week). assert (4 <= q <= 62) by (subst q; vpu; lia).
           rewrite (to_byte_id q) by lia. rewrite to_byte_id by lia.
           split; [lia|]. destruct (Z.eq_dec q 4) as [E24|N24].
           ++ rewrite E24. change (192 + 4) with 196. split; [vpu; cbn; lia|]. right.
              change (relative_to_duration (196 + 1)) with (ns_week * 5).
              subst q; vpu; lia.
           ++ unfold relative_to_duration. replace (192 + q <? 144) with false by lia.
              replace (192 + q <? 168) with false by lia. replace (192 + q <? 197) with false by lia.
              rewrite to_byte_id by lia. split; [subst q; vpu; lia|]. right.
              replace (192 + q + 1 <? 144) with false by lia.
              replace (192 + q + 1 <? 168) with false by lia.
              replace (192 + q + 1 <? 197) with false by lia. rewrite to_byte_id by lia.
              subst q; vpu; lia.
        -- split; [lia|]. split; [vpu; cbn; lia|]. now left.
Qed.

Lemma relative_le o o' : 0 <= o <= 255 -> 0 <= o' <= 255 ->
  (o <= o' <-> relative_to_duration o <= relative_to_duration o').
Proof.
  intros H H'. destruct (Z.lt_trichotomy o o') as [L|[->|L]]; [|split; lia|].
  - pose proof (relative_mono o o'); lia.
  - pose proof (relative_mono o' o); lia.
Qed.

Lemma relative_le1 o o' : 0 <= o <= 255 -> 0 <= o' <= 255 -> o <= o' ->
  relative_to_duration o <= relative_to_duration o'.
Proof. intros H H'. now apply relative_le. Qed.

Lemma relative_largest d : minutes 10 <= d ->
  exists p, relative_vp (duration_to_relative d) p /\ p <= d /\
    forall o p', relative_vp o p' -> p' <= d -> p' <= p /\ o <= duration_to_relative d.
Proof.
  intros H. assert (H0 : 0 <= d) by (vpu; lia).
  destruct (duration_cases d H0) as [[? _]|[[? _]|(_ & HO & HL & HU)]]; try (vpu; lia).
  exists (relative_to_duration (duration_to_relative d)).
  split; [apply relative_to_duration_spec; lia|]. split; [assumption|].
  intros o p' Hp Hd. destruct (relative_vp_fun _ _ Hp) as (Ho & ->).
  assert (o <= duration_to_relative d); [|split; [apply relative_le1; lia|assumption]].
  destruct HU as [->|HU]; [lia|].
  destruct (Z_le_gt_dec o (duration_to_relative d)); [assumption|exfalso].
  destruct (Z.eq_dec (duration_to_relative d) 255); [lia|].
  assert (relative_to_duration (duration_to_relative d + 1) <= relative_to_duration o); [|lia].
  apply relative_le1; lia.
Qed.

Lemma relative_reencode o : 1 <= o <= 255 -> duration_to_relative (relative_to_duration o) = o.
Proof.
  intros H. pose proof (zrange_sweep 256 (fun o => (o =? 0) ||
    (duration_to_relative (relative_to_duration o) =? o)) ltac:(vm_compute; reflexivity) o
    ltac:(lia)) as E. cbn beta in E. lia.
Qed.

Lemma relative_monotone d d' : 0 <= d <= d' -> duration_to_relative d <= duration_to_relative d'.
Proof.
  intros H. destruct (duration_cases d ltac:(lia)) as [[A ->]|[[A ->]|(A & HO & HL & HU)]];
  destruct (duration_cases d' ltac:(lia)) as [[B ->]|[[B ->]|(B & HO' & HL' & HU')]]; unfold minutes in *; try lia.
  destruct HU' as [->|HU']; [lia|].
  destruct (Z_le_gt_dec (duration_to_relative d) (duration_to_relative d')) as [|G]; [assumption|].
  exfalso. destruct (Z.eq_dec (duration_to_relative d') 255); [lia|].
  assert (relative_to_duration (duration_to_relative d' + 1)
    <= relative_to_duration (duration_to_relative d)); [|lia].
  apply relative_le1; lia.
Qed.

(** * Round trips *)
Definition enhanced_octets (efi d : Z) : bytes :=
  let f := efi mod 8 in
  if f =? 1 then [efi; duration_to_relative d; 0; 0; 0; 0; 0]
  else if f =? 2 then [efi; d / 1000000000; 0; 0; 0; 0; 0]
  else if f =? 3 then [efi; bcd_octet (d / 3600000000000); bcd_octet (d / 60000000000 mod 60);
                       bcd_octet (d / 1000000000 mod 60); 0; 0; 0]
  else [efi; 0; 0; 0; 0; 0; 0].

Lemma land7 x : Z.land x 7 = x mod 8.
Proof. change 7 with (Z.ones 3). rewrite Z.land_ones by lia. reflexivity. Qed.

Lemma check_fill_zero l pre n : len pre = l ->
  forall rest, check_fill (pre ++ repeat 0 n ++ rest) l n = Ok tt.
Proof.
  revert l pre. induction n as [|n IH]; intros l pre E rest; [reflexivity|].
  cbn [check_fill repeat app]. rewrite <- E, idx_app_mid. cbn [bind].
  change (0 =? 0) with true. cbn [negb].
  change (pre ++ 0 :: repeat 0 n ++ rest) with (pre ++ [0] ++ (repeat 0 n ++ rest)).
  rewrite app_assoc. apply IH. rewrite len_app. reflexivity.
Qed.

Lemma enhanced_roundtrip efi d : is_byte efi -> enhanced_value efi d ->
  vp_marshal (vp_enhanced d efi) = Ok (enhanced_octets efi d) /\
  Forall is_byte (enhanced_octets efi d) /\
  forall rest, vp_unmarshal_enhanced (enhanced_octets efi d ++ rest) = Ok (efi, d).
Proof.
  intros HB HV. unfold vp_marshal, vp_enhanced. cbn [vp_format vp_efi vp_duration].
  change (VpfEnhanced =? VpfAbsolute) with false. change (VpfEnhanced =? VpfEnhanced) with true.
  unfold vp_unmarshal_enhanced, enhanced_octets.
  unfold EvpfRelativeHHMMSS, EvpfRelative, EvpfRelativeSeconds, EvpfNotPresent.
  rewrite !land7. cbv iota zeta.
  assert (B0 : is_byte 0) by (unfold is_byte; lia).
  destruct HV as [E|o d E HR Ho|s E Hs|h m s E Hh Hm Hs]; rewrite E;
    change (0 =? 1) with false; change (0 =? 2) with false; change (0 =? 3) with false;
    change (0 =? 0) with true; change (1 =? 1) with true; change (1 =? 0) with false;
    change (2 =? 0) with false; change (2 =? 1) with false; change (2 =? 2) with true;
    change (3 =? 0) with false; change (3 =? 1) with false; change (3 =? 2) with false;
    change (3 =? 3) with true; change (3 <? 0) with false; change (3 <? 1) with false;
    change (3 <? 2) with false; change (3 <? 3) with false; cbv iota.
  - split; [reflexivity|]. split; [repeat (apply Forall_cons; [assumption|]); constructor|].
    intros rest. rewrite len_app. pose proof (len_nonneg rest).
    change (len [efi; 0; 0; 0; 0; 0; 0]) with 7. replace (7 + len rest <? 7) with false by lia.
    change (idx ([efi; 0; 0; 0; 0; 0; 0] ++ rest) 0) with (Ok efi : res Z). cbn [bind].
    rewrite land7, E. change (0 =? 0) with true. cbv iota. cbn [bind].
    change (0 + 1) with 1. change (Z.to_nat (6 - 0)) with 6%nat.
    change ([efi; 0; 0; 0; 0; 0; 0] ++ rest) with ([efi] ++ repeat 0 6 ++ rest).
    rewrite check_fill_zero by reflexivity. reflexivity.
  - destruct (relative_vp_fun _ _ HR) as (Ho' & ->). rewrite relative_reencode by lia.
    split; [reflexivity|]. split.
    { apply Forall_cons; [assumption|]. apply Forall_cons; [unfold is_byte; lia|].
      repeat (apply Forall_cons; [assumption|]); constructor. }
    intros rest. rewrite len_app. pose proof (len_nonneg rest).
    change (len [efi; o; 0; 0; 0; 0; 0]) with 7. replace (7 + len rest <? 7) with false by lia.
    change (idx ([efi; o; 0; 0; 0; 0; 0] ++ rest) 0) with (Ok efi : res Z).
    change (idx ([efi; o; 0; 0; 0; 0; 0] ++ rest) 1) with (Ok o : res Z). cbn [bind].
    rewrite land7, E. change (1 =? 0) with false. change (1 =? 1) with true. cbv iota. cbn [bind].
    change (1 + 1) with 2. change (Z.to_nat (6 - 1)) with 5%nat.
    change ([efi; o; 0; 0; 0; 0; 0] ++ rest) with ([efi; o] ++ repeat 0 5 ++ rest).
    rewrite check_fill_zero by reflexivity. reflexivity.
  - unfold ns_second. rewrite Z.quot_mul by lia. rewrite Z.div_mul by lia.
    replace (255 <? s) with false by lia. rewrite to_byte_id by lia.
    split; [reflexivity|]. split.
    { apply Forall_cons; [assumption|]. apply Forall_cons; [unfold is_byte; lia|].
      repeat (apply Forall_cons; [assumption|]); constructor. }
    intros rest. rewrite len_app. pose proof (len_nonneg rest).
    change (len [efi; s; 0; 0; 0; 0; 0]) with 7. replace (7 + len rest <? 7) with false by lia.
    change (idx ([efi; s; 0; 0; 0; 0; 0] ++ rest) 0) with (Ok efi : res Z).
    change (idx ([efi; s; 0; 0; 0; 0; 0] ++ rest) 1) with (Ok s : res Z). cbn [bind].
    rewrite land7, E. change (2 =? 0) with false. change (2 =? 1) with false.
    change (2 =? 2) with true. cbv iota. cbn [bind].
    change (1 + 1) with 2. change (Z.to_nat (6 - 1)) with 5%nat.
    change ([efi; s; 0; 0; 0; 0; 0] ++ rest) with ([efi; s] ++ repeat 0 5 ++ rest).
    rewrite check_fill_zero by reflexivity. cbn [bind]. do 2 f_equal. lia.
  - set (d := h * 3600000000000 + m * 60000000000 + s * 1000000000).
    assert (Hd : 0 <= d) by (subst d; lia).
    assert (Eh : d / 3600000000000 = h) by (subst d; lia).
    assert (Em : d / 60000000000 = h * 60 + m) by (subst d; lia).
    assert (Es : d / 1000000000 = (h * 60 + m) * 60 + s) by (subst d; lia).
    destruct (hms_exact d) as (-> & -> & ->); [unfold ns_hour, ns_minute, ns_second; subst d; lia|].
    unfold ns_hour, ns_minute, ns_second. change (60 * (60 * 1000000000)) with 3600000000000.
    change (60 * 1000000000) with 60000000000.
    rewrite !Z.quot_div_nonneg by lia. rewrite Eh, Em, Es.
    rewrite !Z.rem_mod_nonneg by lia. rewrite Z.mod_small with (a := h) by lia.
    replace ((h * 60 + m) mod 60) with m by lia. replace (((h * 60 + m) * 60 + s) mod 60) with s by lia.
    destruct (bcd_ok h ltac:(lia)) as (-> & Dh & Bh). destruct (bcd_ok m ltac:(lia)) as (-> & Dm & Bm).
    destruct (bcd_ok s ltac:(lia)) as (-> & Ds & Bs). cbn [on_err bind].
    split; [reflexivity|]. split.
    { do 4 (apply Forall_cons; [assumption|]). repeat (apply Forall_cons; [assumption|]). constructor. }
    intros rest. rewrite len_app. pose proof (len_nonneg rest).
    set (x := bcd_octet h) in *. set (y := bcd_octet m) in *. set (z := bcd_octet s) in *.
    change (len [efi; x; y; z; 0; 0; 0]) with 7. replace (7 + len rest <? 7) with false by lia.
    change (idx ([efi; x; y; z; 0; 0; 0] ++ rest) 0) with (Ok efi : res Z).
    change (idx ([efi; x; y; z; 0; 0; 0] ++ rest) 1) with (Ok x : res Z).
    change (idx ([efi; x; y; z; 0; 0; 0] ++ rest) 2) with (Ok y : res Z).
    change (idx ([efi; x; y; z; 0; 0; 0] ++ rest) 3) with (Ok z : res Z). cbn [bind].
    rewrite land7, E. change (3 =? 0) with false. change (3 =? 1) with false.
    change (3 =? 2) with false. change (3 =? 3) with true. cbv iota.
    rewrite Dh, Dm, Ds. cbn [on_err bind].
    change (3 + 1) with 4. change (Z.to_nat (6 - 3)) with 3%nat.
    change ([efi; x; y; z; 0; 0; 0] ++ rest) with ([efi; x; y; z] ++ repeat 0 3 ++ rest).
    rewrite check_fill_zero by reflexivity. cbn [bind]. reflexivity.
Qed.

Definition vp_size (f : Z) : Z := if f =? 0 then 0 else if f =? 2 then 1 else 7.

Lemma vp_roundtrip v : vp_value v ->
  exists b, vp_marshal v = Ok b /\ Forall is_byte b /\ len b = vp_size (vp_format v) /\
    0 <= vp_format v <= 3 /\
    forall rest, vp_unmarshal vp_zero (b ++ rest) (vp_format v) = Ok (v, len b).
Proof.
  intros HV. destruct HV as [|t q HN HL HO HQ|o d HR Ho|efi d HB HE].
  - exists []. split; [reflexivity|]. split; [constructor|]. split; [reflexivity|].
    split; [split; vm_compute; discriminate|]. reflexivity.
  - destruct (ts_roundtrip t q HN HL HO HQ) as (b & E & L & B & D).
    exists b. split; [exact E|]. split; [exact B|]. split; [rewrite L; reflexivity|].
    split; [split; vm_compute; discriminate|]. intros rest. unfold vp_unmarshal. change (vp_format (vp_absolute t)) with 3.
    change (3 =? VpfAbsolute) with true. cbv iota. rewrite D. cbn [bind]. rewrite L. reflexivity.
  - destruct (relative_vp_fun _ _ HR) as (Ho' & ->). exists [o].
    unfold vp_marshal. change (vp_format (vp_relative (relative_to_duration o))) with 2.
    change (2 =? VpfAbsolute) with false. change (2 =? VpfEnhanced) with false.
    change (2 =? VpfRelative) with true. cbv iota. cbn [vp_relative vp_duration].
    rewrite relative_reencode by lia.
    split; [reflexivity|]. split; [constructor; [unfold is_byte; lia|constructor]|].
    split; [reflexivity|]. split; [lia|]. intros rest. unfold vp_unmarshal.
    change (2 =? VpfAbsolute) with false. change (2 =? VpfEnhanced) with false.
    change (2 =? VpfRelative) with true. cbv iota. cbn [app]. rewrite len_cons.
    pose proof (len_nonneg rest). replace (1 + len rest <? 1) with false by lia.
    rewrite idx_0. reflexivity.
  - destruct (enhanced_roundtrip efi d HB HE) as (E & B & D).
    exists (enhanced_octets efi d). split; [exact E|]. split; [exact B|].
    assert (L : len (enhanced_octets efi d) = 7).
    { unfold enhanced_octets. repeat match goal with |- context [if ?c then _ else _] => destruct c end;
      reflexivity. }
    split; [rewrite L; reflexivity|]. split; [split; vm_compute; discriminate|]. intros rest. unfold vp_unmarshal.
    change (vp_format (vp_enhanced d efi)) with 1.
    change (1 =? VpfAbsolute) with false. change (1 =? VpfEnhanced) with true. cbv iota.
    rewrite D. cbn [bind]. rewrite L. reflexivity.
Qed.

(** * Acceptance of the enhanced format *)
Definition bcd_valid (b : Z) : Prop := b mod 16 <= 9 /\ b / 16 <= 9.

Lemma check_fill_step src i n : 0 <= i < len src ->
  check_fill src i (S n) =
    (if negb (nth (Z.to_nat i) src 0 =? 0) then Err (new_decode_error "enhanced" i ErrNonZero)
     else check_fill src (i + 1) n).
Proof. intros H. cbn [check_fill]. rewrite (idx_nth src i 0) by lia. reflexivity. Qed.

Lemma check_fill_iff src : forall n i, 0 <= i -> i + Z.of_nat n <= len src ->
  (check_fill src i n = Ok tt /\ forall k, i <= k < i + Z.of_nat n -> nth (Z.to_nat k) src 0 = 0) \/
  (exists k, i <= k < i + Z.of_nat n /\ nth (Z.to_nat k) src 0 <> 0 /\
     check_fill src i n = Err (DecodeErr "enhanced" k ErrNonZero)).
Proof.
  induction n as [|n IH]; intros i Hi HL.
  - left. split; [reflexivity|]. intros; lia.
  - rewrite check_fill_step by lia. destruct (nth (Z.to_nat i) src 0 =? 0) eqn:E; cbn [negb].
    + destruct (IH (i + 1) ltac:(lia) ltac:(lia)) as [(E2 & F)|(k & Hk & N & E2)]; rewrite E2; [left|right].
      * split; [reflexivity|]. intros k Hk. destruct (Z.eq_dec k i) as [->|]; [lia|]. apply F; lia.
      * exists k. repeat split; try assumption; lia.
    + right. exists i. split; [lia|]. split; [lia|]. reflexivity.
Qed.

(** The octets of the field that carry the value. *)
Definition evp_used (f : Z) : Z := if f =? 0 then 0 else if f =? 3 then 3 else 1.

Lemma bcd_decode_iff b : is_byte b ->
  (bcd_valid b /\ exists u, bcd_decode b = Ok u /\ 0 <= u <= 99 /\ u = 10 * (b mod 16) + b / 16) \/
  (~ bcd_valid b /\ bcd_decode b = Err (BcdInvalidOctet b)).
Proof.
  intros H. rewrite bcd_decode_spec by assumption. unfold bcd_valid, is_byte in *.
  destruct ((b mod 16 <=? 9) && (b / 16 <=? 9)) eqn:E; [left|right]; (split; [lia|]); [|reflexivity].
  eexists; split; [reflexivity|lia].
Qed.

Lemma enhanced_accept src : Forall is_byte src ->
  (exists r, vp_unmarshal_enhanced src = Ok r) <->
  7 <= len src /\ let f := nth 0 src 0 mod 8 in
  f <= 3 /\ (f = 3 -> bcd_valid (nth 1 src 0) /\ bcd_valid (nth 2 src 0) /\ bcd_valid (nth 3 src 0)) /\
  forall k, evp_used f < k <= 6 -> nth (Z.to_nat k) src 0 = 0.
Proof.
  intros HB. unfold vp_unmarshal_enhanced. cbv zeta.
  destruct (len src <? 7) eqn:E7.
  { split; [intros (r & H); discriminate|lia]. }
  rewrite (idx_nth src 0 0), (idx_nth src 1 0), (idx_nth src 2 0), (idx_nth src 3 0) by lia.
  change (Z.to_nat 0) with 0%nat. change (Z.to_nat 1) with 1%nat. change (Z.to_nat 2) with 2%nat.
  change (Z.to_nat 3) with 3%nat. cbn [bind]. rewrite land7.
  assert (HN : forall i, (i < 7)%nat -> is_byte (nth i src 0)).
  { intros i Hi. rewrite Forall_forall in HB. apply HB, nth_In. unfold len in E7. lia. }
  pose proof (HN 0%nat ltac:(lia)) as H0. pose proof (HN 1%nat ltac:(lia)) as H1.
  pose proof (HN 2%nat ltac:(lia)) as H2. pose proof (HN 3%nat ltac:(lia)) as H3.
  set (b0 := nth 0 src 0) in *. set (b1 := nth 1 src 0) in *. set (b2 := nth 2 src 0) in *.
  set (b3 := nth 3 src 0) in *. unfold is_byte in H0.
  unfold EvpfRelativeHHMMSS, EvpfRelative, EvpfRelativeSeconds, EvpfNotPresent, evp_used.
  assert (FILL : forall used, 0 <= used <= 6 ->
    ((exists r : Z * Z, (_ <- check_fill src (used + 1) (Z.to_nat (6 - used)) ;; Ok r) = Ok r) <->
     forall k, used < k <= 6 -> nth (Z.to_nat k) src 0 = 0)).
  { intros used Hu. destruct (check_fill_iff src (Z.to_nat (6 - used)) (used + 1) ltac:(lia) ltac:(lia))
      as [(-> & F)|(k & Hk & N & ->)]; cbn [bind].
    - split; [intros _ k Hk; apply F; lia|intros _; exists (0, 0); reflexivity].
    - split; [intros (r & E); discriminate|intros F; exfalso; apply N, F; lia]. }
  assert (GEN : forall used (d : Z), 0 <= used <= 6 ->
    ((exists r : Z * Z, (_ <- check_fill src (used + 1) (Z.to_nat (6 - used)) ;; Ok (b0, d)) = Ok r) <->
     forall k, used < k <= 6 -> nth (Z.to_nat k) src 0 = 0)).
  { intros used d Hu. rewrite <- (FILL used Hu).
    destruct (check_fill src (used + 1) (Z.to_nat (6 - used))); cbn [bind];
      split; intros (r & E); try discriminate; [exists (0, 0)|exists (b0, d)]; reflexivity. }
  destruct (b0 mod 8 =? 0) eqn:F0.
  { cbn [bind]. rewrite (GEN 0 0) by lia. split; [intros F|intros (_ & _ & _ & F); exact F].
    repeat split; try lia; exact F. }
  destruct (b0 mod 8 =? 1) eqn:F1.
  { cbn [bind]. replace (b0 mod 8 =? 3) with false by lia.
    rewrite (GEN 1) by lia. split; [intros F|intros (_ & _ & _ & F); exact F].
    repeat split; try lia; exact F. }
  destruct (b0 mod 8 =? 2) eqn:F2.
  { cbn [bind]. replace (b0 mod 8 =? 3) with false by lia.
    rewrite (GEN 1) by lia. split; [intros F|intros (_ & _ & _ & F); exact F].
    repeat split; try lia; exact F. }
  destruct (b0 mod 8 =? 3) eqn:F3.
  - destruct (bcd_decode_iff b1 H1) as [(V1 & u1 & -> & _)|(V1 & ->)]; cbn [on_err bind].
    2:{ split; [intros (r & E); discriminate|]. intros (_ & _ & V & _). destruct V; [lia|]. tauto. }
    destruct (bcd_decode_iff b2 H2) as [(V2 & u2 & -> & _)|(V2 & ->)]; cbn [on_err bind].
    2:{ split; [intros (r & E); discriminate|]. intros (_ & _ & V & _). destruct V; [lia|]. tauto. }
    destruct (bcd_decode_iff b3 H3) as [(V3 & u3 & -> & _)|(V3 & ->)]; cbn [on_err bind].
    2:{ split; [intros (r & E); discriminate|]. intros (_ & _ & V & _). destruct V; [lia|]. tauto. }
    rewrite (GEN 3) by lia. split; [intros F|intros (_ & _ & _ & F); exact F].
    split; [lia|]. split; [lia|]. split; [auto|exact F].
  - cbn [bind]. split; [intros (r & E); discriminate|]. intros (_ & Hf & _). lia.
Qed.

(** * Safety and locality *)
Lemma check_fill_safe src n : forall m i, Forall is_byte src -> 0 <= i -> i + Z.of_nat n <= len src ->
  len src <= m -> safe m (check_fill src i n).
Proof.
  intros m i _ Hi HL Hm. destruct (check_fill_iff src n i Hi HL) as [(-> & _)|(k & Hk & _ & ->)];
    cbn; [exact I|lia].
Qed.

Lemma vp_enhanced_safe src : Forall is_byte src -> safe (len src) (vp_unmarshal_enhanced src).
Proof.
  intros HB. unfold vp_unmarshal_enhanced. destruct (len src <? 7) eqn:E7; [exact I|].
  destruct (idx_ok src 0 ltac:(lia)) as (efi & -> & _).
  destruct (idx_ok src 1 ltac:(lia)) as (b1 & -> & I1).
  destruct (idx_ok src 2 ltac:(lia)) as (b2 & -> & I2).
  destruct (idx_ok src 3 ltac:(lia)) as (b3 & -> & I3). cbn [bind].
  rewrite Forall_forall in HB. pose proof (HB _ I1). pose proof (HB _ I2). pose proof (HB _ I3).
  rewrite <- Forall_forall in HB.
  unfold EvpfRelativeHHMMSS, EvpfRelative, EvpfRelativeSeconds, EvpfNotPresent.
  assert (GEN : forall used (d : Z), 0 <= used <= 6 ->
    safe (len src) (_ <- check_fill src (used + 1) (Z.to_nat (6 - used)) ;; Ok (efi, d))).
  { intros used d Hu. apply bind_safe; [|intros; exact I]. apply check_fill_safe; try assumption; lia. }
  destruct (Z.land efi 7 =? 0); [cbn [bind]; apply (GEN 0); lia|].
  destruct (Z.land efi 7 =? 1); [cbn [bind]; apply (GEN 1); lia|].
  destruct (Z.land efi 7 =? 2); [cbn [bind]; apply (GEN 1); lia|].
  destruct (Z.land efi 7 =? 3); [|cbn; lia].
  destruct (bcd_decode_safe b1) as [(u1 & -> & _)| ->]; [assumption| |cbn; lia]. cbn [on_err bind].
  destruct (bcd_decode_safe b2) as [(u2 & -> & _)| ->]; [assumption| |cbn; lia]. cbn [on_err bind].
  destruct (bcd_decode_safe b3) as [(u3 & -> & _)| ->]; [assumption| |cbn; lia]. cbn [on_err bind].
  apply (GEN 3); lia.
Qed.

Lemma vp_unmarshal_safe v src f : Forall is_byte src -> safe (len src) (vp_unmarshal v src f).
Proof.
  intros HB. pose proof (len_nonneg src). unfold vp_unmarshal.
  destruct (f =? VpfAbsolute).
  { apply bind_safe; [now apply ts_unmarshal_safe|]. intros; exact I. }
  destruct (f =? VpfEnhanced).
  { apply bind_safe; [now apply vp_enhanced_safe|]. intros [a b] _; exact I. }
  destruct (f =? VpfRelative).
  { destruct (len src <? 1) eqn:E; [exact I|]. destruct (idx_ok src 0 ltac:(lia)) as (b & -> & _). exact I. }
  destruct (f =? VpfNotPresent); [exact I|cbn; lia].
Qed.

Lemma vp_unmarshal_size v src f v' n : vp_unmarshal v src f = Ok (v', n) ->
  0 <= n <= len src /\ vp_format v' = f /\ 0 <= f <= 3 /\ n = vp_size f.
Proof.
  unfold vp_unmarshal. pose proof (len_nonneg src).
  destruct (f =? VpfAbsolute) eqn:F3.
  { intros H0. apply bind_ok in H0 as (t & Et & H0). apply ok_pair in H0 as [<- <-].
    apply ts_unmarshal_len in Et. unfold VpfAbsolute in *. cbn [vp_format].
    replace f with 3 by lia. repeat split; cbn; lia. }
  destruct (f =? VpfEnhanced) eqn:F1.
  { intros H0. apply bind_ok in H0 as ([efi d] & Et & H0). apply ok_pair in H0 as [<- <-].
    unfold vp_unmarshal_enhanced in Et. destruct (len src <? 7) eqn:E7; [discriminate|].
    unfold VpfEnhanced in *. cbn [vp_format]. replace f with 1 by lia. repeat split; cbn; lia. }
  destruct (f =? VpfRelative) eqn:F2.
  { destruct (len src <? 1) eqn:E; [discriminate|]. intros H0. apply bind_ok in H0 as (b & _ & H0).
    apply ok_pair in H0 as [<- <-]. unfold VpfRelative in *. cbn [vp_format].
    replace f with 2 by lia. repeat split; cbn; lia. }
  destruct (f =? VpfNotPresent) eqn:F0; [|discriminate].
  intros H0. apply ok_pair in H0 as [<- <-]. unfold VpfNotPresent in *. cbn [vp_format].
  replace f with 0 by lia. repeat split; cbn; lia.
Qed.

Lemma check_fill_local src ext n : forall i, 0 <= i -> i + Z.of_nat n <= len src ->
  check_fill (src ++ ext) i n = check_fill src i n.
Proof.
  induction n as [|n IH]; intros i Hi HL; [reflexivity|]. cbn [check_fill].
  rewrite idx_app_l by lia. rewrite IH by lia. reflexivity.
Qed.

Lemma vp_unmarshal_local v src f ext r :
  vp_unmarshal v src f = Ok r -> vp_unmarshal v (src ++ ext) f = Ok r.
Proof.
  unfold vp_unmarshal. pose proof (len_nonneg src). pose proof (len_nonneg ext).
  destruct (f =? VpfAbsolute) eqn:F3.
  { intros H1. apply bind_ok in H1 as (t & Et & H1).
    rewrite (ts_unmarshal_local _ ext _ Et). exact H1. }
  destruct (f =? VpfEnhanced) eqn:F1.
  { unfold vp_unmarshal_enhanced. rewrite len_app. destruct (len src <? 7) eqn:E7; [discriminate|].
    replace (len src + len ext <? 7) with false by lia. rewrite !idx_app_l by lia.
    intros H1. apply bind_ok in H1 as ([efi d] & E & H1). rewrite <- H1. clear H1.
    apply bind_ok in E as (b0 & E0 & E). rewrite E0. cbn [bind]. 
    apply bind_ok in E as ([d' used] & Eu & E). rewrite Eu. cbn [bind].
    assert (Hu : 0 <= used <= 3).
    { unfold EvpfRelativeHHMMSS, EvpfRelative, EvpfRelativeSeconds, EvpfNotPresent in Eu.
      destruct (Z.land b0 7 =? 0); [apply ok_pair in Eu; lia|].
      destruct (Z.land b0 7 =? 1); [apply bind_ok in Eu as (? & _ & Eu); apply ok_pair in Eu; lia|].
      destruct (Z.land b0 7 =? 2); [apply bind_ok in Eu as (? & _ & Eu); apply ok_pair in Eu; lia|].
      destruct (Z.land b0 7 =? 3); [|discriminate].
      do 6 (apply bind_ok in Eu as (? & _ & Eu)). apply ok_pair in Eu; lia. }
    rewrite check_fill_local by lia. rewrite E. reflexivity. }
  destruct (f =? VpfRelative) eqn:F2.
  { rewrite len_app. destruct (len src <? 1) eqn:E; [discriminate|].
    replace (len src + len ext <? 1) with false by lia. rewrite idx_app_l by lia. auto. }
  destruct (f =? VpfNotPresent); auto.
Qed.
