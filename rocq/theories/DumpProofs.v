(** What Unmarshal returns can be dumped, and its dump shows it. *)
From Coq Require Import String Ascii.
From Verif Require Import GoBase GoLemmas SafeLemmas Utf UtfProofs Dcs FirstOctet TpduError Address GoTime
  ValidityPeriod UserData Tpdu SegmentProofs Sms SpecDigits SpecSegment SpecTime SpecVP SpecTpdu Bcd TimeProofs VPProofs TpduSafeProofs
  TpduLeft SpecLeft LeftProofs SpecAccept AcceptProofs PduMode PduModeProofs Collector CollectorMsgProofs Cmd CmdProofs
  Print SpecPrint PrintProofs.

(** ** Decoded times and validity periods *)
Lemma year_in_range n y m d : civil_of_days n = (y, m, d) -> -300 <= n < 3600000 -> 0 <= y <= 9999.
Proof.
  intros E H. destruct (civil_all n) as (_ & O & D). rewrite E in O, D. cbn [date_ok day_number] in *.
  assert (L : month_len y m <= 31).
  { rewrite month_len_mlen. 
    pose proof (zrange_sweep 13 (fun m => (mlen true m <=? 31) && (mlen false m <=? 31)) ltac:(vm_compute; reflexivity) m ltac:(lia)) as X.
    cbn beta in X. destruct (is_leap y); lia. }
  assert (B : 0 <= days_before_month (is_leap y) m <= 335).
  { pose proof (zrange_sweep 13 (fun m => (m =? 0) || ((0 <=? days_before_month true m) && (days_before_month true m <=? 335) &&
      (0 <=? days_before_month false m) && (days_before_month false m <=? 335))) ltac:(vm_compute; reflexivity) m ltac:(lia)) as X.
    cbn beta in X. destruct (is_leap y); lia. }
  assert (B12 : days_before_month (is_leap y) m + d <= 366).
  { pose proof (zrange_sweep 13 (fun m => (m =? 0) || ((days_before_month true m + mlen true m <=? 366) &&
      (days_before_month false m + mlen false m <=? 366))) ltac:(vm_compute; reflexivity) m ltac:(lia)) as X.
    cbn beta in X. rewrite month_len_mlen in O. destruct (is_leap y); lia. }
  unfold days_before_year in D. assert (1 <= d) by lia. clear E O L. split.
  - destruct (Z_le_gt_dec 0 y); [assumption|exfalso]. lia.
  - destruct (Z_le_gt_dec y 9999); [assumption|exfalso]. lia.
Qed.

Lemma before_month_small leap m : 1 <= m <= 12 -> 0 <= days_before_month leap m <= 335.
Proof.
  intros H. pose proof (zrange_sweep 13 (fun m => (m =? 0) || ((0 <=? days_before_month true m) && (days_before_month true m <=? 335) &&
      (0 <=? days_before_month false m) && (days_before_month false m <=? 335))) ltac:(vm_compute; reflexivity) m ltac:(lia)) as X.
  cbn beta in X. destruct leap; lia.
Qed.

Lemma ts_decoded src t : Forall is_byte src -> ts_unmarshal src = Ok t -> time_ok t.
Proof.
  intros HB E. pose proof (ts_unmarshal_cases src HB) as [(_ & X)|[(_ & b & X & _)|(_ & t' & X & N & q & O & Q)]];
    [congruence|congruence|]. assert (t' = t) as -> by congruence. clear X.
  split; [assumption|]. split; [|exists (15 * q); lia].
  unfold ts_unmarshal in E. destruct (len src <? 7) eqn:E7; [discriminate|].
  destruct src as [|b0 [|b1 [|b2 [|b3 [|b4 [|b5 [|b6 rest]]]]]]]; try discriminate.
  destruct (idx_seven b0 b1 b2 b3 b4 b5 b6 rest) as (I0 & I1 & I2 & I3 & I4 & I5 & I6).
  rewrite I0, I1, I2, I3, I4, I5, I6 in E. cbn [bind] in E.
  rewrite !Forall_cons_iff in HB. destruct HB as (H0 & H1 & H2 & H3 & H4 & H5 & H6 & _).
  destruct (bcd_decode_safe b0 H0) as [(y & R & Y)|R]; rewrite R in E; [|discriminate]; cbn [bind] in E; clear R.
  destruct (bcd_decode_safe b1 H1) as [(mo & R & MO)|R]; rewrite R in E; [|discriminate]; cbn [bind] in E; clear R.
  destruct (bcd_decode_safe b2 H2) as [(d & R & D)|R]; rewrite R in E; [|discriminate]; cbn [bind] in E; clear R.
  destruct (bcd_decode_safe b3 H3) as [(h & R & HH)|R]; rewrite R in E; [|discriminate]; cbn [bind] in E; clear R.
  destruct (bcd_decode_safe b4 H4) as [(mi & R & MI)|R]; rewrite R in E; [|discriminate]; cbn [bind] in E; clear R.
  destruct (bcd_decode_safe b5 H5) as [(s & R & S)|R]; rewrite R in E; [|discriminate]; cbn [bind] in E; clear R.
  apply bind_ok in E as (tz & _ & E). apply ok_inj in E. subst t. clear O N Q q.
  unfold year_of_time, t_date, t_local, go_date. cbv zeta. cbn [t_unix t_off].
  set (yr := if y <? 70 then y + 2000 else y + 1900).
  assert (YR : 1970 <= yr <= 2069) by (subst yr; destruct (y <? 70) eqn:?; lia). clearbody yr.
  set (yy := yr + (mo - 1) / 12). set (mm := (mo - 1) mod 12 + 1).
  assert (YY : 1969 <= yy <= 2078) by (subst yy; lia). assert (MM : 1 <= mm <= 12) by (subst mm; lia). clearbody yy mm.
  pose proof (before_month_small (is_leap yy) mm MM) as BM. set (bm := days_before_month (is_leap yy) mm) in *. clearbody bm.
  assert (DY : 718000 <= days_before_year yy <= 759000) by (unfold days_before_year; lia).
  set (dy := days_before_year yy) in *. clearbody dy. unfold unix_epoch_day in *.
  match goal with |- context [civil_of_days ?n] => assert (NB : -300 <= n < 3600000) by lia; destruct (civil_of_days n) as [[y1 m1] d1] eqn:EC;
    exact (year_in_range n y1 m1 d1 EC NB) end.
Qed.

Lemma zero_time_ok : time_ok zero_time.
Proof. split; [reflexivity|]. split; [vm_compute; split; discriminate|]. exists 0. cbn. lia. Qed.

Lemma relative_whole b : is_byte b -> whole (relative_to_duration b).
Proof.
  intros H. pose proof (zrange_sweep 256 (fun b => (0 <=? relative_to_duration b) && (relative_to_duration b mod 1000000000 =? 0))
    ltac:(vm_compute; reflexivity) b ltac:(unfold is_byte in H; lia)) as X. cbn beta in X.
  exists (relative_to_duration b / 1000000000). lia.
Qed.

Lemma idx_byte (src : bytes) i b : Forall is_byte src -> idx src i = Ok b -> is_byte b.
Proof.
  intros H E. unfold idx in E. destruct (i <? 0); [discriminate|]. destruct (nth_error src (Z.to_nat i)) eqn:N; [|discriminate].
  apply ok_inj in E. subst. apply nth_error_In in N. rewrite Forall_forall in H. auto.
Qed.

Lemma enhanced_decoded src efi d : Forall is_byte src -> vp_unmarshal_enhanced src = Ok (efi, d) ->
  is_byte efi /\ whole d /\ 0 <= Z.land efi 7 <= 3.
Proof.
  intros HB E. unfold vp_unmarshal_enhanced in E. destruct (len src <? 7); [discriminate|].
  apply bind_ok in E as (e & Ee & E). cbv zeta in E. apply bind_ok in E as ([d' used] & E & E2).
  apply bind_ok in E2 as (u & _ & E2). apply ok_pair in E2 as [<- <-].
  pose proof (idx_byte _ _ _ HB Ee) as EB. split; [assumption|].
  destruct (Z.land e 7 =? EvpfNotPresent) eqn:C0.
  { apply ok_pair in E as [<- _]. split; [exists 0; lia|unfold EvpfNotPresent in C0; lia]. }
  destruct (Z.land e 7 =? EvpfRelative) eqn:C1.
  { apply bind_ok in E as (b & Eb & E). apply ok_pair in E as [<- _].
    split; [apply relative_whole; exact (idx_byte _ _ _ HB Eb)|unfold EvpfRelative in C1; lia]. }
  destruct (Z.land e 7 =? EvpfRelativeSeconds) eqn:C2.
  { apply bind_ok in E as (b & Eb & E). apply ok_pair in E as [<- _]. apply idx_byte in Eb; [|assumption].
    split; [exists b; unfold ns_second, is_byte in *; lia|unfold EvpfRelativeSeconds in C2; lia]. }
  destruct (Z.land e 7 =? EvpfRelativeHHMMSS) eqn:C3; [|discriminate].
  apply bind_ok in E as (b1 & I1 & E). apply bind_ok in E as (h & D1 & E). apply bind_ok in E as (b2 & I2 & E).
  apply bind_ok in E as (m & D2 & E). apply bind_ok in E as (b3 & I3 & E). apply bind_ok in E as (s & D3 & E).
  apply ok_pair in E as [<- _].
  apply idx_byte in I1; [|assumption]. apply idx_byte in I2; [|assumption]. apply idx_byte in I3; [|assumption].
  destruct (bcd_decode_safe b1 I1) as [(u1 & R & U1)|R]; rewrite R in D1; [|discriminate]; cbn in D1; apply ok_inj in D1; subst u1.
  destruct (bcd_decode_safe b2 I2) as [(u1 & R2 & U2)|R2]; rewrite R2 in D2; [|discriminate]; cbn in D2; apply ok_inj in D2; subst u1.
  destruct (bcd_decode_safe b3 I3) as [(u1 & R3 & U3)|R3]; rewrite R3 in D3; [|discriminate]; cbn in D3; apply ok_inj in D3; subst u1.
  split; [exists (h * 3600 + m * 60 + s); unfold ns_hour, ns_minute, ns_second; lia|unfold EvpfRelativeHHMMSS in C3; lia].
Qed.

Lemma vp_decoded v src f v' n : Forall is_byte src -> vp_shows v -> vp_unmarshal v src f = Ok (v', n) -> vp_shows v'.
Proof.
  intros HB (F & T & W & B & K) E. unfold vp_unmarshal in E.
  destruct (f =? VpfAbsolute) eqn:C0.
  { apply bind_ok in E as (t & Et & E). apply ok_pair in E as [<- _]. unfold vp_shows. cbn [vp_format vp_time vp_duration vp_efi].
    unfold VpfAbsolute, VpfEnhanced in *. split; [lia|]. split; [exact (ts_decoded _ _ HB Et)|].
    split; [assumption|]. split; [assumption|]. lia. }
  destruct (f =? VpfEnhanced) eqn:C1.
  { apply bind_ok in E as ([efi d] & Et & E). apply ok_pair in E as [<- _]. unfold vp_shows. cbn [vp_format vp_time vp_duration vp_efi].
    apply enhanced_decoded in Et as (X & Y & Z); [|assumption]. unfold VpfEnhanced in *.
    split; [lia|]. split; [assumption|]. split; [assumption|]. split; [assumption|]. intros _; assumption. }
  destruct (f =? VpfRelative) eqn:C2.
  { destruct (len src <? 1); [discriminate|]. apply bind_ok in E as (b & Eb & E). apply ok_pair in E as [<- _].
    unfold vp_shows. cbn [vp_format vp_time vp_duration vp_efi]. unfold VpfEnhanced, VpfRelative in *.
    split; [lia|]. split; [assumption|]. split; [apply relative_whole; exact (idx_byte _ _ _ HB Eb)|]. split; [assumption|]. lia. }
  destruct (f =? VpfNotPresent) eqn:C3; [|discriminate]. apply ok_pair in E as [<- _].
  unfold vp_shows. cbn [vp_format vp_time vp_duration vp_efi]. unfold VpfEnhanced, VpfNotPresent in *.
  split; [lia|]. split; [assumption|]. split; [assumption|]. split; [assumption|]. lia.
Qed.

(** ** Kept by every field reader *)
Definition times_ok (t : tpdu) : Prop := time_ok (SCTS t) /\ time_ok (DT t) /\ vp_shows (VP t).
Definition keeps (r : reader) : Prop := forall t b t' b', Forall is_byte b -> times_ok t ->
  r_run r t b = Ok (Some (t', b')) -> times_ok t' /\ Forall is_byte b'.
Lemma go_keeps rs total : Forall keeps rs -> forall t b l, Forall is_byte b -> times_ok t -> go rs total t b = (l, Ok tt) -> times_ok l.
Proof.
  induction 1 as [|r rs K H IH]; intros t b l HB HT E; cbn [go] in E.
  - apply (f_equal fst) in E. cbn in E. now subst.
  - destruct (r_run r t b) as [[[t' b']|]|e| |] eqn:R; try discriminate.
    + destruct (K _ _ _ _ HB HT R) as (HT' & HB'). now apply IH in E.
    + apply (f_equal fst) in E. cbn in E. now subst.
Qed.

Definition leaves (set : tpdu -> Z -> tpdu) := forall t x, SCTS (set t x) = SCTS t /\ DT (set t x) = DT t /\ VP (set t x) = VP t.
Lemma keep_byte f set e : leaves set -> keeps (rd_byte f set e).
Proof.
  intros L t b t' b' HB (A & B & C) E. cbn [rd_byte r_run] in E. destruct b as [|x b]; [discriminate|].
  apply some_pair in E as [<- <-]. destruct (L t x) as (E1 & E2 & E3). unfold times_ok. rewrite E1, E2, E3.
  apply Forall_cons_iff in HB as [_ HB]. auto.
Qed.
Lemma keep_into f set : leaves set -> keeps (rd_into f set).
Proof. intros L. exact (keep_byte f set EOF L). Qed.
Lemma keep_opt f set c : leaves set -> keeps (rd_opt f set c).
Proof.
  intros L t b t' b' HB HT E. cbn [rd_opt r_run] in E. destruct (c (PI t)).
  - exact (keep_byte f set ErrUnderflow L t b t' b' HB HT E).
  - apply some_pair in E as [<- <-]. auto.
Qed.
Lemma keep_last_pi : keeps rd_last_pi.
Proof.
  intros t b t' b' HB (A & B & C) E. cbn [rd_last_pi r_run] in E. destruct b as [|x b]; [discriminate|].
  apply some_pair in E as [<- <-]. apply Forall_cons_iff in HB as [_ HB]. split; [|assumption]. dtpdu t. split; auto.
Qed.
Lemma keep_addr f set : (forall t x, SCTS (set t x) = SCTS t /\ DT (set t x) = DT t /\ VP (set t x) = VP t) -> keeps (rd_addr f set).
Proof.
  intros L t b t' b' HB (A & B & C) E. cbn [rd_addr r_run] in E. apply bind_ok in E as ([a n] & _ & E).
  apply some_pair in E as [<- <-]. destruct (L t (fst (a, n))) as (E1 & E2 & E3). unfold times_ok. rewrite E1, E2, E3.
  split; [auto|]. now apply Forall_skipn'.
Qed.
Lemma keep_dcs8 : keeps rd_dcs8.
Proof. intros t b t' b' HB (A & B & C) E. cbn [rd_dcs8 r_run] in E. apply some_pair in E as [<- <-]. split; [|assumption]. dtpdu t. split; auto. Qed.
Lemma keep_vp : keeps rd_vp.
Proof.
  intros t b t' b' HB (A & B & C) E. cbn [rd_vp r_run] in E. apply bind_ok in E as ([v n] & Ev & E).
  apply some_pair in E as [<- <-]. split; [|now apply Forall_skipn']. apply vp_decoded in Ev; [|assumption..].
  dtpdu t. split; auto.
Qed.
Lemma keep_scts : keeps (rd_ts F_SCTS set_SCTS).
Proof.
  intros t b t' b' HB (A & B & C) E. cbn [rd_ts r_run] in E. apply bind_ok in E as (ts & Ev & E).
  apply some_pair in E as [<- <-]. split; [|now apply Forall_skipn']. apply ts_decoded in Ev; [|assumption]. dtpdu t. split; auto.
Qed.
Lemma keep_dt : keeps (rd_ts F_DT set_DT).
Proof.
  intros t b t' b' HB (A & B & C) E. cbn [rd_ts r_run] in E. apply bind_ok in E as (ts & Ev & E).
  apply some_pair in E as [<- <-]. split; [|now apply Forall_skipn']. apply ts_decoded in Ev; [|assumption]. dtpdu t. split; auto.
Qed.
Lemma keep_ud c : keeps (rd_ud c).
Proof.
  intros t b t' b' HB HT E. cbn [rd_ud r_run] in E. destruct (c (PI t)).
  - apply bind_ok in E as (t1 & Ed & E). apply some_pair in E as [<- <-]. split; [|constructor].
    pose proof (decode_ud_agree t b t1 F_SCTS Ed ltac:(discriminate)) as E1.
    pose proof (decode_ud_agree t b t1 F_DT Ed ltac:(discriminate)) as E2.
    pose proof (decode_ud_agree t b t1 F_VP Ed ltac:(discriminate)) as E3.
    cbn [agree] in E1, E2, E3. unfold times_ok. now rewrite E1, E2, E3.
  - apply some_pair in E as [<- <-]. split; [assumption|constructor].
Qed.

Lemma readers_keep st : Forall keeps (readers st).
Proof.
  assert (L : leaves set_MR /\ leaves set_PIDf /\ leaves set_CT /\ leaves set_MN /\ leaves set_DCSf /\ leaves set_FCS /\ leaves set_PI /\ leaves set_ST).
  { repeat split; intros; dtpdu t; reflexivity. }
  destruct L as (L1 & L2 & L3 & L4 & L5 & L6 & L7 & L8).
  assert (O : Forall keeps optionals).
  { unfold optionals. apply Forall_cons; [now apply keep_opt|]. apply Forall_cons; [now apply keep_opt|]. apply Forall_cons; [apply keep_ud|constructor]. }
  assert (A1 : keeps (rd_addr F_OA set_OA)) by (apply keep_addr; intros; dtpdu t; auto).
  assert (A2 : keeps (rd_addr F_DA set_DA)) by (apply keep_addr; intros; dtpdu t; auto).
  assert (A3 : keeps (rd_addr F_RA set_RA)) by (apply keep_addr; intros; dtpdu t; auto).
  unfold readers. repeat match goal with |- context [if ?c then _ else _] => destruct c end;
  repeat (apply Forall_cons; [first [assumption|apply keep_into; assumption|apply keep_byte; assumption|apply keep_scts|apply keep_dt|
    apply keep_last_pi|apply keep_dcs8|apply keep_vp|apply keep_ud]|]); first [assumption|constructor].
Qed.

Lemma unmarshal_times src mo t : Forall is_byte src -> unmarshal src mo = Ok t -> times_ok t.
Proof.
  intros HB E. unfold unmarshal in E. set (t0 := set_Direction zero_tpdu (if mo then MO else MT)) in *.
  destruct src as [|fo s]; [discriminate|]. apply Forall_cons_iff in HB as [_ HB].
  destruct (known_type (tpdu_type (set_FO t0 fo))) eqn:K.
  - apply go_bytes_prefix in E; [|assumption..]. eapply go_keeps; [apply readers_keep|exact HB| |exact E].
    split; [exact zero_time_ok|]. split; [exact zero_time_ok|].
    change (VP (set_FO t0 fo)) with vp_zero. split; [cbn; lia|]. split; [exact zero_time_ok|].
    split; [exists 0; cbn; lia|]. split; [unfold is_byte; cbn; lia|]. discriminate.
  - exfalso. rewrite <- outcome_unmarshal, unmarshal_left_go in E by assumption. cbv zeta in E. rewrite K in E. discriminate.
Qed.

Lemma unmarshal_dumpable src mo t : Forall is_byte src -> unmarshal src mo = Ok t -> dumpable t.
Proof.
  intros HB E. pose proof (unmarshal_sound src mo t HB E) as ((O & _) & (H1 & H2) & _).
  pose proof (unmarshal_times src mo t HB E) as (T1 & T2 & T3).
  split; [assumption|]. split; [assumption|]. split; [assumption|]. split; [assumption|]. split.
  - destruct (UDH t) as [l|]; [|exact I]. destruct H1 as (_ & _ & H1). eapply Forall_impl; [|exact H1].
    intros i (A & B & _). now split.
  - destruct H2 as [->|[(_ & H2)|[(_ & H2)|(_ & H2 & _)]]]; [constructor| |assumption|assumption].
    eapply Forall_impl; [|exact H2]. unfold is_septet, is_byte. intros. lia.
Qed.

(** The dump of a TPDU does not fail if its printing does not. *)
Lemma dump_text_ok t : dump_tpdu t = Ok tt -> exists d, dump_text t = Ok d.
Proof.
  unfold dump_tpdu, dump_text. cbv zeta. intros H.
  destruct ((0 <=? tpdu_type t) && (tpdu_type t <=? SmsCommand)) eqn:R; [|discriminate].
  destruct (tpdu_type t =? SmsCommand) eqn:C.
  { unfold dump_command. cbn [bind]. now eexists. }
  assert (X : exists r, dump_tail t = Ok r).
  { unfold dump_tail. destruct (UDH t) as [l|]; [|cbn [bind]; now eexists]. destruct l as [|i l]; [discriminate|].
    unfold dump_udh. rewrite idx_0. cbn [bind]. now eexists. }
  destruct X as (r & X). unfold dump_deliver, dump_deliver_report, dump_status_report, dump_submit, dump_submit_report. rewrite X. cbn [bind].
  unfold SmsCommand, SmsDeliver, SmsDeliverReport, SmsStatusReport, SmsSubmit, SmsSubmitReport in *.
  assert (T : tpdu_type t = 0 \/ tpdu_type t = 1 \/ tpdu_type t = 2 \/ tpdu_type t = 3 \/ tpdu_type t = 4) by lia.
  destruct T as [-> |[-> |[-> |[-> | ->]]]]; cbn [Z.eqb Pos.eqb]; now eexists.
Qed.
