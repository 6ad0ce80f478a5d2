(** Proofs about marshalling and unmarshalling TPDUs: round trips. *)
From Verif Require Import GoBase GoLemmas SafeLemmas SpecText SpecDigits SpecTime SpecVP Dcs FirstOctet TpduError
  Address AddressProofs GoTime TimeProofs ValidityPeriod VPProofs UserData Tpdu SpecTpdu UdProofs
  SpecBits SevenBit SevenBitProofs SpecSegment SegmentProofs SegmentFitProofs Sms.

Lemma addr_value_roundtrip a : addr_value a ->
  exists p, addr_marshal a = Ok p /\ Forall is_byte p /\ 2 <= len p /\
    forall rest, addr_unmarshal (p ++ rest) = Ok (a, len p).
Proof.
  intros [toa ds HB HT HD HL|toa rs s HB HT HU HI HN HL].
  - destruct (addr_numeric_roundtrip toa ds HT HD HL) as (p & E & L & B & _ & R).
    exists p. pose proof (len_nonneg ds). repeat split; auto. lia.
  - destruct (addr_alnum_roundtrip toa rs s HT HU HI HN HL) as (p & E & L & B & R).
    exists p. pose proof (len_nonneg rs). repeat split; auto. lia.
Qed.

Lemma time_value_roundtrip t : time_value t ->
  exists b, ts_marshal t = Ok b /\ len b = 7 /\ Forall is_byte b /\
    forall rest, ts_unmarshal (b ++ rest) = Ok t.
Proof. intros (N & L & q & O & Q). exact (ts_roundtrip t q N L O Q). Qed.

(** Reading at a known place of the input. *)
Lemma idx_at {A} (pre : list A) x post s i :
  s = pre ++ x :: post -> i = len pre -> idx s i = Ok x.
Proof. intros -> ->. apply idx_app_mid. Qed.
Lemma slice_from_at {A} (pre post : list A) s i :
  s = pre ++ post -> i = len pre -> slice_from s i = Ok post.
Proof. intros -> ->. now apply slice_from_app. Qed.
Lemma slice_at {A} (pre mid post : list A) s lo hi :
  s = pre ++ mid ++ post -> lo = len pre -> hi = lo + len mid -> slice s lo hi = Ok mid.
Proof. intros -> -> ->. now apply slice_app. Qed.
Lemma buf_next_app n (a b : bytes) : n = len a -> buf_next n (a ++ b) = b.
Proof. intros ->. unfold buf_next, len. rewrite Nat2Z.id. now apply skipn_app_exact. Qed.
(** [at_len]: lengths of concatenations; [at_app]: shapes of concatenations. *)
Ltac lens := repeat rewrite ?len_cons, ?len_app in *; try change (len (@nil Z)) with 0 in *.
Ltac at_len := lens; lia.
Ltac at_app := repeat (cbn [app]; rewrite <- ?app_assoc); reflexivity.

Lemma vp_marshal_opt v : vp_value v ->
  exists b, (if negb (vp_format v =? VpfNotPresent)
             then on_err (vp_marshal v) (encode_error "vp") else Ok []) = Ok b /\
    Forall is_byte b /\
    forall rest, vp_unmarshal vp_zero (b ++ rest) (vp_format v) = Ok (v, len b).
Proof.
  intros HV. destruct (vp_roundtrip v HV) as (b & E & B & L & _ & R).
  destruct (vp_format v =? VpfNotPresent) eqn:Ef; cbn [negb].
  - exists []. replace (vp_format v) with VpfNotPresent in * by (unfold VpfNotPresent in *; lia).
    change (vp_size VpfNotPresent) with 0 in L. apply len_0_nil in L. subst b.
    split; [reflexivity|]. split; assumption.
  - exists b. rewrite E. split; [reflexivity|]. split; assumption.
Qed.

(** ** SMS-SUBMIT *)


Lemma submit_roundtrip t : submit_wf t ->
  exists b, tpdu_marshal t = Ok b /\ Forall is_byte b /\
    unmarshal b true = Ok (submit_fields t).
Proof.
  intros (HD & HM & HFO & HMR & HDA & HPID & HDCS & HVP & HF & HUD).
  destruct (addr_value_roundtrip _ HDA) as (da & Eda & Bda & Lda & Rda).
  destruct (vp_marshal_opt _ HVP) as (vp & Evp & Bvp & Rvp).
  destruct (ud_roundtrip _ HUD) as (ud & Eud & Bud & Lud & Rud).
  exists (FO t :: MR t :: da ++ PID t :: DCS t :: vp ++ ud).
  assert (ET : forall t', FO t' = FO t -> Direction t' = MO -> tpdu_type t' = SmsSubmit).
  { intros t' E1 E2. unfold tpdu_type. rewrite E1, E2, HM. reflexivity. }
  split.
  { unfold tpdu_marshal. rewrite (ET t eq_refl HD). unfold marshal_submit.
    rewrite Eda, Eud, Evp. cbn [on_err bind]. reflexivity. }
  split.
  { repeat (constructor; [assumption|]). apply Forall_app; split; [assumption|].
    repeat (constructor; [assumption|]). now apply Forall_app. }
  unfold unmarshal, tpdu_unmarshal. pose proof (len_nonneg vp).
  set (s := MR t :: da ++ PID t :: DCS t :: vp ++ ud).
  replace (len (FO t :: s) <? 1) with false by (unfold s; at_len).
  rewrite idx_0. cbn [bind]. rewrite ET by reflexivity.
  rewrite (slice_from_at [FO t] s) by reflexivity. cbn [bind].
  change (SmsSubmit =? SmsDeliver) with false. change (SmsSubmit =? SmsDeliverReport) with false.
  change (SmsSubmit =? SmsSubmitReport) with false. change (SmsSubmit =? SmsSubmit) with true. cbv iota.
  unfold unmarshal_submit. change (set_FO (set_Direction zero_tpdu MO) (FO t))
    with (Build_tpdu MO (FO t) zero_address 0 0 0 0 zero_address zero_address 0 zero_time zero_time
            0 0 0 vp_zero None []).
  assert (Ls : len s = 3 + len da + len vp + len ud) by (unfold s; at_len).
  replace (len s <? 1) with false by lia.
  rewrite (idx_at [] (MR t) (da ++ PID t :: DCS t :: vp ++ ud)) by reflexivity. cbn [bind set_MR].
  rewrite (slice_from_at [MR t] (da ++ PID t :: DCS t :: vp ++ ud)) by reflexivity. cbn [bind].
  rewrite Rda. cbn [on_err bind set_DA].
  replace (len s <=? 1 + len da) with false by lia.
  rewrite (idx_at (MR t :: da) (PID t) (DCS t :: vp ++ ud)) by (reflexivity || at_len).
  cbn [bind set_PIDf].
  replace (len s <=? 1 + len da + 1) with false by lia.
  rewrite (idx_at (MR t :: da ++ [PID t]) (DCS t) (vp ++ ud)) by (unfold s; at_app || at_len).
  cbn [bind set_DCSf].
  rewrite (slice_from_at (MR t :: da ++ [PID t; DCS t]) (vp ++ ud)) by (unfold s; at_app || at_len).
  cbn [bind FO VP]. rewrite HF, Rvp. cbn [on_err bind set_VPf].
  rewrite (slice_from_at (MR t :: da ++ PID t :: DCS t :: vp) ud) by (unfold s; at_app || at_len).
  cbn [bind].
  rewrite Rud by reflexivity. cbn [on_err set_UDf set_UDHf]. reflexivity.
Qed.

(** ** SMS-DELIVER *)


Lemma deliver_roundtrip t : deliver_wf t ->
  exists b, tpdu_marshal t = Ok b /\ Forall is_byte b /\
    unmarshal b false = Ok (deliver_fields t).
Proof.
  intros (HD & HM & HFO & HOA & HPID & HDCS & HTS & HUD).
  destruct (addr_value_roundtrip _ HOA) as (oa & Eoa & Boa & Loa & Roa).
  destruct (time_value_roundtrip _ HTS) as (ts & Ets & Lts & Bts & Rts).
  destruct (ud_roundtrip _ HUD) as (ud & Eud & Bud & Lud & Rud).
  exists (FO t :: oa ++ PID t :: DCS t :: ts ++ ud).
  assert (ET : forall t', FO t' = FO t -> Direction t' = MT -> tpdu_type t' = SmsDeliver).
  { intros t' E1 E2. unfold tpdu_type. rewrite E1, E2, HM. reflexivity. }
  split.
  { unfold tpdu_marshal. rewrite (ET t eq_refl HD). unfold marshal_deliver.
    rewrite Eoa, Ets, Eud. cbn [on_err bind]. reflexivity. }
  split.
  { repeat (constructor; [assumption|]). apply Forall_app; split; [assumption|].
    repeat (constructor; [assumption|]). now apply Forall_app. }
  unfold unmarshal, tpdu_unmarshal.
  set (s := oa ++ PID t :: DCS t :: ts ++ ud).
  replace (len (FO t :: s) <? 1) with false by (unfold s; at_len).
  rewrite idx_0. cbn [bind]. rewrite ET by reflexivity.
  rewrite (slice_from_at [FO t] s) by reflexivity. cbn [bind].
  change (SmsDeliver =? SmsDeliver) with true. cbv iota.
  unfold unmarshal_deliver. change (set_FO (set_Direction zero_tpdu MT) (FO t))
    with (Build_tpdu MT (FO t) zero_address 0 0 0 0 zero_address zero_address 0 zero_time zero_time
            0 0 0 vp_zero None []).
  unfold s. rewrite Roa. fold s. cbn [on_err bind set_OA].
  rewrite (slice_from_at oa (PID t :: DCS t :: ts ++ ud)) by reflexivity.
  cbn [bind read_byte set_PIDf set_DCSf]. rewrite Rts. cbn [on_err bind set_SCTS].
  rewrite buf_next_app by now symmetry.
  rewrite Rud by reflexivity. cbn [on_err set_UDf set_UDHf]. reflexivity.
Qed.

(** ** Reports *)

(** The optional fields, read at the end of the input from a TPDU that has only
    its PI set. *)
Lemma optionals_roundtrip t : optionals_wf t ->
  exists ud, (if pi_udl (PI t) then on_err (encode_ud t) (encode_error "ud") else Ok []) = Ok ud /\
    Forall is_byte (marshal_opt t ++ ud) /\
    (pi_udl (PI t) = true -> 1 <= len ud) /\
    (PI t = 0 -> marshal_opt t = [] /\ ud = []) /\
    forall t0 pre, FO t0 = FO t -> PI t0 = PI t -> PID t0 = 0 -> DCS t0 = 0 -> UDH t0 = None -> UD t0 = [] ->
      unmarshal_optionals t0 (pre ++ marshal_opt t ++ ud) (len pre) =
      Ok (set_UDHf (set_UDf (set_DCSf (set_PIDf t0 (PID t)) (DCS t)) (UD t)) (UDH t)).
Proof.
  intros (BPI & BPID & BDCS & HP & HD & HU).
  assert (exists ud, (if pi_udl (PI t) then on_err (encode_ud t) (encode_error "ud") else Ok []) = Ok ud /\
    Forall is_byte ud /\ (pi_udl (PI t) = true -> 1 <= len ud) /\ (pi_udl (PI t) = false -> ud = []) /\
    (pi_udl (PI t) = true -> forall t0, FO t0 = FO t -> DCS t0 = DCS t -> UD t0 = [] -> UDH t0 = None ->
      decode_ud t0 ud = Ok (set_UDHf (set_UDf t0 (UD t)) (UDH t)))) as (ud & Eud & Bud & Lud & Nud & Rud).
  { destruct (pi_udl (PI t)).
    - destruct (ud_roundtrip _ HU) as (ud & E & B & L & R). exists ud. rewrite E. cbn [on_err].
      repeat split; auto. discriminate.
    - exists []. repeat split; auto; discriminate. }
  exists ud. split; [assumption|].
  split.
  { apply Forall_app. split; [|assumption]. unfold marshal_opt. apply Forall_app.
    split; [destruct (pi_pid _)|destruct (pi_dcs _)];
      try (constructor; [assumption|]); constructor. }
  split; [assumption|]. split.
  { intros E. rewrite E in *. split; [unfold marshal_opt; rewrite E; reflexivity|]. now apply Nud. }
  intros t0 pre EFO EPI EPID EDCS EUDH EUD. unfold unmarshal_optionals, marshal_opt. rewrite EPI.
  pose proof (len_nonneg pre) as P0. pose proof (len_nonneg ud) as U0.
  (* pid *)
  set (opt2 := if pi_dcs (PI t) then [DCS t] else []).
  assert (S1 : exists pre1, pre ++ ((if pi_pid (PI t) then [PID t] else []) ++ opt2) ++ ud = pre1 ++ opt2 ++ ud /\
    len pre1 = len pre + (if pi_pid (PI t) then 1 else 0) /\
    (if pi_pid (PI t) then
       if len (pre ++ ((if pi_pid (PI t) then [PID t] else []) ++ opt2) ++ ud) <=? len pre
       then Err (new_decode_error "pid" (len pre) ErrUnderflow)
       else x <- idx (pre ++ ((if pi_pid (PI t) then [PID t] else []) ++ opt2) ++ ud) (len pre) ;;
            Ok (set_PIDf t0 x, len pre + 1)
     else Ok (t0, len pre)) = Ok (set_PIDf t0 (PID t), len pre1)).
  { destruct (pi_pid (PI t)) eqn:E1.
    - exists (pre ++ [PID t]). split; [now rewrite <- !app_assoc|]. split; [at_len|].
      pose proof (len_nonneg opt2).
      replace (_ <=? len pre) with false by at_len.
      rewrite (idx_at pre (PID t) (opt2 ++ ud)) by (at_app || reflexivity). cbn [bind].
      rewrite len_app. reflexivity.
    - exists pre. split; [reflexivity|]. split; [lia|]. rewrite HP by reflexivity.
      do 2 f_equal. clear - EPID. dtpdu t0. cbn [PID set_PIDf] in *. congruence. }
  destruct S1 as (pre1 & ES & L1 & ->). cbn [bind]. rewrite ES.
  assert (EPI1 : PI (set_PIDf t0 (PID t)) = PI t) by (dtpdu t0; exact EPI). rewrite EPI1.
  set (t1 := set_PIDf t0 (PID t)) in *.
  assert (EDCS1 : DCS t1 = 0) by (unfold t1; dtpdu t0; exact EDCS).
  assert (S2 : exists pre2, pre1 ++ opt2 ++ ud = pre2 ++ ud /\
    (if pi_dcs (PI t) then
       if len (pre1 ++ opt2 ++ ud) <=? len pre1
       then Err (new_decode_error "dcs" (len pre1) ErrUnderflow)
       else x <- idx (pre1 ++ opt2 ++ ud) (len pre1) ;; Ok (set_DCSf t1 x, len pre1 + 1)
     else Ok (t1, len pre1)) = Ok (set_DCSf t1 (DCS t), len pre2)).
  { unfold opt2. destruct (pi_dcs (PI t)) eqn:E2.
    - exists (pre1 ++ [DCS t]). split; [now rewrite <- !app_assoc|].
      replace (_ <=? len pre1) with false by at_len.
      rewrite (idx_at pre1 (DCS t) ud) by (at_app || reflexivity). cbn [bind].
      rewrite len_app. reflexivity.
    - exists pre1. split; [reflexivity|]. rewrite HD by reflexivity.
      do 2 f_equal. clear - EDCS1. clearbody t1. dtpdu t1. cbn [DCS set_DCSf] in *. congruence. }
  destruct S2 as (pre2 & ES2 & ->). cbn [bind]. rewrite ES2.
  replace (PI (set_DCSf t1 (DCS t))) with (PI t) by (rewrite <- EPI1; now destruct t1).
  destruct (pi_udl (PI t)) eqn:E3.
  - rewrite (slice_from_at pre2 ud) by reflexivity. cbn [bind].
    rewrite Rud; [reflexivity|reflexivity|..]; unfold t1; dtpdu t0; cbn in *; congruence.
  - destruct HU as (-> & ->). unfold t1. dtpdu t0. cbn in *. congruence.
Qed.



Lemma deliver_report_roundtrip t : deliver_report_wf t ->
  exists b, tpdu_marshal t = Ok b /\ Forall is_byte b /\
    unmarshal b true = Ok (deliver_report_fields t).
Proof.
  intros ((HD & HM & HFO) & HB & HN & HO). pose proof HO as (BPI & _).
  destruct (optionals_roundtrip _ HO) as (ud & Eud & Bud & _ & _ & Rud).
  exists (FO t :: FCS t :: PI t :: marshal_opt t ++ ud).
  assert (ET : forall t', FO t' = FO t -> Direction t' = MO -> tpdu_type t' = SmsDeliverReport).
  { intros t' E1 E2. unfold tpdu_type. rewrite E1, E2, HM. reflexivity. }
  split.
  { unfold tpdu_marshal. rewrite (ET t eq_refl HD). unfold marshal_deliver_report. rewrite Eud.
    replace (FCS t =? 0) with false by lia. reflexivity. }
  split; [repeat (constructor; [assumption|]); assumption|].
  unfold unmarshal, tpdu_unmarshal.
  set (s := FCS t :: PI t :: marshal_opt t ++ ud). pose proof (len_nonneg (marshal_opt t ++ ud)).
  replace (len (FO t :: s) <? 1) with false by (unfold s; at_len).
  rewrite idx_0. cbn [bind]. rewrite ET by reflexivity.
  rewrite (slice_from_at [FO t] s) by reflexivity. cbn [bind].
  change (SmsDeliverReport =? SmsDeliver) with false.
  change (SmsDeliverReport =? SmsDeliverReport) with true. cbv iota.
  unfold unmarshal_deliver_report. change (set_FO (set_Direction zero_tpdu MO) (FO t))
    with (Build_tpdu MO (FO t) zero_address 0 0 0 0 zero_address zero_address 0 zero_time zero_time
            0 0 0 vp_zero None []).
  replace (len s <=? 0) with false by (unfold s; at_len).
  unfold s at 1. rewrite idx_0. cbn [bind set_FCS].
  replace (len s <=? 0 + 1) with false by (unfold s; at_len).
  rewrite (idx_at [FCS t] (PI t) (marshal_opt t ++ ud)) by reflexivity. cbn [bind set_PI].
  rewrite (Rud _ [FCS t; PI t]) by reflexivity.
  cbn [on_err set_PIDf set_DCSf set_UDf set_UDHf]. reflexivity.
Qed.


Lemma submit_report_roundtrip t : submit_report_wf t ->
  exists b, tpdu_marshal t = Ok b /\ Forall is_byte b /\
    unmarshal b false = Ok (submit_report_fields t).
Proof.
  intros ((HD & HM & HFO) & HB & HN & HTS & HO). pose proof HO as (BPI & _).
  destruct (optionals_roundtrip _ HO) as (ud & Eud & Bud & _ & _ & Rud).
  destruct (time_value_roundtrip _ HTS) as (ts & Ets & Lts & Bts & Rts).
  exists (FO t :: FCS t :: PI t :: ts ++ marshal_opt t ++ ud).
  assert (ET : forall t', FO t' = FO t -> Direction t' = MT -> tpdu_type t' = SmsSubmitReport).
  { intros t' E1 E2. unfold tpdu_type. rewrite E1, E2, HM. reflexivity. }
  split.
  { unfold tpdu_marshal. rewrite (ET t eq_refl HD). unfold marshal_submit_report. rewrite Ets, Eud.
    replace (FCS t =? 0) with false by lia. reflexivity. }
  split; [repeat (constructor; [assumption|]); now apply Forall_app|].
  unfold unmarshal, tpdu_unmarshal.
  set (s := FCS t :: PI t :: ts ++ marshal_opt t ++ ud). pose proof (len_nonneg (marshal_opt t ++ ud)).
  assert (Ls : len s = 9 + len (marshal_opt t ++ ud)) by (unfold s; rewrite !len_cons, len_app; lia).
  replace (len (FO t :: s) <? 1) with false by (at_len).
  rewrite idx_0. cbn [bind]. rewrite ET by reflexivity.
  rewrite (slice_from_at [FO t] s) by reflexivity. cbn [bind].
  change (SmsSubmitReport =? SmsDeliver) with false.
  change (SmsSubmitReport =? SmsDeliverReport) with false.
  change (SmsSubmitReport =? SmsSubmitReport) with true. cbv iota.
  unfold unmarshal_submit_report. change (set_FO (set_Direction zero_tpdu MT) (FO t))
    with (Build_tpdu MT (FO t) zero_address 0 0 0 0 zero_address zero_address 0 zero_time zero_time
            0 0 0 vp_zero None []).
  replace (len s <? 1) with false by lia.
  unfold s at 1. rewrite idx_0. cbn [bind set_FCS].
  replace (len s <=? 0 + 1) with false by lia.
  rewrite (idx_at [FCS t] (PI t) (ts ++ marshal_opt t ++ ud)) by reflexivity. cbn [bind set_PI].
  replace (len s <? 0 + 1 + 1 + 7) with false by lia.
  rewrite (slice_at [FCS t; PI t] ts (marshal_opt t ++ ud)) by (reflexivity || (rewrite Lts; reflexivity)).
  cbn [bind]. rewrite <- (app_nil_r ts) at 1. rewrite Rts. cbn [on_err bind set_SCTS].
  replace s with ((FCS t :: PI t :: ts) ++ marshal_opt t ++ ud) by reflexivity.
  replace (0 + 1 + 1 + 7) with (len (FCS t :: PI t :: ts)) by at_len.
  rewrite (Rud _ (FCS t :: PI t :: ts)) by reflexivity.
  cbn [on_err set_PIDf set_DCSf set_UDf set_UDHf]. reflexivity.
Qed.


Lemma status_report_roundtrip t : status_report_wf t ->
  exists b, tpdu_marshal t = Ok b /\ Forall is_byte b /\
    unmarshal b false = Ok (status_report_fields t).
Proof.
  intros ((HD & HM & HFO) & HMR & HST & HRA & HTS & HDT & HO). pose proof HO as (BPI & _ & _ & HP0 & HD0 & HU0).
  destruct (optionals_roundtrip _ HO) as (ud & Eud & Bud & _ & Zud & Rud).
  destruct (addr_value_roundtrip _ HRA) as (ra & Era & Bra & Lra & Rra).
  destruct (time_value_roundtrip _ HTS) as (ts & Ets & Lts & Bts & Rts).
  destruct (time_value_roundtrip _ HDT) as (dt & Edt & Ldt & Bdt & Rdt).
  set (o := if PI t =? 0 then [] else PI t :: marshal_opt t ++ ud).
  exists (FO t :: MR t :: ra ++ ts ++ dt ++ ST t :: o).
  assert (ET : forall t', FO t' = FO t -> Direction t' = MT -> tpdu_type t' = SmsStatusReport).
  { intros t' E1 E2. unfold tpdu_type. rewrite E1, E2, HM. reflexivity. }
  split.
  { unfold tpdu_marshal. rewrite (ET t eq_refl HD). unfold marshal_status_report.
    rewrite Era, Ets, Edt, Eud. cbn [on_err bind].
    change (SmsStatusReport =? SmsDeliver) with false.
    change (SmsStatusReport =? SmsDeliverReport) with false.
    change (SmsStatusReport =? SmsSubmitReport) with false.
    change (SmsStatusReport =? SmsSubmit) with false.
    change (SmsStatusReport =? SmsStatusReport) with true. cbv iota.
    unfold o. destruct (PI t =? 0); cbn [on_err]; f_equal; at_app. }
  split.
  { repeat (constructor; [assumption|]). rewrite !Forall_app. repeat split; try assumption.
    constructor; [assumption|]. unfold o. destruct (PI t =? 0); [constructor|]. constructor; assumption. }
  unfold unmarshal, tpdu_unmarshal.
  set (s := MR t :: ra ++ ts ++ dt ++ ST t :: o). pose proof (len_nonneg o) as O0.
  assert (Ls : len s = 16 + len ra + len o) by (unfold s; at_len).
  replace (len (FO t :: s) <? 1) with false by (at_len).
  rewrite idx_0. cbn [bind]. rewrite ET by reflexivity.
  rewrite (slice_from_at [FO t] s) by reflexivity. cbn [bind].
  change (SmsStatusReport =? SmsDeliver) with false.
  change (SmsStatusReport =? SmsDeliverReport) with false.
  change (SmsStatusReport =? SmsSubmitReport) with false.
  change (SmsStatusReport =? SmsSubmit) with false.
  change (SmsStatusReport =? SmsStatusReport) with true. cbv iota.
  unfold unmarshal_status_report. change (set_FO (set_Direction zero_tpdu MT) (FO t))
    with (Build_tpdu MT (FO t) zero_address 0 0 0 0 zero_address zero_address 0 zero_time zero_time
            0 0 0 vp_zero None []).
  replace (len s <=? 0) with false by lia.
  unfold s at 1. rewrite idx_0. cbn [bind set_MR].
  rewrite (slice_from_at [MR t] (ra ++ ts ++ dt ++ ST t :: o)) by reflexivity. cbn [bind].
  rewrite Rra. cbn [on_err bind set_RA].
  replace (len s <? 0 + 1 + len ra + 7) with false by lia.
  rewrite (slice_at (MR t :: ra) ts (dt ++ ST t :: o)) by (reflexivity || at_len).
  cbn [bind]. rewrite <- (app_nil_r ts) at 1. rewrite Rts. cbn [on_err bind set_SCTS].
  replace (len s <? 0 + 1 + len ra + 7 + 7) with false by lia.
  rewrite (slice_at (MR t :: ra ++ ts) dt (ST t :: o)) by (unfold s; at_app || at_len).
  cbn [bind]. rewrite <- (app_nil_r dt) at 1. rewrite Rdt. cbn [on_err bind set_DT].
  replace (len s <=? 0 + 1 + len ra + 7 + 7) with false by lia.
  rewrite (idx_at (MR t :: ra ++ ts ++ dt) (ST t) o) by (unfold s; at_app || at_len).
  cbn [bind set_ST].
  destruct (PI t =? 0) eqn:EP.
  - assert (E0 : PI t = 0) by lia. unfold o in Ls. change (len (@nil Z)) with 0 in Ls.
    replace (0 + 1 + len ra + 7 + 7 + 1 <? len s) with false by lia.
    cbn [on_err]. unfold status_report_fields. rewrite E0, (HP0 ltac:(now rewrite E0)), (HD0 ltac:(now rewrite E0)).
    rewrite E0 in HU0. cbn in HU0. destruct HU0 as (-> & ->). reflexivity.
  - assert (Lo : 1 <= len o) by (unfold o; rewrite len_cons; pose proof (len_nonneg (marshal_opt t ++ ud)); lia).
    replace (0 + 1 + len ra + 7 + 7 + 1 <? len s) with true by lia.
    rewrite (idx_at (MR t :: ra ++ ts ++ dt ++ [ST t]) (PI t) (marshal_opt t ++ ud))
      by (unfold s, o; at_app || at_len).
    cbn [bind set_PI].
    replace s with ((MR t :: ra ++ ts ++ dt ++ [ST t; PI t]) ++ marshal_opt t ++ ud)
      by (unfold s, o; at_app).
    replace (0 + 1 + len ra + 7 + 7 + 1 + 1) with (len (MR t :: ra ++ ts ++ dt ++ [ST t; PI t])) by at_len.
    rewrite Rud by reflexivity.
    cbn [on_err set_PIDf set_DCSf set_UDf set_UDHf]. reflexivity.
Qed.

(** ** SMS-COMMAND *)


Lemma command_roundtrip t : command_wf t ->
  exists b, tpdu_marshal t = Ok b /\ Forall is_byte b /\
    unmarshal b true = Ok (command_fields t).
Proof.
  intros (HD & HM & HFO & HH & HMR & HPID & HCT & HMN & HDA & HUD & HL).
  destruct (addr_value_roundtrip _ HDA) as (da & Eda & Bda & Lda & Rda).
  pose proof (len_nonneg (UD t)) as U0.
  exists (FO t :: MR t :: PID t :: CT t :: MN t :: da ++ len (UD t) :: UD t).
  assert (ET : forall t', FO t' = FO t -> Direction t' = MO -> tpdu_type t' = SmsCommand).
  { intros t' E1 E2. unfold tpdu_type. rewrite E1, E2, HM. reflexivity. }
  split.
  { unfold tpdu_marshal. rewrite (ET t eq_refl HD). unfold marshal_command.
    rewrite Eda. cbn [on_err bind]. rewrite to_byte_id by lia. reflexivity. }
  split.
  { repeat (constructor; [assumption|]). apply Forall_app; split; [assumption|].
    constructor; [unfold is_byte; lia|assumption]. }
  unfold unmarshal, tpdu_unmarshal.
  set (s := MR t :: PID t :: CT t :: MN t :: da ++ len (UD t) :: UD t).
  assert (Ls : len s = 5 + len da + len (UD t)) by (unfold s; at_len).
  replace (len (FO t :: s) <? 1) with false by (at_len).
  rewrite idx_0. cbn [bind]. rewrite ET by reflexivity.
  rewrite (slice_from_at [FO t] s) by reflexivity. cbn [bind].
  change (SmsCommand =? SmsDeliver) with false.
  change (SmsCommand =? SmsDeliverReport) with false.
  change (SmsCommand =? SmsSubmitReport) with false.
  change (SmsCommand =? SmsSubmit) with false.
  change (SmsCommand =? SmsStatusReport) with false.
  change (SmsCommand =? SmsCommand) with true. cbv iota.
  unfold unmarshal_command. change (set_FO (set_Direction zero_tpdu MO) (FO t))
    with (Build_tpdu MO (FO t) zero_address 0 0 0 0 zero_address zero_address 0 zero_time zero_time
            0 0 0 vp_zero None []).
  unfold s at 3. cbn [read_byte bind set_MR set_PIDf set_CT set_MN].
  rewrite Rda. cbn [on_err bind set_DA set_DCSf]. rewrite buf_next_app by reflexivity.
  set (t8 := set_UDf (set_UDHf (set_DCSf (set_FO zero_tpdu (FO t)) Dcs8BitData) None) (UD t)).
  assert (W : ud_wf t8).
  { split; [exact HH|]. right. left. split; [reflexivity|]. split; [exact HUD|]. cbn. lia. }
  destruct (ud_roundtrip t8 W) as (ud & Eud & _ & _ & Rud).
  assert (ud = len (UD t) :: UD t) as ->.
  { cbn in Eud. apply ok_inj in Eud. rewrite <- Eud. rewrite Z.add_0_r.
    now rewrite to_byte_id by lia. }
  rewrite Rud by reflexivity. cbn [on_err]. reflexivity.
Qed.

(** ** Layout *)

Lemma header_of_marshal t : ud_wf t -> udh_marshal (ies (UDH t)) = header_of (UDH t).
Proof.
  intros (HU & _). destruct (UDH t) as [l|]; cbn [ies header_of]; [|reflexivity].
  now apply udh_marshal_ok.
Qed.

Lemma encode_ud_layout t : ud_wf t -> exists b, encode_ud t = Ok b /\ ud_layout t b.
Proof.
  intros WF. pose proof (header_of_marshal t WF) as HM. pose proof (udh_wf_fits t WF) as HF.
  destruct WF as (HU & HA).
  destruct (header_size_marshal (UDH t) HF) as (HL & HB).
  pose proof (header_size_nonneg (UDH t)) as H0. pose proof (len_nonneg (UD t)) as L0.
  unfold encode_ud, ud_layout. rewrite HL, HM. cbv zeta.
  destruct HA as [(EA & HD & HN)|HA].
  - rewrite EA. cbn [on_err bind]. change (Alpha7Bit =? Alpha7Bit) with true. cbv iota.
    destruct (fill_bits_spec _ H0) as (E & F).
    eexists. split; [reflexivity|].
    destruct (UD t) as [|c cs] eqn:EU.
    + change (0 <? len (@nil Z)) with false. cbv iota.
      change (len (@nil Z)) with 0 in *.
      change (pack7bit [] _) with (@nil Z). rewrite app_nil_r. f_equal. rewrite to_byte_id; lia.
    + rewrite <- EU in *. assert (NE : UD t <> []) by (rewrite EU; discriminate).
      assert (LP : 0 < len (UD t)) by (pose proof (len_ne_nil _ NE); lia).
      replace (0 <? len (UD t)) with true by lia.
      assert (RF : 0 <= fill_bits (header_size (UDH t)) <= 6) by lia.
      destruct (pack7bit_bits (UD t) (fill_bits (header_size (UDH t))) HD RF NE) as (_ & pad & HP & EP).
      exists (pack7bit (UD t) (fill_bits (header_size (UDH t)))), pad. split.
      { f_equal. rewrite to_byte_id; lia. }
      split; [assumption|]. rewrite EP. do 2 f_equal. lia.
  - assert (exists a, tpdu_alphabet t = Ok a /\ (a =? Alpha7Bit) = false /\
      ((a =? AlphaUCS2) && (Z.land (len (UD t)) 1 =? 1)) = false /\ header_size (UDH t) + len (UD t) <= 255)
      as (a & EA & E7 & EO & HN).
    { destruct HA as [(EA & _ & HN)|(EA & _ & Hev & HN)]; eexists; (split; [exact EA|]).
      - repeat split; auto.
      - split; [reflexivity|]. split; [|assumption].
        change 1 with (Z.ones 1) at 1. rewrite Z.land_ones by lia. rewrite andb_false_iff. right.
        change (2 ^ 1) with 2. rewrite Hev. reflexivity. }
    rewrite EA. cbn [on_err bind]. rewrite E7, EO. eexists. split; [reflexivity|].
    f_equal. rewrite to_byte_id; lia.
Qed.

Lemma vp_octets_ex t : vp_value (VP t) -> exists vp, vp_octets t vp.
Proof.
  intros H. destruct (vp_roundtrip _ H) as (b & E & _). unfold vp_octets.
  destruct (_ =? _); eauto.
Qed.

Lemma submit_layout t da vp ud : submit_wf t ->
  addr_marshal (DA t) = Ok da -> vp_octets t vp -> encode_ud t = Ok ud ->
  tpdu_marshal t = Ok ([FO t; MR t] ++ da ++ [PID t; DCS t] ++ vp ++ ud).
Proof.
  intros (HD & HM & _) Ea Ev Eu. unfold tpdu_marshal, tpdu_type. rewrite HD, HM.
  change (sms_type 1 MO) with SmsSubmit. cbv zeta.
  change (SmsSubmit =? SmsDeliver) with false. change (SmsSubmit =? SmsDeliverReport) with false.
  change (SmsSubmit =? SmsSubmitReport) with false. change (SmsSubmit =? SmsSubmit) with true. cbv iota.
  unfold marshal_submit. rewrite Ea, Eu. unfold vp_octets in Ev. cbn [on_err bind].
  destruct (_ =? VpfNotPresent); cbn [negb]; rewrite ?Ev; reflexivity.
Qed.

Lemma deliver_layout t oa ts ud : deliver_wf t ->
  addr_marshal (OA t) = Ok oa -> ts_marshal (SCTS t) = Ok ts -> encode_ud t = Ok ud ->
  tpdu_marshal t = Ok ([FO t] ++ oa ++ [PID t; DCS t] ++ ts ++ ud).
Proof.
  intros (HD & HM & _) Ea Ev Eu. unfold tpdu_marshal, tpdu_type. rewrite HD, HM.
  change (sms_type 0 MT) with SmsDeliver. cbv zeta.
  change (SmsDeliver =? SmsDeliver) with true. cbv iota.
  unfold marshal_deliver. rewrite Ea, Eu, Ev. reflexivity.
Qed.

Lemma optional_octets_ud t o : optionals_wf t -> optional_octets t o ->
  exists ud, o = marshal_opt t ++ ud /\ if pi_udl (PI t) then ud_layout t ud else ud = [].
Proof. intros _ (ud & -> & H). exists ud. split; [unfold marshal_opt; now rewrite <- app_assoc|assumption]. Qed.

Lemma deliver_report_layout t ud : deliver_report_wf t ->
  (if pi_udl (PI t) then encode_ud t = Ok ud else ud = []) ->
  tpdu_marshal t = Ok ([FO t; FCS t; PI t] ++ marshal_opt t ++ ud).
Proof.
  intros ((HD & HM & HFO) & HB & HN & HO) Eu. unfold tpdu_marshal, tpdu_type. rewrite HD, HM.
  change (sms_type 0 MO) with SmsDeliverReport. cbv zeta.
  change (SmsDeliverReport =? SmsDeliver) with false. change (SmsDeliverReport =? SmsDeliverReport) with true.
  cbv iota. unfold marshal_deliver_report. replace (FCS t =? 0) with false by lia.
  destruct (pi_udl (PI t)); rewrite Eu; reflexivity.
Qed.

Lemma submit_report_layout t ts ud : submit_report_wf t -> ts_marshal (SCTS t) = Ok ts ->
  (if pi_udl (PI t) then encode_ud t = Ok ud else ud = []) ->
  tpdu_marshal t = Ok ([FO t; FCS t; PI t] ++ ts ++ marshal_opt t ++ ud).
Proof.
  intros ((HD & HM & HFO) & HB & HN & HT & HO) Et Eu. unfold tpdu_marshal, tpdu_type. rewrite HD, HM.
  change (sms_type 1 MT) with SmsSubmitReport. cbv zeta.
  change (SmsSubmitReport =? SmsDeliver) with false. change (SmsSubmitReport =? SmsDeliverReport) with false.
  change (SmsSubmitReport =? SmsSubmitReport) with true.
  cbv iota. unfold marshal_submit_report. replace (FCS t =? 0) with false by lia. rewrite Et.
  destruct (pi_udl (PI t)); rewrite Eu; reflexivity.
Qed.

Lemma status_report_layout t ra ts dt ud : status_report_wf t -> addr_marshal (RA t) = Ok ra ->
  ts_marshal (SCTS t) = Ok ts -> ts_marshal (DT t) = Ok dt ->
  (if pi_udl (PI t) then encode_ud t = Ok ud else ud = []) ->
  tpdu_marshal t = Ok ([FO t; MR t] ++ ra ++ ts ++ dt ++ [ST t] ++
    (if PI t =? 0 then [] else [PI t] ++ marshal_opt t ++ ud)).
Proof.
  intros ((HD & HM & HFO) & HB & HN & HT & HO) Er Et Ed Eu. unfold tpdu_marshal, tpdu_type. rewrite HD, HM.
  change (sms_type 2 MT) with SmsStatusReport. cbv zeta.
  change (SmsStatusReport =? SmsDeliver) with false. change (SmsStatusReport =? SmsDeliverReport) with false.
  change (SmsStatusReport =? SmsSubmitReport) with false. change (SmsStatusReport =? SmsSubmit) with false.
  change (SmsStatusReport =? SmsStatusReport) with true.
  cbv iota. unfold marshal_status_report. rewrite Er, Et, Ed.
  destruct (pi_udl (PI t)); rewrite Eu; destruct (PI t =? 0); cbn [on_err bind];
    repeat (rewrite <- app_assoc || cbn [app]); rewrite ?app_nil_r; reflexivity.
Qed.

Lemma command_layout t da : command_wf t -> addr_marshal (DA t) = Ok da ->
  tpdu_marshal t = Ok ([FO t; MR t; PID t; CT t; MN t] ++ da ++ [len (UD t)] ++ UD t).
Proof.
  intros (HD & HM & _ & _ & _ & _ & _ & _ & _ & _ & HL) Ea. unfold tpdu_marshal, tpdu_type. rewrite HD, HM.
  change (sms_type 2 MO) with SmsCommand. cbv zeta.
  change (SmsCommand =? SmsDeliver) with false. change (SmsCommand =? SmsDeliverReport) with false.
  change (SmsCommand =? SmsSubmitReport) with false. change (SmsCommand =? SmsSubmit) with false.
  change (SmsCommand =? SmsStatusReport) with false. change (SmsCommand =? SmsCommand) with true.
  cbv iota. unfold marshal_command. rewrite Ea. cbn [on_err bind].
  rewrite to_byte_id by (pose proof (len_nonneg (UD t)); lia). reflexivity.
Qed.
