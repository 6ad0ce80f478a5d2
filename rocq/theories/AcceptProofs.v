(** Lemmas about what Unmarshal returns (C54). *)
From Verif Require Import GoBase GoLemmas SafeLemmas SevenBit SevenBitProofs SpecDigits SpecSegment Dcs FirstOctet TpduError
  Address AddressProofs GoTime TimeProofs ValidityPeriod VPProofs UserData Tpdu SpecTpdu UdProofs
  SegmentProofs SegmentFitProofs TpduProofs TpduSafeProofs Sms SpecAccept.

Lemma Forall_firstn {A} (P : A -> Prop) n l : Forall P l -> Forall P (firstn n l).
Proof. intros H. rewrite <- (firstn_skipn n l) in H. apply Forall_app in H. tauto. Qed.

Lemma decode_7bit_septets sml h s u : Forall is_byte s -> 0 <= h -> decode_7bit sml h s = Ok u -> Forall is_septet u.
Proof.
  intros HB H0 H. unfold decode_7bit in H. destruct (fill_bits_spec h H0) as (_ & F).
  set (f := if 0 <? h then fill_bits h else 0) in *.
  assert (0 <= f <= 6) as Hf by (unfold f; destruct (0 <? h); lia).
  destruct (unpack7bit_spec s f HB Hf) as (_ & S).
  set (sml' := if 0 <? h then sml - (h * 8 + f) / 7 else sml) in *. clearbody sml'. cbv zeta in H.
  destruct (len (unpack7bit s f) <? sml'); [discriminate|].
  destruct (sml' <? len (unpack7bit s f)).
  - inv_ok H. unfold slice in H. destruct (_ && _); [|discriminate]. apply ok_inj in H. subst u.
    now apply Forall_firstn, Forall_skipn.
  - apply ok_inj in H. now subst u.
Qed.

Lemma decode_ud_sound t s t1 : Forall is_byte s -> ud_sound t -> decode_ud t s = Ok t1 ->
  ud_sound t1 /\ exists h u, t1 = set_UDHf (set_UDf t u) h.
Proof.
  intros HB HS H. unfold decode_ud in H. destruct (len s <? 1) eqn:E1; [discriminate|].
  apply bind_ok in H as (udl & Eu & H).
  destruct (udl =? 0).
  { apply ok_inj in H. subst t1. split; [assumption|]. exists (UDH t), (UD t). now dtpdu t. }
  cbv zeta in H. apply bind_ok in H as (a & Ea & H). apply on_err_ok in Ea.
  assert (HA : a = Alpha7Bit \/ a = Alpha8Bit \/ a = AlphaUCS2).
  { destruct (tpdu_alphabet_cases t) as [X|(a' & X & Y)]; rewrite X in Ea; [discriminate|].
    apply ok_inj in Ea. now subst. }
  set (sml7 := if a =? Alpha7Bit then udl else 0) in *.
  set (ol := if a =? Alpha7Bit then (sml7 * 7 + 7) / 8 else udl) in *. clearbody sml7 ol.
  destruct (len s <? 1 + ol); [discriminate|]. destruct (1 + ol <? len s); [discriminate|].
  apply bind_ok in H as ([h hl] & Eh & H).
  assert (HH : 0 <= hl /\ match h with Some l => fo_udhi (FO t) = true /\ l <> [] /\ Forall ie_fits l | None => True end).
  { destruct (fo_udhi (FO t)) eqn:EF.
    - apply bind_ok in Eh as (s1 & Es & Eh). apply on_err_ok in Eh.
      pose proof (slice_from_bytes _ _ _ HB Es) as Bs.
      apply udh_accepted in Eh as (R & _ & F & _ & M); [|assumption]. split; [lia|].
      destruct h; [|exact I]. cbn [ies] in F. tauto.
    - apply ok_pair in Eh as (<- & <-). split; [lia|exact I]. }
  destruct HH as [HL HH].
  assert (HK : forall u, FO (set_UDHf (set_UDf t u) h) = FO t /\ UDH (set_UDHf (set_UDf t u) h) = h /\
            UD (set_UDHf (set_UDf t u) h) = u /\ tpdu_alphabet (set_UDHf (set_UDf t u) h) = tpdu_alphabet t).
  { intros u. now dtpdu t. }
  assert (HR : forall u, (u = [] \/
   (tpdu_alphabet t = Ok Alpha7Bit /\ Forall is_septet u) \/
   (tpdu_alphabet t = Ok Alpha8Bit /\ Forall is_byte u) \/
   (tpdu_alphabet t = Ok AlphaUCS2 /\ Forall is_byte u /\ len u mod 2 = 0)) ->
   ud_sound (set_UDHf (set_UDf t u) h)).
  { intros u Hu. destruct (HK u) as (K1 & K2 & K3 & K4). unfold ud_sound. rewrite K1, K2, K3, K4. now split. }
  destruct (1 + hl =? len s).
  { apply ok_inj in H. subst t1. split.
    - replace (set_UDHf t h) with (set_UDHf (set_UDf t (UD t)) h) by (now dtpdu t). apply HR. apply HS.
    - exists h, (UD t). now dtpdu t. }
  apply bind_ok in H as (s1 & Es & H). pose proof (slice_from_bytes _ _ _ HB Es) as Bs.
  destruct (a =? Alpha7Bit) eqn:E7.
  - apply bind_ok in H as (u & Eu7 & H). apply on_err_ok in Eu7. apply ok_inj in H. subst t1.
    split; [|eauto]. apply HR. right; left. split; [rewrite Ea; f_equal; lia|].
    eapply decode_7bit_septets; eauto.
  - destruct ((a =? AlphaUCS2) && (Z.land (len s1) 1 =? 1)) eqn:E2; [discriminate|].
    apply ok_inj in H. subst t1. split; [|eauto]. apply HR. right; right.
    rewrite Ea. destruct HA as [-> |[-> | ->]]; [discriminate|left; now split|right].
    split; [reflexivity|]. split; [assumption|].
    change (AlphaUCS2 =? AlphaUCS2) with true in E2. cbn [andb] in E2.
    change 1 with (Z.ones 1) in E2 at 1. rewrite Z.land_ones in E2 by lia. change (2 ^ 1) with 2 in E2. lia.
Qed.

Definition sound (t : tpdu) : Prop := octet_fields t /\ addresses_sound t.
Definition no_ud (t : tpdu) : Prop := UDH t = None /\ UD t = [].
Lemma no_ud_sound t : no_ud t -> ud_sound t.
Proof. intros [H1 H2]. unfold ud_sound. rewrite H1, H2. split; [exact I|now left]. Qed.
Lemma addr_unmarshal_sound s a n : Forall is_byte s -> addr_unmarshal s = Ok (a, n) -> addr_sound a.
Proof. intros HB H. apply addr_unmarshal_inv in H; [|assumption]. unfold addr_sound. tauto. Qed.

(** Only these fields differ. *)
Definition ud_only (t t1 : tpdu) : Prop := exists h u, t1 = set_UDHf (set_UDf t u) h.
Definition opt_only (t t1 : tpdu) : Prop :=
  exists p d h u, is_byte p /\ is_byte d /\ t1 = set_UDHf (set_UDf (set_DCSf (set_PIDf t p) d) u) h.

Lemma unmarshal_optionals_sound t s ri t1 : Forall is_byte s -> no_ud t -> is_byte (PID t) -> is_byte (DCS t) ->
  unmarshal_optionals t s ri = Ok t1 -> ud_sound t1 /\ opt_only t t1.
Proof.
  intros HB HN HP HD H. unfold unmarshal_optionals in H.
  apply bind_ok in H as ([u1 r1] & E1 & H).
  assert (exists p, is_byte p /\ u1 = set_PIDf t p) as (p & Bp & ->).
  { inv_ok E1; apply ok_pair in E1 as (<- & _); [eexists; split; [|reflexivity]; eapply idx_byte; eauto|].
    exists (PID t). split; [assumption|now dtpdu t]. }
  apply bind_ok in H as ([u2 r2] & E2 & H).
  assert (exists d, is_byte d /\ u2 = set_DCSf (set_PIDf t p) d) as (d & Bd & ->).
  { inv_ok E2; apply ok_pair in E2 as (<- & _); [eexists; split; [|reflexivity]; eapply idx_byte; eauto|].
    exists (DCS t). split; [assumption|now dtpdu t]. }
  assert (N2 : no_ud (set_DCSf (set_PIDf t p) d)) by (now dtpdu t).
  destruct (pi_udl _).
  - apply bind_ok in H as (s1 & Es & H). apply on_err_ok in H.
    apply decode_ud_sound in H as (S & h & u & ->).
    + split; [assumption|]. exists p, d, h, u. auto.
    + eapply slice_from_bytes; eauto.
    + now apply no_ud_sound.
  - apply ok_inj in H. subst t1. split; [now apply no_ud_sound|]. exists p, d, (UDH t), (UD t).
    split; [assumption|]. split; [assumption|]. now dtpdu t.
Qed.

Ltac inv_ok' H := repeat (cbv zeta in H;
    match type of H with
    | bind _ _ = Ok _ => let x := fresh "x" in let E := fresh "E" in apply bind_ok in H as (x & E & H)
    | (let '(_, _) := ?x in _) = Ok _ => destruct x
    | (if ?c then _ else _) = Ok _ => destruct c
    | on_err _ _ = Ok _ => apply on_err_ok in H
    | Err _ = Ok _ => discriminate
    | Panic = Ok _ => discriminate
    end).
Lemma read_byte_bytes f o b x b' : Forall is_byte b -> read_byte f o b = Ok (x, b') -> is_byte x /\ Forall is_byte b'.
Proof. intros HB E. apply read_byte_ok in E. subst b. now apply Forall_cons_iff in HB. Qed.
Ltac octets := repeat
  match goal with
  | E : on_err _ _ = Ok _ |- _ => apply on_err_ok in E
  | E : read_byte _ _ ?b = Ok (?x, _), HB : Forall is_byte ?b |- _ =>
      lazymatch goal with _ : is_byte x |- _ => fail | _ => destruct (read_byte_bytes _ _ _ _ _ HB E) end
  | E : idx ?s _ = Ok ?x, HB : Forall is_byte ?s |- _ =>
      lazymatch goal with _ : is_byte x |- _ => fail | _ => pose proof (idx_byte _ _ _ HB E) end
  | E : slice_from ?s _ = Ok ?x, HB : Forall is_byte ?s |- _ =>
      lazymatch goal with _ : Forall is_byte x |- _ => fail | _ => pose proof (slice_from_bytes _ _ _ HB E) end
  | E : slice ?s _ _ = Ok ?x, HB : Forall is_byte ?s |- _ =>
      lazymatch goal with _ : Forall is_byte x |- _ => fail | _ => pose proof (slice_bytes _ _ _ _ HB E) end
  | E : addr_unmarshal ?s = Ok (?a, _), HB : Forall is_byte ?s |- _ =>
      lazymatch goal with _ : addr_sound a |- _ => fail | _ => pose proof (addr_unmarshal_sound _ _ _ HB E) end
  end.

(** The six types: a sound TPDU, with no field but its own changed. *)
Lemma zero_octet : is_byte 0. Proof. unfold is_byte. lia. Qed.
Ltac finish t := unfold sound, octet_fields, addresses_sound in *;
  dtpdu t; cbn [set_UDHf set_UDf set_SCTS set_DCSf set_PIDf set_OA set_DA set_RA set_MR set_CT set_MN set_PI set_FCS
    set_DT set_ST set_VPf FO FCS MR CT MN PI ST PID DCS OA DA RA] in *;
  repeat match goal with H : _ /\ _ |- _ => destruct H end;
  repeat match goal with |- _ /\ _ => split end; assumption.

Lemma unmarshal_deliver_sound t s t1 : Forall is_byte s -> sound t -> no_ud t -> unmarshal_deliver t s = Ok t1 ->
  sound t1 /\ ud_sound t1 /\ exists a p d ts h u,
    t1 = set_UDHf (set_UDf (set_SCTS (set_DCSf (set_PIDf (set_OA t a) p) d) ts) u) h.
Proof.
  intros HB HS HN H. unfold unmarshal_deliver in H. inv_ok' H. octets.
  apply decode_ud_sound in H as (S & h & u & ->).
  - split; [|split; [assumption|now eauto 10]]. finish t.
  - now apply buf_next_safe.
  - apply no_ud_sound. now dtpdu t.
Qed.

Lemma unmarshal_submit_sound t s t1 : Forall is_byte s -> sound t -> no_ud t -> unmarshal_submit t s = Ok t1 ->
  sound t1 /\ ud_sound t1 /\ exists m a p d v h u,
    t1 = set_UDHf (set_UDf (set_VPf (set_DCSf (set_PIDf (set_DA (set_MR t m) a) p) d) v) u) h.
Proof.
  intros HB HS HN H. unfold unmarshal_submit in H. inv_ok' H. octets.
  apply decode_ud_sound in H as (S & h & u & ->); [|assumption|].
  - split; [|split; [assumption|now eauto 10]]. finish t.
  - apply no_ud_sound. now dtpdu t.
Qed.

Lemma unmarshal_command_sound t s t1 : Forall is_byte s -> sound t -> no_ud t -> unmarshal_command t s = Ok t1 ->
  sound t1 /\ ud_sound t1 /\ exists m p c n a h u,
    t1 = set_UDHf (set_UDf (set_DCSf (set_DA (set_MN (set_CT (set_PIDf (set_MR t m) p) c) n) a) Dcs8BitData) u) h.
Proof.
  intros HB HS HN H. unfold unmarshal_command in H. inv_ok' H. octets.
  apply decode_ud_sound in H as (S & h & u & ->); [|now apply buf_next_safe|].
  - split; [|split; [assumption|now eauto 10]]. assert (is_byte Dcs8BitData) by (unfold is_byte, Dcs8BitData; lia). finish t.
  - apply no_ud_sound. now dtpdu t.
Qed.

Lemma unmarshal_deliver_report_sound t s t1 : Forall is_byte s -> sound t -> no_ud t ->
  unmarshal_deliver_report t s = Ok t1 ->
  sound t1 /\ ud_sound t1 /\ exists f pi p d h u,
    t1 = set_UDHf (set_UDf (set_DCSf (set_PIDf (set_PI (set_FCS t f) pi) p) d) u) h.
Proof.
  intros HB HS HN H. unfold unmarshal_deliver_report in H. inv_ok' H. octets.
  apply unmarshal_optionals_sound in H as (S & p & d & h & u & Bp & Bd & ->); [|assumption|now dtpdu t| |].
  - split; [|split; [assumption|now eauto 10]]. finish t.
  - finish t.
  - finish t.
Qed.

Lemma unmarshal_submit_report_sound t s t1 : Forall is_byte s -> sound t -> no_ud t ->
  unmarshal_submit_report t s = Ok t1 ->
  sound t1 /\ ud_sound t1 /\ exists f pi ts p d h u,
    t1 = set_UDHf (set_UDf (set_DCSf (set_PIDf (set_SCTS (set_PI (set_FCS t f) pi) ts) p) d) u) h.
Proof.
  intros HB HS HN H. unfold unmarshal_submit_report in H. inv_ok' H. octets.
  apply unmarshal_optionals_sound in H as (S & p & d & h & u & Bp & Bd & ->); [|assumption|now dtpdu t| |].
  - split; [|split; [assumption|now eauto 10]]. finish t.
  - finish t.
  - finish t.
Qed.

Lemma unmarshal_status_report_sound t s t1 : Forall is_byte s -> sound t -> no_ud t ->
  unmarshal_status_report t s = Ok t1 ->
  sound t1 /\ ud_sound t1 /\ exists m a ts dt st pi p d h u,
    t1 = set_UDHf (set_UDf (set_DCSf (set_PIDf (set_PI (set_ST (set_DT (set_SCTS (set_RA (set_MR t m) a) ts) dt) st) pi) p) d) u) h.
Proof.
  intros HB HS HN H. unfold unmarshal_status_report in H. inv_ok' H; octets.
  - apply unmarshal_optionals_sound in H as (S & p & d & h & u & Bp & Bd & ->); [|assumption|now dtpdu t| |].
    + split; [finish t|]. split; [assumption|]. now do 10 eexists.
    + finish t.
    + finish t.
  - apply ok_inj in H. subst t1. split; [finish t|]. split; [apply no_ud_sound; now dtpdu t|].
    do 5 eexists. exists (PI t), (PID t), (DCS t), (UDH t), (UD t). now dtpdu t.
Qed.

Lemma type_dir fo mo : let dir := if mo : bool then MO else MT in
  let t0 := set_FO (set_Direction zero_tpdu dir) fo in
  dir = if (tpdu_type t0 =? SmsSubmit) || (tpdu_type t0 =? SmsCommand) || (tpdu_type t0 =? SmsDeliverReport) then MO else
        if (tpdu_type t0 =? SmsDeliver) || (tpdu_type t0 =? SmsSubmitReport) || (tpdu_type t0 =? SmsStatusReport) then MT else dir.
Proof.
  cbv zeta. unfold tpdu_type. cbn [set_FO set_Direction zero_tpdu Direction FO].
  assert (H : 0 <= fo_mti fo < 4).
  { unfold fo_mti. change FoMTIMask with (Z.ones 2). rewrite Z.land_ones by lia. change (2 ^ 2) with 4. lia. }
  assert (fo_mti fo = 0 \/ fo_mti fo = 1 \/ fo_mti fo = 2 \/ fo_mti fo = 3) as [-> |[-> |[-> | ->]]] by lia;
  destruct mo; reflexivity.
Qed.

Lemma unmarshal_sound src mo t : Forall is_byte src -> unmarshal src mo = Ok t ->
  sound t /\ ud_sound t /\ only_own_fields t.
Proof.
  intros HB H. unfold unmarshal in H.
  destruct (tpdu_unmarshal_type _ _ _ H) as (HD & HF).
  unfold tpdu_unmarshal in H. destruct (len src <? 1); [discriminate|].
  apply bind_ok in H as (fo & Ef & H). cbv zeta in H. apply bind_ok in H as (s & Es & H).
  rewrite Ef in HF. apply ok_inj in HF. pose proof (idx_byte _ _ _ HB Ef) as Bf.
  pose proof (slice_from_bytes _ _ _ HB Es) as Bs.
  set (dir := if mo then MO else MT) in *.
  set (t0 := set_FO (set_Direction zero_tpdu dir) fo) in *.
  pose proof zero_octet as Z0.
  assert (S0 : sound t0).
  { assert (A0 : addr_sound zero_address).
    { unfold addr_sound. cbn. split; [exact Z0|]. split; [constructor|]. intros _. split; [constructor|lia]. }
    unfold sound, octet_fields, addresses_sound, t0. cbn [zero_tpdu set_FO set_Direction FO FCS MR CT MN PI ST PID DCS OA DA RA].
    repeat match goal with |- _ /\ _ => split end; assumption. }
  assert (N0 : no_ud t0) by (split; reflexivity).
  assert (HT : tpdu_type t = tpdu_type t0).
  { unfold tpdu_type. rewrite HD, <- HF. reflexivity. }
  unfold only_own_fields. cbv zeta. rewrite HT.
  assert (HDir : dir =
    if (tpdu_type t0 =? SmsSubmit) || (tpdu_type t0 =? SmsCommand) || (tpdu_type t0 =? SmsDeliverReport) then MO else
    if (tpdu_type t0 =? SmsDeliver) || (tpdu_type t0 =? SmsSubmitReport) || (tpdu_type t0 =? SmsStatusReport) then MT else dir)
   by exact (type_dir fo mo).
  destruct (tpdu_type t0 =? SmsDeliver) eqn:E1; [|destruct (tpdu_type t0 =? SmsDeliverReport) eqn:E2;
    [|destruct (tpdu_type t0 =? SmsSubmitReport) eqn:E3; [|destruct (tpdu_type t0 =? SmsSubmit) eqn:E4;
    [|destruct (tpdu_type t0 =? SmsStatusReport) eqn:E5; [|destruct (tpdu_type t0 =? SmsCommand) eqn:E6;
    [|discriminate]]]]]]; apply on_err_ok in H;
  [apply unmarshal_deliver_sound in H|apply unmarshal_deliver_report_sound in H|apply unmarshal_submit_report_sound in H
  |apply unmarshal_submit_sound in H|apply unmarshal_status_report_sound in H|apply unmarshal_command_sound in H];
  try assumption; destruct H as (R1 & R2 & H);
  (split; [exact R1|]; split; [exact R2|]);
  repeat match goal with H : exists _, _ |- _ => destruct H as [? H] end;
  match goal with E : (tpdu_type t0 =? ?k) = true |- _ => apply Z.eqb_eq in E; rename E into ET end;
  try rewrite ET in HDir; rewrite ET;
  cbv [SmsDeliver SmsDeliverReport SmsSubmitReport SmsSubmit SmsStatusReport SmsCommand orb Z.eqb Pos.eqb] in HDir;
  repeat match goal with |- _ /\ _ => split end; intros X; try discriminate X;
  unfold t0 in H; rewrite HDir in H; subst t; reflexivity.
Qed.
