(** C32, C33: the data coding scheme and the flag setters. *)
From Verif Require Import GoBase GoLemmas SafeLemmas Dcs FirstOctet SpecDcs UserData Tpdu ValidityPeriod SegmentProofs
  FlagsProofs.

(** ** C32 *)

(** The getters mean what the standard says, for every octet. *)
Theorem C32_alphabet_meaning : forall d, is_byte d ->
  dcs_alphabet d = match alphabet_of d with Some a => Ok a | None => Err ErrInvalid end.
Proof. exact alphabet_meaning. Qed.
Print Assumptions C32_alphabet_meaning.

Theorem C32_class_meaning : forall d, is_byte d ->
  dcs_class d = match class_of d with
                | Some c => Ok c
                | None => match coding_group d with
                          | Waiting7Bit | WaitingUcs2 => Ok MClassUnknown
                          | _ => Err ErrInvalid
                          end
                end.
Proof. exact class_meaning. Qed.
Print Assumptions C32_class_meaning.

Theorem C32_compressed_meaning : forall d, is_byte d -> dcs_compressed d = compressed d.
Proof. exact compressed_meaning. Qed.
Print Assumptions C32_compressed_meaning.

(** An alphabet or class outside the ones a DCS can carry is accepted in the
    general group, and then read back differently or changes the other field:
    the library's own constants AlphaReserved (3) and MClassUnknown (4). *)
Theorem C32_reserved_refuted :
  (exists d d', is_byte d /\ dcs_with_alphabet d AlphaReserved = Ok d' /\ dcs_alphabet d' <> Ok AlphaReserved) /\
  (exists d d', is_byte d /\ dcs_with_class d MClassUnknown = Ok d' /\ dcs_class d' <> Ok MClassUnknown /\
     dcs_alphabet d' <> dcs_alphabet d).
Proof.
  split.
  - exists 0, 12. split; [unfold is_byte; lia|]. split; [reflexivity|]. vm_compute. discriminate.
  - exists 0, 20. split; [unfold is_byte; lia|]. split; [reflexivity|]. split; vm_compute; discriminate.
Qed.
Print Assumptions C32_reserved_refuted.

(** Setting one of the three alphabets.  Missing for the full claim: the value
    AlphaReserved. *)
Theorem C32_with_alphabet_partial : forall d a, is_byte d -> 0 <= a <= 2 ->
  (is_ok (dcs_with_alphabet d a) = alphabet_expressible (coding_group d) a) /\
  forall d', dcs_with_alphabet d a = Ok d' ->
    is_byte d' /\ dcs_alphabet d' = Ok a /\ dcs_class d' = dcs_class d /\
    dcs_compressed d' = dcs_compressed d /\ coding_group d' = coding_group d /\ d' / 16 = d / 16.
Proof.
  intros d a Hd Ha. pose proof (with_alphabet_spec d a Hd Ha) as H.
  destruct (alphabet_expressible (coding_group d) a).
  - destruct H as (d' & E & B & HA & HC & HG & HZ & HH). rewrite E. split; [reflexivity|].
    intros d'' E'. assert (d'' = d') as -> by congruence.
    rewrite alphabet_meaning, !class_meaning, !compressed_meaning, HA, HC, HG, HZ by assumption.
    tauto.
  - rewrite H. split; [reflexivity|]. discriminate.
Qed.
Print Assumptions C32_with_alphabet_partial.

(** Setting one of the four classes.  Bit 4, which says that a general octet has
    a class, is set with it.  Missing for the full claim: the value
    MClassUnknown. *)
Theorem C32_with_class_partial : forall d c, is_byte d -> 0 <= c <= 3 ->
  (is_ok (dcs_with_class d c) = class_expressible (coding_group d)) /\
  forall d', dcs_with_class d c = Ok d' ->
    is_byte d' /\ dcs_class d' = Ok c /\ dcs_alphabet d' = dcs_alphabet d /\
    dcs_compressed d' = dcs_compressed d /\ coding_group d' = coding_group d /\
    d' / 32 = d / 32 /\ d' / 4 mod 4 = d / 4 mod 4.
Proof.
  intros d a Hd Ha. pose proof (with_class_spec d a Hd Ha) as H.
  destruct (class_expressible (coding_group d)).
  - destruct H as (d' & E & B & HA & HC & HG & HZ & HH). rewrite E. split; [reflexivity|].
    intros d'' E'. assert (d'' = d') as -> by congruence.
    rewrite !alphabet_meaning, class_meaning, !compressed_meaning, HA, HC, HG, HZ by assumption.
    tauto.
  - rewrite H. split; [reflexivity|]. discriminate.
Qed.
Print Assumptions C32_with_class_partial.

Lemma land_3 x : 0 <= Z.land x 3 <= 3.
Proof. change 3 with (Z.ones 2) at 1 2. rewrite Z.land_ones by lia. pose proof (Z.mod_pos_bound x (2 ^ 2)). lia. Qed.

(** These are all the values, of all integers, that are read back when they have
    been accepted. *)
Theorem C32_alphabet_exactly : forall d a d', is_byte d -> dcs_with_alphabet d a = Ok d' ->
  (dcs_alphabet d' = Ok a <-> 0 <= a <= 2).
Proof.
  intros d a d' Hd E. split; intros H.
  - unfold dcs_alphabet, dcs_alpha, dcs_alphabet_raw in H.
    pose proof (land_3 (Z.shiftr d' 2)) as R.
    destruct (Z.land d' 128 =? 0); [|destruct (Z.land d' 224 =? 192); [|destruct (Z.land d' 240 =? 224);
      [|destruct (Z.land d' 240 =? 240); [destruct (Z.land d' 4 =? 4)|]]]]; cbn [fst snd] in H; try discriminate;
      apply ok_inj in H; unfold Alpha7Bit, Alpha8Bit, AlphaUCS2, AlphaReserved in *; try lia.
    destruct (Z.eqb_spec (Z.land (Z.shiftr d' 2) 3) 3); lia.
  - now apply (C32_with_alphabet_partial d a Hd H).
Qed.
Print Assumptions C32_alphabet_exactly.
Theorem C32_class_exactly : forall d c d', is_byte d -> dcs_with_class d c = Ok d' ->
  (dcs_class d' = Ok c <-> 0 <= c <= 3).
Proof.
  intros d c d' Hd E. split; intros H.
  - unfold dcs_class in H. pose proof (land_3 d') as R.
    destruct ((Z.land d' 144 =? 16) || (Z.land d' 240 =? 240)) eqn:G; [apply ok_inj in H; lia|].
    destruct ((Z.land d' 224 =? 192) || (Z.land d' 240 =? 224)); [|discriminate].
    apply ok_inj in H. unfold MClassUnknown in H. subst c. exfalso. revert d' E R G.
    assert (C : match dcs_with_class d 4 with
                | Ok d' => (Z.land d' 144 =? 16) || (Z.land d' 240 =? 240) | _ => true end = true).
    { apply (zrange_sweep 256 (fun d => match dcs_with_class d 4 with
                | Ok d' => (Z.land d' 144 =? 16) || (Z.land d' 240 =? 240) | _ => true end)); [vm_compute; reflexivity|exact Hd]. }
    intros d' E R G. rewrite E in C. congruence.
  - now apply (C32_with_class_partial d c Hd H).
Qed.
Print Assumptions C32_class_exactly.

Example C32_instance :
  dcs_with_alphabet 49 AlphaUCS2 = Ok 57 /\ dcs_class 57 = Ok 1 /\ dcs_compressed 57 = true /\
  dcs_with_alphabet 200 Alpha8Bit = Err ErrInvalid /\ dcs_with_class 36 2 = Ok 54 /\
  dcs_with_class 128 2 = Err ErrInvalid.
Proof. vm_compute. repeat split. Qed.

(** ** C33 *)

Ltac fields := cbn [Direction FO OA FCS MR CT MN DA RA PI SCTS DT ST PID DCS VP UDH UD
  set_Direction set_FO set_PI is_ok set_DCSf set_PIDf set_VPf set_UDf set_UDHf
  set_sms_type set_dcs set_pid set_vp set_ud set_udh tpdu_type] in *.

(** The getters read the bits of the standard. *)
Theorem C33_getters : forall f,
  fo_udhi f = Z.testbit f 6 /\ fo_rp f = Z.testbit f 7 /\ fo_srr f = Z.testbit f 5 /\
  fo_sri f = Z.testbit f 5 /\ fo_srq f = Z.testbit f 5 /\ fo_lp f = Z.testbit f 3 /\
  fo_mms f = Z.testbit f 2 /\ fo_rd f = Z.testbit f 2 /\
  fo_mti f = f mod 4 /\ fo_vpf f = f / 8 mod 4 /\
  pi_pid f = Z.testbit f 0 /\ pi_dcs f = Z.testbit f 1 /\ pi_udl f = Z.testbit f 2.
Proof.
  intros f. unfold fo_udhi, fo_rp, fo_srr, fo_sri, fo_srq, fo_lp, fo_mms, fo_rd, pi_pid, pi_dcs, pi_udl.
  change FoUDHI with (2 ^ 6). change FoRP with (2 ^ 7). change FoSRR with (2 ^ 5). change FoSRI with (2 ^ 5).
  change FoSRQ with (2 ^ 5). change FoLP with (2 ^ 3). change FoMMS with (2 ^ 2). change FoRD with (2 ^ 2).
  change PiPID with (2 ^ 0). change PiDCS with (2 ^ 1). change PiUDL with (2 ^ 2).
  rewrite !testbit_pow2 by lia. do 8 (split; [reflexivity|]).
  split. { unfold fo_mti, FoMTIMask. change 3 with (Z.ones 2). rewrite Z.land_ones by lia. reflexivity. }
  split; [|tauto]. unfold fo_vpf, FoVPFMask, FoVPFShift. rewrite Z.shiftr_land.
  change (Z.shiftr 24 3) with (Z.ones 2). rewrite Z.land_ones, Z.shiftr_div_pow2 by lia. reflexivity.
Qed.
Print Assumptions C33_getters.

(** SetSmsType accepts exactly the six types. *)
Theorem C33_set_sms_type : forall t st, is_byte (FO t) ->
  (is_ok (set_sms_type t st) = true <-> 0 <= st <= 5) /\
  forall t', set_sms_type t st = Ok t' ->
    tpdu_type t' = st /\ same_bits_except [0; 1] (FO t) (FO t') /\
    t' = set_FO (set_Direction t (Direction t')) (FO t').
Proof.
  intros t st Hf. dtpdu t. fields.
  unfold set_sms_type. fields. destruct ((st <? 0) || (SmsCommand <? st)) eqn:E.
  { split; [|discriminate]. split; [discriminate|]. unfold SmsCommand in E. lia. }
  assert (Hst : 0 <= st <= 5) by (unfold SmsCommand in E; lia).
  assert (Hm : 0 <= Z.shiftr st 1 <= 3) by (rewrite Z.shiftr_div_pow2 by lia; change (2 ^ 1) with 2; lia).
  destruct (with_mti_spec fo0 _ Hf Hm) as (B & M & S).
  split; [split; [intros; assumption|reflexivity]|].
  intros t' H. apply ok_inj in H. subst t'. split; [|split; [exact S|reflexivity]].
  unfold tpdu_type. fields. rewrite M.
  assert (st = 0 \/ st = 1 \/ st = 2 \/ st = 3 \/ st = 4 \/ st = 5) as [-> |[-> |[-> |[-> |[-> | ->]]]]] by lia;
    reflexivity.
Qed.
Print Assumptions C33_set_sms_type.

Theorem C33_set_vp : forall t v, is_byte (FO t) -> 0 <= vp_format v <= 3 ->
  let t' := set_vp t v in
  VP t' = v /\ fo_vpf (FO t') = vp_format v /\ same_bits_except [3; 4] (FO t) (FO t') /\
  t' = set_VPf (set_FO t (FO t')) (VP t').
Proof.
  intros t v Hf Hv. cbv zeta. dtpdu t. fields.
  rewrite set_vp_fo; [|assumption|unfold is_byte; lia]. rewrite Z.mod_small by lia.
  destruct (with_vpf_spec fo0 _ Hf Hv) as (B & M & S). repeat split; assumption.
Qed.
Print Assumptions C33_set_vp.

Theorem C33_set_dcs : forall t d,
  let t' := set_dcs t d in
  DCS t' = d /\ pi_dcs (PI t') = true /\ same_bits_except [1] (PI t) (PI t') /\
  t' = set_DCSf (set_PI t (PI t')) (DCS t').
Proof.
  intros t d. cbv zeta. dtpdu t. fields. destruct (lor_bit pi0 1 ltac:(lia)) as (A & B).
  split; [reflexivity|]. split; [|split; [exact A|reflexivity]].
  unfold pi_dcs. change PiDCS with (2 ^ 1). rewrite testbit_pow2 by lia. exact B.
Qed.
Print Assumptions C33_set_dcs.

Theorem C33_set_pid : forall t p,
  let t' := set_pid t p in
  PID t' = p /\ pi_pid (PI t') = true /\ same_bits_except [0] (PI t) (PI t') /\
  t' = set_PIDf (set_PI t (PI t')) (PID t').
Proof.
  intros t d. cbv zeta. dtpdu t. fields. destruct (lor_bit pi0 0 ltac:(lia)) as (A & B).
  split; [reflexivity|]. split; [|split; [exact A|reflexivity]].
  unfold pi_pid. change PiPID with (2 ^ 0). rewrite testbit_pow2 by lia. exact B.
Qed.
Print Assumptions C33_set_pid.

(** SetUD: the indicator is set exactly for a non-nil argument. *)
Theorem C33_set_ud : forall t u, is_byte (PI t) ->
  let t' := set_ud t u in
  UD t' = match u with Some b => b | None => [] end /\
  pi_udl (PI t') = match u with Some _ => true | None => false end /\
  same_bits_except [2] (PI t) (PI t') /\ t' = set_PI (set_UDf t (UD t')) (PI t').
Proof.
  intros t u Hp. cbv zeta. dtpdu t. destruct u as [b|]; fields; unfold pi_udl; change PiUDL with (2 ^ 2);
    rewrite testbit_pow2 by lia.
  - destruct (lor_bit pi0 2 ltac:(lia)) as (A & B). repeat split; assumption.
  - destruct (andnot_bit pi0 2 Hp ltac:(lia)) as (A & B). repeat split; assumption.
Qed.
Print Assumptions C33_set_ud.

(** SetUDH: the header indicator is set exactly for a non-nil argument, which
    also announces user data; nil leaves the announcement as it is. *)
Theorem C33_set_udh : forall t u, is_byte (FO t) -> 
  let t' := set_udh t u in
  UDH t' = u /\ fo_udhi (FO t') = match u with Some _ => true | None => false end /\
  same_bits_except [6] (FO t) (FO t') /\
  (match u with
   | Some _ => pi_udl (PI t') = true /\ same_bits_except [2] (PI t) (PI t')
   | None => PI t' = PI t
   end) /\
  t' = set_FO (set_PI (set_UDHf t (UDH t')) (PI t')) (FO t').
Proof.
  intros t u Hf. cbv zeta. dtpdu t. destruct u as [l|]; fields; unfold fo_udhi, pi_udl; change FoUDHI with (2 ^ 6);
    change PiUDL with (2 ^ 2); rewrite !testbit_pow2 by lia.
  - destruct (lor_bit fo0 6 ltac:(lia)) as (A & B). destruct (lor_bit pi0 2 ltac:(lia)) as (A1 & B1).
    repeat split; assumption.
  - destruct (andnot_bit fo0 6 Hf ltac:(lia)) as (A & B). repeat split; assumption.
Qed.
Print Assumptions C33_set_udh.

Example C33_instance :
  let t := set_FO (set_PI zero_tpdu 2) 236 in
  (FO (set_vp t (vp_relative 0)), FO (set_udh t None), PI (set_udh t (Some [])), PI (set_ud t (Some [1]))) =
  (244, 172, 6, 6) /\
  (exists t', set_sms_type t SmsStatusReport = Ok t' /\ FO t' = 238 /\ Direction t' = MT).
Proof. split; [vm_compute; reflexivity|]. eexists. repeat split. Qed.
