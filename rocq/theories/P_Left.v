(** C67: what a failed UnmarshalBinary leaves in the TPDU. *)
From Verif Require Import GoBase GoLemmas Dcs FirstOctet Address GoTime ValidityPeriod UserData Tpdu
  TpduLeft SpecLeft LeftProofs.

(** The model that keeps the receiver succeeds and fails as the one without,
    with the same TPDU or the same error. *)
Theorem C67_outcome : forall t src,
  (forall r, tpdu_unmarshal t src = Ok r <-> unmarshal_left t src = (r, Ok tt)) /\
  (forall e, tpdu_unmarshal t src = Err e <-> exists l, unmarshal_left t src = (l, Err e)).
Proof.
  intros t src. rewrite <- outcome_unmarshal.
  destruct (unmarshal_left t src) as [l [[]|e| |]]; cbn [outcome]; split.
  - intros r. split; congruence.
  - intros e. split; [discriminate|]. intros (l' & H). congruence.
  - intros r. split; congruence.
  - intros e'. split; [intros H; injection H as <-; now exists l|]. intros (l' & H). congruence.
  - intros r. split; congruence.
  - intros e'. split; [discriminate|]. intros (l' & H). congruence.
  - intros r. split; congruence.
  - intros e'. split; [discriminate|]. intros (l' & H). congruence.
Qed.
Print Assumptions C67_outcome.

(** A failed call has unmarshalled the TPDU up to the field the error names:
    what stands before it is as in every TPDU that begins with the same octets
    (there is one), what comes after it is as before the call, and so is the
    direction and every field this type does not have. *)
Theorem C67_up_to_the_error : forall t src l e,
  let st := tpdu_type (set_FO t (nth 0 src 0)) in
  Forall is_byte src -> src <> [] ->
  In st [SmsDeliver; SmsDeliverReport; SmsSubmitReport; SmsSubmit; SmsStatusReport; SmsCommand] ->
  unmarshal_left t src = (l, Err e) ->
  exists f start path off inner,
    e = DecodeErr path off inner /\ names path st f /\ 1 <= start <= off /\ start <= len src /\
    unmarshalled_up_to tpdu_unmarshal st f start src t l /\
    exists rest r, Forall is_byte rest /\
      tpdu_unmarshal t (firstn (Z.to_nat start) src ++ rest) = Ok r.
Proof.
  intros t src l e st HB NE HI H. destruct src as [|fo s]; [congruence|]. cbn [nth] in st.
  apply Forall_inv_tail in HB. apply left_up_to; [assumption| |assumption]. fold st.
  unfold SmsDeliver, SmsDeliverReport, SmsSubmitReport, SmsSubmit, SmsStatusReport, SmsCommand in HI.
  unfold known_type. cbn [existsb]. cbn [In] in HI. lia.
Qed.
Print Assumptions C67_up_to_the_error.

(** Without any octet nothing changes; if the first octet announces no type,
    it is set to 0 and nothing else changes. *)
Theorem C67_no_type : forall t src l e, Forall is_byte src -> unmarshal_left t src = (l, Err e) ->
  (src = [] -> l = t) /\
  (src <> [] ->
   ~ In (tpdu_type (set_FO t (nth 0 src 0)))
       [SmsDeliver; SmsDeliverReport; SmsSubmitReport; SmsSubmit; SmsStatusReport; SmsCommand] ->
   FO l = 0 /\ forall g, g <> F_FO -> agree g l t).
Proof.
  intros t src l e HB H. split.
  - intros ->. cbn in H. congruence.
  - intros NE HN. destruct src as [|fo s]; [congruence|]. cbn [nth] in HN.
    rewrite unmarshal_left_go in H by (now apply Forall_inv_tail in HB). cbv zeta in H.
    assert (K : known_type (tpdu_type (set_FO t fo)) = false).
    { unfold SmsDeliver, SmsDeliverReport, SmsSubmitReport, SmsSubmit, SmsStatusReport, SmsCommand in HN.
      unfold known_type. cbn [existsb]. cbn [In] in HN. lia. }
    rewrite K in H. apply (f_equal fst) in H. cbn [fst] in H. subst l. split; [now destruct t|].
    intros g N. eapply agree_trans; apply so_FO; exact N.
Qed.
Print Assumptions C67_no_type.

(** The field the error names does not always survive: a SUBMIT that ends within
    its validity period takes the format of the period the TPDU had, a COMMAND
    that ends before its message reference takes the reference, and a DELIVER
    that ends before its protocol identifier takes the identifier. *)
Definition used : tpdu :=
  set_VPf (set_MR (set_PIDf (set_Direction zero_tpdu MO) 5) 9)
    {| vp_format := VpfRelative; vp_time := zero_time; vp_duration := 300000000000; vp_efi := 0 |}.
Theorem C67_failed_field_lost :
  (exists src l e, unmarshal_left used src = (l, Err e) /\ FO l = 0x11 /\
     vp_format (VP used) = VpfRelative /\ vp_format (VP l) = VpfNotPresent /\ MR l = 7) /\
  (exists src l e, unmarshal_left used src = (l, Err e) /\ FO l = 0x02 /\ MR used = 9 /\ MR l = 0) /\
  (exists src l e, unmarshal_left (set_Direction used MT) src = (l, Err e) /\ PID used = 5 /\ PID l = 0).
Proof.
  split; [|split].
  - exists [0x11; 7; 0; 0x81; 0; 0]. eexists. eexists. split; [vm_compute; reflexivity|]. repeat split.
  - exists [0x02]. eexists. eexists. split; [vm_compute; reflexivity|]. repeat split.
  - exists [0x04; 0; 0x81]. eexists. eexists. split; [vm_compute; reflexivity|]. repeat split.
Qed.
Print Assumptions C67_failed_field_lost.

(** A DELIVER cut off in its time stamp: the sender, PID and DCS are there, the
    error names the stamp, the old user data stays. *)
Example C67_instance :
  let t := set_UDf zero_tpdu [1; 2] in
  let src := [0x04; 4; 0x91; 0x21; 0x43; 0x07; 0x04; 0x51; 0x50] in
  exists l, unmarshal_left t src = (l, Err (DecodeErr "SmsDeliver.scts" 7 ErrUnderflow)) /\
    a_addr (OA l) = [49; 50; 51; 52] /\ PID l = 7 /\ DCS l = 4 /\ SCTS l = zero_time /\ UD l = [1; 2] /\
    Forall is_byte src /\
    In (tpdu_type (set_FO t (nth 0 src 0)))
      [SmsDeliver; SmsDeliverReport; SmsSubmitReport; SmsSubmit; SmsStatusReport; SmsCommand].
Proof.
  eexists. split; [vm_compute; reflexivity|]. do 5 (split; [reflexivity|]). split.
  - repeat (apply Forall_cons; [unfold is_byte; lia|]). apply Forall_nil.
  - vm_compute. tauto.
Qed.
(** A stamp with an impossible digit in a status report: the error stands within
    the field that starts at 5. *)
Example C67_instance_status :
  exists l, unmarshal_left zero_tpdu [0x02; 8; 2; 0x91; 0x21; 0xFA; 0; 0; 0; 0; 0; 0] =
      (l, Err (DecodeErr "SmsStatusReport.scts" 5 (BcdInvalidOctet 0xFA))) /\
    MR l = 8 /\ a_addr (RA l) = [49; 50].
Proof. eexists. split; [vm_compute; reflexivity|]. split; reflexivity. Qed.
Example C67_no_type_instance :
  exists l e, unmarshal_left used [0x03; 1] = (l, Err e) /\ FO l = 0 /\ PID l = 5.
Proof. eexists. eexists. split; [vm_compute; reflexivity|]. split; reflexivity. Qed.
