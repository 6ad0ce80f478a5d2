(** C79: what Unmarshal says of octets it does not accept.  [unmarshal] models
    sms.Unmarshal, without and with the option AsMO.  Which octets cannot be read,
    and what is said of them, is SpecRefuse. *)
From Verif Require Import GoBase GoLemmas SafeLemmas TpduError Address GoTime ValidityPeriod UserData Tpdu Sms AddressProofs TimeProofs VPProofs UdProofs TpduProofs
  SpecText SpecBits SpecDigits SpecDcs SpecVP SpecTpdu SpecWire SpecRefuse WireProofs RefuseTpdu RefuseTypes.

(** An error is returned exactly if the octets cannot be read, and it names the
    first field that cannot be, the octet and the reason. *)
Theorem C79_error : forall src mo e, Forall is_byte src ->
  (unmarshal src mo = Err e <-> unreadable mo src e).
Proof. exact unreadable_iff. Qed.
Print Assumptions C79_error.

(** Octets are those of a TPDU or cannot be read, and not both. *)
Theorem C79_readable_or_not : forall src mo, Forall is_byte src ->
  ((exists t, tpdu_octets mo t src) \/ exists e, unreadable mo src e) /\
  ~ ((exists t, tpdu_octets mo t src) /\ exists e, unreadable mo src e).
Proof.
  intros src mo HB. split.
  - destruct (unmarshal src mo) as [t|e| |] eqn:E.
    + left. exists t. now apply wire_iff.
    + right. exists e. now apply unreadable_iff.
    + pose proof (TpduSafeProofs.tpdu_unmarshal_safe (set_Direction zero_tpdu (if mo then MO else MT)) src HB) as S. unfold unmarshal in E. rewrite E in S. destruct S.
    + pose proof (TpduSafeProofs.tpdu_unmarshal_safe (set_Direction zero_tpdu (if mo then MO else MT)) src HB) as S. unfold unmarshal in E. rewrite E in S. destruct S.
  - intros ((t & T) & e & U). apply wire_iff in T; [|exact HB]. apply unreadable_iff in U; [|exact HB]. congruence.
Qed.
Print Assumptions C79_readable_or_not.

(** One thing is said of them. *)
Theorem C79_one_error : forall src mo e e', Forall is_byte src -> unreadable mo src e -> unreadable mo src e' -> e = e'.
Proof.
  intros src mo e e' HB U U'. apply unreadable_iff in U; [|exact HB]. apply unreadable_iff in U'; [|exact HB]. congruence.
Qed.
Print Assumptions C79_one_error.

(** The fields on their own: Address.UnmarshalBinary, Timestamp.UnmarshalBinary,
    ValidityPeriod.UnmarshalBinary, whatever was in the receiver, and
    UserDataHeader.UnmarshalBinary. *)
Theorem C79_address : forall b e, Forall is_byte b -> (addr_unmarshal b = Err e <-> exists f, address_fails b f /\ e = alone f).
Proof. intros. now apply address_fails_iff. Qed.
Print Assumptions C79_address.

Theorem C79_timestamp : forall b e, Forall is_byte b -> (ts_unmarshal b = Err e <-> exists f, time_fails b f /\ e = alone f).
Proof. intros. now apply time_fails_iff. Qed.
Print Assumptions C79_timestamp.

Theorem C79_validity_period : forall v b format e, Forall is_byte b ->
  (vp_unmarshal v b format = Err e <-> exists f, period_fails format b f /\ e = alone f).
Proof.
  intros v b format e HB. rewrite <- period_fails_iff by exact HB. unfold vp_unmarshal.
  destruct (format =? VpfAbsolute); [destruct (ts_unmarshal b); cbn [bind]; split; congruence|].
  destruct (format =? VpfEnhanced); [destruct (vp_unmarshal_enhanced b) as [[x y]|e1| |]; cbn [bind]; split; congruence|].
  destruct (format =? VpfRelative); [destruct (len b <? 1); [reflexivity|]; destruct (idx b 0); cbn [bind]; split; congruence|].
  destruct (format =? VpfNotPresent); [split; discriminate|reflexivity].
Qed.
Print Assumptions C79_validity_period.

Theorem C79_header : forall b e, Forall is_byte b -> (udh_unmarshal b = Err e <-> exists f, header_fails b f /\ e = alone f).
Proof. intros. now apply header_fails_iff. Qed.
Print Assumptions C79_header.

(** ** Instances *)
Ltac octets := repeat (constructor; [unfold is_byte; lia|]); constructor.

(** A submit with a header whose second element, at octet 14, goes on for longer
    than the octets do; the place is that of its data, octet 16. *)
Definition C79_cut : bytes := [81; 7; 4; 145; 54; 25; 0; 4; 167; 7; 6; 4; 1; 170; 5; 9; 1].
Example C79_cut_unreadable : unreadable true C79_cut (DecodeErr "SmsSubmit.ud.udh.ied" 16 ErrUnderflow).
Proof.
  apply (ur_field true ([81; 7] ++ [4; 145; 54; 25] ++ [0; 4] ++ [167]) "SmsSubmit.ud" (user_data_fails true 4) [7; 6; 4; 1; 170; 5; 9; 1] "udh.ied" 7 ErrUnderflow).
  - apply (s_ud 81 7 {| a_toa := 145; a_addr := [54; 51; 57; 49] |} [4; 145; 54; 25] 0 4 (vp_relative (hours 24)) [167]); [reflexivity| |].
    + apply (ao_number 4 145 [54; 25]); [discriminate|reflexivity|reflexivity].
    + apply (po_relative 167). apply (rv_30min 167). lia.
  - apply (uf_header true 4 7 [6; 4; 1; 170; 5; 9; 1] 1 "ied" 6 ErrUnderflow); [discriminate|reflexivity|reflexivity|reflexivity|].
    apply (hf_data 6 [{| ie_id := 4; ie_data := [170] |}] 5 9 [1]); vm_compute; [discriminate|discriminate|reflexivity].
Qed.
Example C79_cut_refused : unmarshal C79_cut true = Err (DecodeErr "SmsSubmit.ud.udh.ied" 16 ErrUnderflow).
Proof. apply C79_error; [octets|exact C79_cut_unreadable]. Qed.

(** Others, field by field. *)
Example C79_others :
  unreadable false [0; 4; 145; 54; 249] (DecodeErr "SmsDeliver.oa.addr" 3 ErrUnderflow) /\
  unreadable false [0; 3; 145; 54; 25; 0] (DecodeErr "SmsDeliver.oa.addr" 3 SemiMissingFill) /\
  unreadable false [0; 4; 208; 155; 15; 0] (DecodeErr "SmsDeliver.oa.addr" 3 (Gsm7InvalidSeptet 31)) /\
  unreadable false [0; 0; 145; 0; 0; 2; 0; 10; 0; 0; 0; 0] (DecodeErr "SmsDeliver.scts" 5 (BcdInvalidOctet 10)) /\
  unreadable true [9; 7; 0; 145; 0; 0; 2; 9; 0; 1; 0; 0; 0] (DecodeErr "SmsSubmit.vp.enhanced" 9 ErrNonZero) /\
  unreadable true [1; 7; 0; 145; 0; 8; 3; 0; 65; 0] (DecodeErr "SmsSubmit.ud.sm" 7 ErrOddUCS2Length) /\
  unreadable true [0; 7; 6; 0] (DecodeErr "SmsDeliverReport.ud.udl" 4 ErrUnderflow) /\
  unreadable true [] (DecodeErr "tpdu.firstOctet" 0 ErrUnderflow).
Proof. repeat split; (apply C79_error; [octets|vm_compute; reflexivity]). Qed.
