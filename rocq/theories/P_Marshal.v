(** C77: what MarshalBinary makes of any TPDU.  [tpdu_marshal] models
    TPDU.MarshalBinary; [addr_marshal], [ts_marshal] and [vp_marshal] the methods
    of that name of Address, Timestamp and ValidityPeriod.  The specification is
    SpecMarshal. *)
From Verif Require Import GoBase GoLemmas SafeLemmas Address GoTime ValidityPeriod UserData Tpdu
  SpecText SpecBits SpecDigits SpecTime SpecVP SpecDcs SpecAlphabet SpecShown SpecSegment SpecMarshal MarshalProofs MarshalTpdu.

(** The octets it writes are those described, for exactly the TPDUs described. *)
Theorem C77_written : forall t b, marshal_domain t ->
  (tpdu_marshal t = Ok b <-> tpdu_written t b).
Proof. exact written_iff. Qed.
Print Assumptions C77_written.

(** It fails for exactly the reasons described, and names the field: the first,
    in the order in which fields are looked at, that cannot be written. *)
Theorem C77_refused : forall t e, marshal_domain t ->
  (tpdu_marshal t = Err e <-> tpdu_refused t e).
Proof. exact refused_iff. Qed.
Print Assumptions C77_refused.

(** It does one or the other, and the description allows one outcome only. *)
Theorem C77_one_outcome : forall t, marshal_domain t ->
  ((exists b, tpdu_written t b) \/ (exists e, tpdu_refused t e)) /\
  (forall b b', tpdu_written t b -> tpdu_written t b' -> b = b') /\
  (forall e e', tpdu_refused t e -> tpdu_refused t e' -> e = e') /\
  (forall b e, tpdu_written t b -> tpdu_refused t e -> False) /\
  tpdu_marshal t <> Panic /\ tpdu_marshal t <> Diverge.
Proof.
  intros t D. split; [exact (some_outcome t D)|]. split; [|split; [|split; [|split]]].
  - intros b b' H1 H2. apply (C77_written t _ D) in H1, H2. congruence.
  - intros b b' H1 H2. apply (C77_refused t _ D) in H1, H2. congruence.
  - intros b e H1 H2. apply (C77_written t _ D) in H1. apply (C77_refused t _ D) in H2. congruence.
  - intros E. destruct (some_outcome t D) as [(b & H)|(e & H)]; [apply (C77_written t _ D) in H|apply (C77_refused t _ D) in H]; congruence.
  - intros E. destruct (some_outcome t D) as [(b & H)|(e & H)]; [apply (C77_written t _ D) in H|apply (C77_refused t _ D) in H]; congruence.
Qed.
Print Assumptions C77_one_outcome.

(** The parts that can be written on their own. *)
Theorem C77_address : forall a b, go_address a ->
  (addr_marshal a = Ok b <-> address_gives a (Written b)) /\
  (forall e, addr_marshal a = Err e <-> exists f w, address_gives a (Refused f w) /\ e = (if (f =? "")%string then w else EncodeErr f w)).
Proof. intros a b D. split; [apply (meets_ok _ _ _ (addr_meets a D))|exact (fun e => meets_err _ _ e (addr_meets a D))]. Qed.
Print Assumptions C77_address.
Theorem C77_timestamp : forall t b,
  (ts_marshal t = Ok b <-> time_gives t (Written b)) /\
  (forall e, ts_marshal t = Err e <-> exists f w, time_gives t (Refused f w) /\ e = (if (f =? "")%string then w else EncodeErr f w)).
Proof. intros t b. split; [apply (meets_ok _ _ _ (ts_meets t))|exact (fun e => meets_err _ _ e (ts_meets t))]. Qed.
Print Assumptions C77_timestamp.
Theorem C77_validity_period : forall v b,
  (vp_marshal v = Ok b <-> period_gives v (Written b)) /\
  (forall e, vp_marshal v = Err e <-> exists f w, period_gives v (Refused f w) /\ e = (if (f =? "")%string then w else EncodeErr f w)).
Proof. intros v b. split; [apply (meets_ok _ _ _ (vp_meets v))|exact (fun e => meets_err _ _ e (vp_meets v))]. Qed.
Print Assumptions C77_validity_period.

(** A SUBMIT to 1234 of "hi", valid for an hour. *)
Definition hi (digits : bytes) (dcs : Z) (v : validity) : tpdu :=
  set_UDf (set_DCSf (set_VPf (set_DA (set_MR (set_FO (set_Direction zero_tpdu 1) 17) 7) {| a_toa := 145; a_addr := digits |}) v) dcs) [104; 105].
Definition hour : validity := {| vp_format := 2; vp_time := GoTime.zero_time; vp_duration := 3600000000000; vp_efi := 0 |}.
Example C77_domain : marshal_domain (hi [49; 50; 51; 52] 0 hour).
Proof.
  unfold marshal_domain, go_address, is_byte. cbn. repeat split; try lia; repeat constructor; try lia.
Qed.
Example C77_written_instance : tpdu_written (hi [49; 50; 51; 52] 0 hour) [17; 7; 4; 145; 33; 67; 0; 0; 11; 2; 232; 52].
Proof. apply (C77_written _ _ C77_domain). vm_compute. reflexivity. Qed.
(** Refused: a letter in the number, a coding there is not, and an enhanced
    period with a reserved format. *)
Example C77_refused_digit : tpdu_marshal (hi [49; 120; 51; 52] 240 hour) = Err (EncodeErr "SmsSubmit.da.addr" (SemiInvalidDigit 120)) /\
  tpdu_refused (hi [49; 120; 51; 52] 240 hour) (EncodeErr "SmsSubmit.da.addr" (SemiInvalidDigit 120)).
Proof.
  split; [reflexivity|]. apply (tr_field (hi [49; 120; 51; 52] 240 hour) true "SmsSubmit" [] "da" (address_gives {| a_toa := 145; a_addr := [49; 120; 51; 52] |})
    [("ud"%string, ud_gives (hi [49; 120; 51; 52] 240 hour)); ("vp"%string, period_gives hour)] "addr"); [reflexivity|reflexivity|constructor|].
  apply (ag_digit 145 [49] 120 [51; 52]); [discriminate|repeat constructor; now left|]. unfold is_semi_digit. vm_compute. intuition discriminate.
Qed.
Example C77_refused_period :
  let v := {| vp_format := 1; vp_time := GoTime.zero_time; vp_duration := 0; vp_efi := 5 |} in
  tpdu_refused (hi [49; 50] 0 v) (EncodeErr "SmsSubmit.vp.fi" ErrInvalid).
Proof.
  cbn zeta. apply C77_refused; [|reflexivity]. unfold marshal_domain, go_address, is_byte. cbn. repeat split; try lia; repeat constructor; try lia.
Qed.
Example C77_refused_type : tpdu_refused (set_FO zero_tpdu 3) (ErrUnsupportedSmsType 6).
Proof. apply (tr_type (set_FO zero_tpdu 3) false); reflexivity. Qed.
