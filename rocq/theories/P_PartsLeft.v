(** C83: what UnmarshalBinary of a part of a TPDU, or of a frame of PDU mode, says
    and leaves, whatever the octets and whatever the value it is called on held.
    [addr_left], [vp_left], [udh_left] and [smsc_left] give the value afterwards,
    the number of octets reported and the outcome; [ts_left], [pdu_left] and
    [pdu_left_hex], which report no number, the value and the outcome. *)
From Verif Require Import GoBase GoLemmas SafeLemmas Utf TpduError Address GoTime ValidityPeriod UserData PduMode
  SpecDigits SpecTpdu SpecWire SpecRefuse SpecPdu WireProofs RefuseProofs RefuseParts RefuseTpdu PduExact UtfProofs PduModeProofs AddressProofs VPProofs UdProofs TpduSafeProofs P_Refuse P_Pdu PartsLeft SpecPartsLeft PartsLeftProofs.

Lemma reported_both {R} (x : after R) (y : res (R * Z)) : reported x = y ->
  (forall l n, x = (l, n, Ok tt) <-> y = Ok (l, n)) /\ (forall l n e, x = (l, n, Err e) -> y = Err e) /\
  (forall e, y = Err e -> exists l n, x = (l, n, Err e)).
Proof.
  intros <-. destruct x as [[l n] [[]|e| |]]; cbn [reported]; (split; [|split]); intros; try split; intros; try congruence.
  eexists _, _. f_equal. congruence.
Qed.

(** Address.UnmarshalBinary: on failure nothing is assigned. *)
Theorem C83_address : forall a b, Forall is_byte b ->
  (forall l n, addr_left a b = (l, n, Ok tt) <-> exists q r, b = q ++ r /\ address_octets l q /\ n = len q) /\
  (forall l n e, addr_left a b = (l, n, Err e) <->
     (exists f, address_fails b f /\ e = alone f) /\ l = a /\ n = address_number b (reason e)).
Proof.
  intros a b HB. destruct (reported_both _ _ (addr_reported a b)) as (O & E1 & E2). split.
  - intros l n. rewrite O. now apply address_iff.
  - intros l n e. split.
    + intros H. split; [apply C79_address; [exact HB|now apply (E1 l n)]|]. now apply addr_left_err.
    + intros (F & -> & ->). apply C79_address in F; [|exact HB]. apply E2 in F as (l & n & F). rewrite F. apply addr_left_err in F as (-> & ->). reflexivity.
Qed.
Print Assumptions C83_address.

(** Timestamp.UnmarshalBinary likewise. *)
Theorem C83_timestamp : forall t b, Forall is_byte b ->
  (forall l, ts_left t b = (l, Ok tt) <-> exists q r, b = q ++ r /\ time_octets l q) /\
  (forall l e, ts_left t b = (l, Err e) <-> (exists f, time_fails b f /\ e = alone f) /\ l = t).
Proof.
  intros t b HB. split.
  - intros l. rewrite <- time_iff by exact HB. unfold ts_left. destruct (ts_unmarshal b); split; congruence.
  - intros l e. rewrite <- C79_timestamp by exact HB. unfold ts_left. destruct (ts_unmarshal b) as [x|e1| |]; (split; [intros H|intros (H1 & H2)]); try discriminate.
    + injection H as <- <-. now split.
    + congruence.
Qed.
Print Assumptions C83_timestamp.

(** ValidityPeriod.UnmarshalBinary: on failure the period is no longer there. *)
Theorem C83_validity_period : forall v b format, Forall is_byte b ->
  (forall l n, vp_left v b format = (l, n, Ok tt) <->
     exists z q r, b = q ++ r /\ period_octets format z q /\ renewed v z l /\ n = len q) /\
  (forall l n e, vp_left v b format = (l, n, Err e) <->
     (exists f, period_fails format b f /\ e = alone f) /\ absent v l /\ n = period_number format b (reason e)).
Proof.
  intros v b format HB. destruct (reported_both _ _ (vp_reported v b format)) as (O & E1 & E2). split.
  - intros l n. rewrite O. now apply vp_renewed.
  - intros l n e. split.
    + intros H. split; [apply (C79_validity_period v); [exact HB|now apply (E1 l n)]|]. now apply vp_left_err.
    + intros (F & A & ->). apply (C79_validity_period v) in F; [|exact HB]. apply E2 in F as (l' & n & F). rewrite F. apply vp_left_err in F as (A' & ->); [|exact HB].
      do 2 f_equal. destruct l, l', A as (A1 & A2 & A3 & A4), A' as (B1 & B2 & B3 & B4). cbn in *. congruence.
Qed.
Print Assumptions C83_validity_period.

(** UserDataHeader.UnmarshalBinary: on failure nothing is assigned, and the number
    is the place of the error. *)
Theorem C83_header : forall h b, Forall is_byte b ->
  (forall l n, udh_left h b = (l, n, Ok tt) <-> header_at b l n) /\
  (forall l n e, udh_left h b = (l, n, Err e) <->
     (exists part why, header_fails b (Fault part n why) /\ e = DecodeErr part n why) /\ l = h).
Proof.
  intros h b HB. destruct (reported_both _ _ (udh_reported h b)) as (O & E1 & E2). split.
  - intros l n. rewrite O. now apply header_iff.
  - intros l n e. split.
    + intros H. pose proof (E1 _ _ _ H) as U. apply C79_header in U as ([part at_ why] & F & ->); [|exact HB].
      apply udh_left_err in H as (-> & p & H). destruct (header_fault_part _ _ _ _ F) as (P & _). cbn [alone] in H |- *. rewrite P in *.
      injection H as -> -> ->. split; [|reflexivity]. now exists p, ErrUnderflow.
    + intros ((part & why & F & ->) & ->). destruct (header_fault_part _ _ _ _ F) as (P & _).
      assert (U : udh_unmarshal b = Err (DecodeErr part n why)).
      { apply C79_header; [exact HB|]. exists (Fault part n why). split; [exact F|]. cbn [alone]. now rewrite P. }
      apply E2 in U as (l & m & U). rewrite U. apply udh_left_err in U as (-> & p & U). congruence.
Qed.
Print Assumptions C83_header.

(** SMSCAddress.UnmarshalBinary: on failure nothing is assigned, and all octets are
    reported. *)
Theorem C83_smsc : forall a b, Forall is_byte b ->
  (forall l n, smsc_left a b = (l, n, Ok tt) <-> smsc_renewed a l b n) /\
  (forall l n e, smsc_left a b = (l, n, Err e) <-> frame_refused b e /\ l = a /\ n = len b).
Proof.
  intros a b HB. destruct (reported_both _ _ (smsc_reported a b)) as (O & E1 & E2). split.
  - intros l n. rewrite O. now apply smsc_renewed_iff.
  - intros l n e. split.
    + intros H. split; [apply (smsc_refused_iff a); [exact HB|now apply (E1 l n)]|]. now apply smsc_left_err in H.
    + intros (F & -> & ->). apply (smsc_refused_iff a) in F; [|exact HB]. apply E2 in F as (l & n & F). rewrite F. apply smsc_left_err in F as (-> & ->). reflexivity.
Qed.
Print Assumptions C83_smsc.

(** PDU.UnmarshalBinary and PDU.UnmarshalHexString: the octets behind the address
    are the TPDU; on failure nothing is assigned. *)
Theorem C83_pdu : forall p b, Forall is_byte b ->
  (forall l, pdu_left p b = (l, Ok tt) <-> exists n, smsc_renewed (p_smsc p) (p_smsc l) b n /\ p_tpdu l = skipn (Z.to_nat n) b) /\
  (forall l e, pdu_left p b = (l, Err e) <-> frame_refused b e /\ l = p) /\
  (exists l r, pdu_left p b = (l, r) /\ r <> Panic /\ r <> Diverge).
Proof.
  intros p b HB. pose proof (pdu_left_is p b) as L.
  destruct (smsc_cases (p_smsc p) b HB) as [(a & n & R & E)|(e & F & E)].
  - assert (N : 0 <= n <= len b).
    { destruct R as [rest|n toa q rest N L']; rewrite ?len_app, ?len_cons; [pose proof (len_nonneg rest)|pose proof (len_nonneg rest)]; lia. }
    assert (U : pdu_unmarshal_into p b = Ok {| p_smsc := a; p_tpdu := skipn (Z.to_nat n) b |}).
    { unfold pdu_unmarshal_into. rewrite E. cbn [bind]. unfold slice_from, slice. btrue ((0 <=? n) && (n <=? len b) && (len b <=? len b)). cbn [bind].
      do 2 f_equal. rewrite firstn_all2; [reflexivity|]. rewrite skipn_length. unfold len in *. lia. }
    rewrite U in L. destruct (pdu_left p b) as [l [[]|e| |]]; [|destruct L as (L & _); discriminate|discriminate|discriminate].
    apply ok_inj in L. subst l. split; [|split].
    + intros l. split.
      * intros H. injection H as <-. now exists n.
      * intros (m & R' & T). apply smsc_renewed_complete in R'; [|exact HB]. rewrite E in R'. apply ok_pair in R' as (Ra & <-). destruct l. cbn in *. congruence.
    + intros l e. split; [discriminate|]. intros (F & _). apply (smsc_refused (p_smsc p)) in F. congruence.
    + now eexists _, _.
  - assert (U : pdu_unmarshal_into p b = Err e) by (unfold pdu_unmarshal_into; now rewrite E). rewrite U in L.
    destruct (pdu_left p b) as [l [[]|e1| |]]; try discriminate. destruct L as (L & ->). split; [|split].
    + intros l. split; [discriminate|]. intros (n & R & _). apply smsc_renewed_complete in R; [congruence|exact HB].
    + intros l e'. split.
      * intros H. injection H as <- <-. split; [|reflexivity]. assert (e1 = e) as -> by congruence. exact F.
      * intros (F' & ->). apply (smsc_refused (p_smsc p)) in F'. congruence.
    + now eexists _, _.
Qed.
Print Assumptions C83_pdu.

Theorem C83_pdu_hex : forall p s,
  (forall b, hex_text b s -> pdu_left_hex p s = pdu_left p b) /\
  (forall e, hex_refused s e -> pdu_left_hex p s = (p, Err e)) /\
  ((exists b, hex_text b s) \/ exists e, hex_refused s e).
Proof.
  intros p s. unfold pdu_left_hex. split; [|split].
  - intros b T. apply hex_text_iff in T. now rewrite T.
  - intros e T. apply hex_refused_complete in T. now rewrite T.
  - destruct (hex_decode s) as [b|e| |] eqn:E.
    + left. exists b. now apply hex_text_iff.
    + right. exists e. now apply hex_refused_exists.
    + destruct (hex_decode_safe s) as [(b & E' & _)|[E'|(c & E')]]; congruence.
    + destruct (hex_decode_safe s) as [(b & E' & _)|[E'|(c & E')]]; congruence.
Qed.
Print Assumptions C83_pdu_hex.

(** Each reads the octets or fails, and the number is not more than there are,
    except that it is 7 for an absolute validity period. *)
Definition reads_or_fails {R} (m : Z) (x : after R) : Prop :=
  exists l n r, x = (l, n, r) /\ 0 <= n <= m /\ (r = Ok tt \/ exists e, r = Err e).
Lemma reads_or_fails_intro {R} m (x : after R) : reported x <> Panic -> reported x <> Diverge ->
  (forall l n, reported x = Ok (l, n) -> 0 <= n <= m) -> (forall l n e, x = (l, n, Err e) -> 0 <= n <= m) -> reads_or_fails m x.
Proof.
  destruct x as [[l n] [[]|e| |]]; cbn [reported]; intros P D O E; try congruence; exists l, n; eexists; (split; [reflexivity|]); eauto.
Qed.
Lemma address_number_range b e : Forall is_byte b -> 0 <= address_number b e <= len b.
Proof.
  intros HB. unfold address_number. pose proof (len_nonneg b). destruct (len b <? 2) eqn:E2; [lia|].
  destruct b as [|x b]; [discriminate E2|]. apply Forall_inv in HB. unfold is_byte in HB. cbn [hd].
  destruct (len (x :: b) <? 2 + (x + 1) / 2) eqn:EW; [lia|]. destruct e; lia.
Qed.
Lemma period_number_range f b e ft : Forall is_byte b -> period_fails f b ft -> e = alone ft -> f <> 3 \/ 7 <= len b ->
  0 <= period_number f b (reason e) <= len b.
Proof.
  intros HB F -> G. pose proof (len_nonneg b) as L. destruct F as [f b L'| |b f F|b S|efi b S K|efi p o b K S S' D N|efi p z o b K S D Z N S' S2]; cbn [alone reason];
    change ("vpf" =? "")%string with false in *; change ("" =? "")%string with true in *; change ("enhanced" =? "")%string with false in *; cbn [reason].
  - destruct f as [|[[]|[]|]|]; cbn; lia.
  - cbn. lia.
  - unfold period_number. lia.
  - cbn. lia.
  - cbn [period_number]. rewrite len_cons. lia.
  - cbn [period_number]. rewrite len_cons. lia.
  - cbn [period_number hd]. assert (0 <= in_use (efi mod 8) <= 3) by (unfold in_use; destruct (efi mod 8) as [|[[]|[]|]|]; lia). rewrite len_cons. lia.
Qed.
Theorem C83_within_partial : forall b, Forall is_byte b ->
  (forall a, reads_or_fails (len b) (addr_left a b)) /\
  (forall h, reads_or_fails (len b) (udh_left h b)) /\
  (forall a, reads_or_fails (len b) (smsc_left a b)) /\
  (forall v format, format <> 3 \/ 7 <= len b -> reads_or_fails (len b) (vp_left v b format)) /\
  (forall v, len b < 7 -> exists l, vp_left v b 3 = (l, 7, Err ErrUnderflow)).
Proof.
  intros b HB. split; [|split; [|split; [|split]]].
  - intros a. pose proof (addr_unmarshal_safe b HB) as S. rewrite <- (addr_reported a b) in S.
    apply reads_or_fails_intro; try (intros X; rewrite X in S; exact S).
    + intros l n H. rewrite addr_reported in H. apply address_iff in H as (q & r & -> & _ & ->); [|exact HB]. rewrite len_app. pose proof (len_nonneg q). pose proof (len_nonneg r). lia.
    + intros l n e H. apply C83_address in H as (_ & _ & ->); [|exact HB]. now apply address_number_range.
  - intros h. assert (S : safe_located (len b) (udh_unmarshal b)) by now apply udh_unmarshal_safe. rewrite <- (udh_reported h b) in S.
    apply reads_or_fails_intro; try (intros X; rewrite X in S; exact S).
    + intros l n H. rewrite udh_reported in H. apply header_iff in H as (? & _ & H & _); [|exact HB]. lia.
    + intros l n e H. pose proof H as H'. apply udh_left_err in H as (_ & part & ->). rewrite H' in S. cbn [reported safe_located] in S. destruct S as (f & off & i & S & R). injection S as _ -> _. exact R.
  - intros a. destruct (smsc_cases a b HB) as [(l & n & R & E)|(e & F & E)]; rewrite <- (smsc_reported a b) in E; apply reads_or_fails_intro; try congruence.
    + intros l' n' H. rewrite smsc_reported in H. apply smsc_renewed_iff in H; [|exact HB].
      destruct H as [rest|k toa q rest N L]; rewrite ?len_app, ?len_cons; [pose proof (len_nonneg rest)|pose proof (len_nonneg rest)]; lia.
    + intros l' n' e H. apply smsc_left_err in H as (_ & ->). pose proof (len_nonneg b). lia.
    + intros l' n' e' H. apply smsc_left_err in H as (_ & ->). pose proof (len_nonneg b). lia.
  - intros v f G. pose proof (vp_unmarshal_safe v b f HB) as S. rewrite <- (vp_reported v b f) in S.
    apply reads_or_fails_intro; try (intros X; rewrite X in S; exact S).
    + intros l n H. rewrite vp_reported in H. apply vp_renewed in H as (z & q & r & -> & _ & _ & ->); [|exact HB]. rewrite len_app. pose proof (len_nonneg q). pose proof (len_nonneg r). lia.
    + intros l n e H. apply C83_validity_period in H as ((ft & F & E) & _ & ->); [|exact HB]. now apply period_number_range with ft.
  - intros v L. unfold vp_left. change (3 =? VpfAbsolute) with true. cbv zeta iota. unfold ts_unmarshal. replace (len b <? 7) with true by lia.
    now eexists.
Qed.
Print Assumptions C83_within_partial.

(** So seven octets are reported of none, and a period that was there is gone. *)
Theorem C83_within_refuted : exists v l e, vp_left v [] 3 = (l, 7, Err e).
Proof. exists vp_zero. eexists. eexists. reflexivity. Qed.
Print Assumptions C83_within_refuted.
Theorem C83_kept_refuted : exists v l n e, vp_format v = 2 /\ vp_left v [] 2 = (l, n, Err e) /\ vp_format l = 0.
Proof. exists {| vp_format := 2; vp_time := zero_time; vp_duration := 300000000000; vp_efi := 0 |}. eexists. eexists. eexists. now repeat split. Qed.
Print Assumptions C83_kept_refuted.

(** ** Instances *)
(** A number of three digits in which the filler is missing; one that is cut; a
    strange septet; of a period in hours, minutes and seconds the second octet. *)
Definition held : address := {| a_toa := 145; a_addr := [49; 50] |}.
Example C83_address_instance :
  addr_left held [3; 145; 33; 67; 99] = (held, 4, Err (DecodeErr "addr" 2 SemiMissingFill)) /\
  addr_left held [9; 145; 33; 67] = (held, 4, Err (DecodeErr "addr" 2 ErrUnderflow)) /\
  addr_left held [4; 208; 155; 0] = (held, 2, Err (DecodeErr "addr" 2 (Gsm7InvalidSeptet 1))) /\
  addr_left held [3; 145; 33; 243; 99] = ({| a_toa := 145; a_addr := [49; 50; 51] |}, 4, Ok tt).
Proof. repeat split; vm_compute; reflexivity. Qed.
Example C83_validity_period_instance :
  let v := {| vp_format := 2; vp_time := zero_time; vp_duration := 300000000000; vp_efi := 1 |} in
  vp_left v [3; 1; 10; 0; 0; 0; 0] 1 = (with_format v 0, 4, Err (DecodeErr "enhanced" 1 (BcdInvalidOctet 10))) /\
  vp_left v [1; 1; 0; 0; 9; 0; 0] 1 = (with_format v 0, 2, Err (DecodeErr "enhanced" 4 ErrNonZero)) /\
  vp_left v [4; 1; 0; 0; 9; 0; 0] 1 = (with_format v 0, 7, Err (DecodeErr "enhanced" 0 ErrInvalid)).
Proof. repeat split; vm_compute; reflexivity. Qed.
Example C83_header_instance : let h := Some [{| ie_id := 8; ie_data := [1] |}] in
  udh_left h [5; 0; 1; 7; 1; 9; 1] = (h, 6, Err (DecodeErr "ied" 6 ErrUnderflow)) /\
  udh_left h [4; 0; 1; 7; 1; 9; 1] = (h, 4, Err (DecodeErr "ie" 4 ErrUnderflow)).
Proof. repeat split; vm_compute; reflexivity. Qed.
Example C83_pdu_instance : let p := {| p_smsc := held; p_tpdu := [1; 2; 3] |} in
  pdu_left p [4; 145; 33] = (p, Err (DecodeErr "addr" 2 ErrUnderflow)) /\
  pdu_left p [0; 9] = ({| p_smsc := held; p_tpdu := [9] |}, Ok tt) /\
  pdu_left_hex p [48; 71] = (p, Err (HexInvalidByte 71)).
Proof. repeat split; vm_compute; reflexivity. Qed.
