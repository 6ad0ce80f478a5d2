(** Lemmas about marshalling what Unmarshal returns (C57). *)
From Verif Require Import GoBase GoLemmas SafeLemmas SevenBit SevenBitProofs SpecDigits SpecSegment SpecText Utf UtfProofs
  Charset CharsetProofs Gsm7 Bcd Dcs FirstOctet TpduError DigitsProofs
  Address AddressProofs GoTime TimeProofs ValidityPeriod VPProofs SpecTime SpecVP UserData Tpdu SpecTpdu SpecSegTpdu UdProofs
  SegmentProofs SegmentFitProofs TpduProofs TpduSafeProofs Sms SpecAccept AcceptProofs SpecReencode.

(** * Addresses *)
Lemma default_27 : forallb (fun p => (fst p =? 27) || negb (snd p =? 27)) default_decoder = true.
Proof. vm_compute. reflexivity. Qed.
Lemma default_no_27 g r : assoc default_decoder g = Some r -> g <> 27 -> r <> 27.
Proof.
  intros H N. apply assoc_In in H. pose proof default_27 as X. rewrite forallb_forall in X.
  specialize (X _ H). cbn [fst snd] in X. lia.
Qed.
Lemma default_space : assoc default_decoder 32 = Some 32. Proof. vm_compute. reflexivity. Qed.

Lemma addr_chars u : gsm7_fault (assoc default_decoder) (assoc []) u = None ->
  let rs := gsm7_chars (assoc default_decoder) (assoc []) u in
  (forall r, In r rs -> exists g, assoc default_decoder g = Some r) /\ ~ In 27 rs /\ len rs <= len u.
Proof.
  cbv zeta.
  induction u as [|g u IH1 IH2] using list_pair_ind.
  { intros _. cbn. split; [intros r []|]. split; [tauto|lia]. }
  cbn [gsm7_fault gsm7_chars]. destruct (g =? 27) eqn:E.
  - destruct u as [|x u].
    + intros _. split; [|split; [|cbn; lia]].
      * intros r [<-|[]]. exists 32. exact default_space.
      * intros [H|[]]. discriminate.
    + destruct (x =? 27) eqn:E2; [|cbn [assoc]; discriminate].
      intros H. destruct (IH2 H) as (A & B & C). split; [|split].
      * intros r [<-|Hr]; [exists 32; exact default_space|now apply A].
      * intros [H1|H1]; [discriminate|tauto].
      * rewrite !len_cons in *. lia.
  - destruct (assoc default_decoder g) as [r0|] eqn:EA; [|discriminate].
    intros H. destruct (IH1 H) as (A & B & C). cbn [or_space]. split; [|split].
    + intros r [<-|Hr]; [now exists g|now apply A].
    + intros [H1|H1]; [|tauto]. apply (default_no_27 g r0 EA); lia.
    + rewrite !len_cons. lia.
Qed.

Lemma addr_unmarshal_value src a n : Forall is_byte src -> addr_unmarshal src = Ok (a, n) -> addr_value a.
Proof.
  intros HB HE. destruct (addr_unmarshal_inv _ _ _ HB HE) as (_ & HT & _ & HN).
  destruct (addr_ton a =? TonAlphanumeric) eqn:EA.
  2:{ destruct a as [toa ds]. unfold addr_ton in *. cbn [a_toa a_addr] in *. destruct HN as [H1 H2]; [lia|].
      apply av_num; auto. lia. }
  revert HE. unfold addr_unmarshal. pose proof (len_nonneg src).
  destruct (len src <? 2) eqn:E2; [discriminate|].
  intros HE. apply bind_ok in HE as (l & El & HE). apply bind_ok in HE as (toa & Et & HE).
  pose proof (idx_byte _ _ _ HB El) as Hl. unfold is_byte in Hl.
  destruct (len src <? 2 + (l + 1) / 2) eqn:E3; [discriminate|].
  apply bind_ok in HE as (body & Eb & HE).
  pose proof (slice_bytes _ _ _ _ HB Eb) as HBb. pose proof (slice_len _ _ _ _ Eb) as HLb.
  destruct (toa_ton toa =? TonAlphanumeric) eqn:Eton.
  2:{ apply bind_ok in HE as ([baddr m] & Ed & HE).
      destruct (negb (m =? (l + 1) / 2) || (len baddr <? l)); [discriminate|].
      apply ok_pair in HE as [<- _]. unfold addr_ton in EA. cbn [a_toa] in EA. lia. }
  apply bind_ok in HE as (u & Eu & HE). apply bind_ok in HE as (b & Ed & HE).
  apply ok_pair in HE as [<- _]. apply on_err_ok in Ed. cbn [a_toa] in HT.
  rewrite gsm7_decode_strict in Ed by reflexivity. cbn [addr_gsm7_decoder gd_set gd_ext] in Ed.
  destruct (gsm7_fault _ _ u) eqn:EF; [discriminate|]. apply ok_inj in Ed. subst b.
  destruct (addr_chars u EF) as (A & B & C).
  apply av_alnum with (rs := gsm7_chars (assoc default_decoder) (assoc []) u); auto.
  - lia.
  - apply utf8_text_utf8_of, gsm7_chars_scalar; [exact (tk_scalar _ _ addr_set_ok)|]. cbn [assoc]. discriminate.
  - assert (len u <= 145); [|lia].
    assert (HL : 7 * len (unpack7bit body 0) <= 8 * len body).
    { destruct body as [|x body2] eqn:Eb'; [cbn; lia|]. rewrite <- Eb' in *.
      rewrite unpack7bit_len by (assumption || lia || congruence). pose proof (len_nonneg body). lia. }
    destruct (l <? (len (unpack7bit body 0) * 7 + 3) / 4) eqn:ED.
    + apply slice_len in Eu. lia.
    + apply ok_inj in Eu. subst u. lia.
Qed.

(** * Times and validity periods *)
Lemma ts_unmarshal_value src t : Forall is_byte src -> ts_unmarshal src = Ok t -> in_century t -> time_value t.
Proof.
  intros HB H HC. destruct (ts_unmarshal_cases src HB) as [(_ & E)|[(_ & b & E & _)|(_ & t' & E & A & B)]]; rewrite E in H;
    try discriminate. apply ok_inj in H. subst t'. split; [exact A|]. split; [exact HC|exact B].
Qed.

Lemma hms_value d : 0 <= d < 360000 -> exists h m s, 0 <= h <= 99 /\ 0 <= m <= 59 /\ 0 <= s <= 59 /\
  d * 1000000000 = h * 3600000000000 + m * 60000000000 + s * 1000000000.
Proof. intros H. exists (d / 3600), (d mod 3600 / 60), (d mod 60). lia. Qed.

Lemma enhanced_unmarshal_value src efi d : Forall is_byte src -> vp_unmarshal_enhanced src = Ok (efi, d) ->
  is_byte efi /\ ((efi mod 8 = 1 -> d <> minutes 5) -> (efi mod 8 = 3 -> d < hours 100) -> enhanced_value efi d).
Proof.
  intros HB H. unfold vp_unmarshal_enhanced in H. destruct (len src <? 7); [discriminate|].
  apply bind_ok in H as (e & Ee & H). cbv zeta in H. apply bind_ok in H as ([d' used] & E & H).
  apply bind_ok in H as (? & _ & H). apply ok_pair in H as [<- <-].
  pose proof (idx_byte _ _ _ HB Ee) as He. split; [exact He|]. intros H1 H3. rewrite land7 in E.
  unfold EvpfNotPresent, EvpfRelative, EvpfRelativeSeconds, EvpfRelativeHHMMSS in E.
  destruct (e mod 8 =? 0) eqn:E0; [apply ok_pair in E as [<- _]; apply ev_none; lia|].
  destruct (e mod 8 =? 1) eqn:E1.
  { apply bind_ok in E as (o & Eo & E). apply ok_pair in E as [<- _]. apply (idx_byte _ _ _ HB) in Eo. unfold is_byte in Eo.
    apply ev_rel with o; [lia|apply relative_to_duration_spec; lia|].
    destruct (Z.eq_dec o 0) as [-> |]; [|lia]. exfalso. apply H1; [lia|reflexivity]. }
  destruct (e mod 8 =? 2) eqn:E2'.
  { apply bind_ok in E as (o & Eo & E). apply ok_pair in E as [<- _]. apply (idx_byte _ _ _ HB) in Eo. unfold is_byte in Eo.
    replace (ns_second * o) with (o * 1000000000) by (unfold ns_second; lia). apply ev_sec; lia. }
  destruct (e mod 8 =? 3) eqn:E3'; [|discriminate].
  apply bind_ok in E as (b1 & Eb1 & E). apply bind_ok in E as (h & Eh & E).
  apply bind_ok in E as (b2 & Eb2 & E). apply bind_ok in E as (m & Em & E).
  apply bind_ok in E as (b3 & Eb3 & E). apply bind_ok in E as (s & Es & E). apply ok_pair in E as [<- _].
  apply on_err_ok in Eh, Em, Es.
  assert (R : forall b u, is_byte b -> bcd_decode b = Ok u -> 0 <= u <= 99).
  { intros b u Hb E. rewrite (bcd_decode_spec b Hb) in E. unfold is_byte in Hb.
    destruct ((b mod 16 <=? 9) && (b / 16 <=? 9)) eqn:C; [|discriminate]. apply ok_inj in E. lia. }
  apply (R _ _ (idx_byte _ _ _ HB Eb1)) in Eh. apply (R _ _ (idx_byte _ _ _ HB Eb2)) in Em.
  apply (R _ _ (idx_byte _ _ _ HB Eb3)) in Es. specialize (H3 ltac:(lia)).
  unfold hours, minutes, ns_hour, ns_minute, ns_second in *.
  destruct (hms_value (h * 3600 + m * 60 + s) ltac:(lia)) as (h' & m' & s' & A & B & C & D).
  replace (h * (60 * (60 * 1000000000)) + m * (60 * 1000000000) + s * 1000000000)
    with (h' * 3600000000000 + m' * 60000000000 + s' * 1000000000) by lia.
  apply ev_hms; lia.
Qed.

Lemma vp_unmarshal_value src f v n : Forall is_byte src -> vp_unmarshal vp_zero src f = Ok (v, n) -> vp_again v ->
  vp_value v /\ f = vp_format v.
Proof.
  intros HB H (A1 & A2 & A3 & A4). split; [|symmetry; exact (proj1 (proj2 (vp_unmarshal_size _ _ _ _ _ H)))].
  unfold vp_unmarshal in H.
  destruct (f =? VpfAbsolute) eqn:F3.
  { apply bind_ok in H as (t & Et & H). apply ok_pair in H as [<- <-]. cbn [vp_format vp_time] in A1.
    assert (f = VpfAbsolute) as -> by lia. specialize (A1 eq_refl).
    destruct (ts_unmarshal_value _ _ HB Et A1) as (B1 & B2 & q & B3 & B4). exact (vv_abs t q B1 B2 B3 B4). }
  destruct (f =? VpfEnhanced) eqn:F1.
  { apply bind_ok in H as ([efi d] & Et & H). apply ok_pair in H as [<- <-]. cbn [vp_format vp_duration vp_efi] in *.
    assert (f = VpfEnhanced) as -> by lia. destruct (enhanced_unmarshal_value _ _ _ HB Et) as (B1 & B2).
    apply (vv_enh efi d B1). apply B2; auto. }
  destruct (f =? VpfRelative) eqn:F2.
  { destruct (len src <? 1) eqn:E; [discriminate|]. apply bind_ok in H as (b & Eb & H).
    apply ok_pair in H as [<- <-]. cbn [vp_format vp_duration] in *. assert (f = VpfRelative) as -> by lia.
    apply (idx_byte _ _ _ HB) in Eb. unfold is_byte in Eb.
    apply (vv_rel b); [apply relative_to_duration_spec; lia|].
    destruct (Z.eq_dec b 0) as [-> |]; [|lia]. exfalso. now apply A2. }
  destruct (f =? VpfNotPresent) eqn:F0; [|discriminate].
  apply ok_pair in H as [<- <-]. exact vv_none.
Qed.

(** * User data *)
Lemma decode_ud_len t s t1 : Forall is_byte s -> UD t = [] -> decode_ud t s = Ok t1 -> len (UD t1) <= 255.
Proof.
  intros HB HU H. unfold decode_ud in H. destruct (len s <? 1) eqn:E1; [discriminate|].
  apply bind_ok in H as (udl & Eu & H). pose proof (idx_byte _ _ _ HB Eu) as Bu. unfold is_byte in Bu.
  destruct (udl =? 0). { apply ok_inj in H. subst t1. rewrite HU. cbn. lia. }
  cbv zeta in H. apply bind_ok in H as (a & Ea & H).
  destruct (a =? Alpha7Bit) eqn:E7.
  - destruct (len s <? 1 + (udl * 7 + 7) / 8); [discriminate|]. destruct (1 + (udl * 7 + 7) / 8 <? len s) eqn:EL; [discriminate|].
    apply bind_ok in H as ([h hl] & Eh & H).
    destruct (1 + hl =? len s); [apply ok_inj in H; subst t1; dtpdu t; cbn in *; rewrite HU; cbn; lia|].
    apply bind_ok in H as (s1 & Es & H). apply bind_ok in H as (u & Eu7 & H). apply ok_inj in H. apply on_err_ok in Eu7.
    replace (UD t1) with u by (subst t1; now dtpdu t). clear H.
    assert (0 <= hl).
    { destruct (fo_udhi (FO t)); [|apply ok_pair in Eh; lia].
      apply bind_ok in Eh as (s2 & Es2 & Eh). apply on_err_ok in Eh.
      apply udh_accepted in Eh as (R & _); [lia|]. eapply slice_from_bytes; eauto. }
    unfold decode_7bit in Eu7. pose proof (fill_bits_spec hl ltac:(lia)) as (_ & F).
    set (f := if 0 <? hl then fill_bits hl else 0) in *.
    assert (0 <= f <= 6) as Hf by (unfold f; destruct (0 <? hl); lia). clearbody f.
    set (sm := unpack7bit s1 f) in *. clearbody sm.
    set (sml := if 0 <? hl then udl - (hl * 8 + f) / 7 else udl) in *.
    assert (Hs : sml <= 255) by (unfold sml; destruct (0 <? hl); lia). clearbody sml. cbv zeta in Eu7.
    destruct (len sm <? sml) eqn:E2; [discriminate|]. destruct (sml <? len sm) eqn:E3.
    + destruct (sml + 1 <? len sm); [discriminate|]. apply bind_ok in Eu7 as (b & _ & Eu7).
      destruct (negb (b =? 0)); [discriminate|]. unfold slice in Eu7. destruct (_ && _) eqn:E4; [|discriminate].
      apply ok_inj in Eu7. subst u. rewrite len_firstn; lia || (cbn [skipn Z.to_nat]; lia).
    + apply ok_inj in Eu7. subst u. lia.
  - cbv iota in H. destruct (len s <? 1 + udl) eqn:E2; [discriminate|]. destruct (1 + udl <? len s) eqn:E3; [discriminate|].
    apply bind_ok in H as ([h hl] & Eh & H).
    destruct (1 + hl =? len s); [apply ok_inj in H; subst t1; dtpdu t; cbn in *; rewrite HU; cbn; lia|].
    assert (0 <= hl).
    { destruct (fo_udhi (FO t)); [|apply ok_pair in Eh; lia].
      apply bind_ok in Eh as (s2 & Es2 & Eh). apply on_err_ok in Eh.
      apply udh_accepted in Eh as (R & _); [lia|]. eapply slice_from_bytes; eauto. }
    apply bind_ok in H as (s1 & Es & H). destruct (_ && _); [discriminate|]. apply ok_inj in H.
    replace (UD t1) with s1 by (subst t1; now dtpdu t). unfold slice_from in Es. apply slice_len in Es. lia.
Qed.

Lemma ud_sound_wf t : ud_sound t -> ud_again t -> len (UD t) <= 255 -> ud_wf t.
Proof.
  intros (S1 & S2) ((a & Ea) & A2 & A3) HL. unfold ud_wf.
  assert (HU : match UDH t with Some l => fo_udhi (FO t) = true /\ header_fits l | None => fo_udhi (FO t) = false \/ UD t = [] end).
  { destruct (UDH t) as [l|].
    - destruct S1 as (B1 & B2 & B3). split; [assumption|]. unfold header_fits. split; [assumption|]. split; [assumption|].
      now apply (A3 l).
    - destruct (fo_udhi (FO t)); [|now left]. right. now apply A2. }
  split; [exact HU|].
  assert (HF : if a =? Alpha7Bit then cdiv (8 * header_size (UDH t)) 7 + len (UD t) <= 255
               else header_size (UDH t) + len (UD t) <= 255).
  { destruct (UDH t) as [l|] eqn:EU.
    - specialize (A3 l eq_refl). rewrite Ea in A3. tauto.
    - cbn [header_size]. destruct (a =? Alpha7Bit); unfold cdiv; lia. }
  destruct (tpdu_alphabet_cases t) as [X|(a' & X & Y)]; rewrite X in Ea; [discriminate|]. apply ok_inj in Ea. subst a'.
  rewrite X in *. destruct S2 as [S2 | S2].
  - rewrite S2 in *. destruct Y as [-> |[-> | ->]]; cbn [Z.eqb Pos.eqb Alpha7Bit Alpha8Bit AlphaUCS2] in HF.
    + left. split; [reflexivity|]. split; [constructor|exact HF].
    + right; left. split; [reflexivity|]. split; [constructor|exact HF].
    + right; right. split; [reflexivity|]. split; [constructor|]. split; [reflexivity|exact HF].
  - destruct S2 as [(S2 & F)|[(S2 & F)|(S2 & F & G)]]; apply ok_inj in S2; subst a; cbn [Z.eqb] in HF; tauto.
Qed.

Lemma decode_ud_wf t s t1 : Forall is_byte s -> no_ud t -> decode_ud t s = Ok t1 -> ud_again t1 ->
  ud_wf t1 /\ ud_only t t1.
Proof.
  intros HB HN H HA. pose proof (decode_ud_len _ _ _ HB (proj2 HN) H).
  destruct (decode_ud_sound _ _ _ HB (no_ud_sound _ HN) H) as (A & B). split; [|exact B]. now apply ud_sound_wf.
Qed.

Lemma optionals_again t s ri t1 : Forall is_byte s -> no_ud t -> is_byte (PI t) -> PID t = 0 -> DCS t = 0 ->
  unmarshal_optionals t s ri = Ok t1 -> (pi_udl (PI t1) = true -> ud_again t1) ->
  optionals_wf t1 /\ exists p d h u, t1 = set_UDHf (set_UDf (set_DCSf (set_PIDf t p) d) u) h.
Proof.
  intros HB HN HPI HP HD H HA. unfold unmarshal_optionals in H.
  apply bind_ok in H as ([u1 r1] & E1 & H).
  assert (exists p, is_byte p /\ u1 = set_PIDf t p /\ (pi_pid (PI t) = false -> p = 0)) as (p & Bp & -> & Zp).
  { inv_ok E1; apply ok_pair in E1 as (<- & _).
    - eexists; split; [eapply idx_byte; eauto|]. split; [reflexivity|]. congruence.
    - exists 0. split; [apply zero_octet|]. split; [dtpdu t; cbn in *; now subst|reflexivity]. }
  apply bind_ok in H as ([u2 r2] & E2 & H).
  assert (exists d, is_byte d /\ u2 = set_DCSf (set_PIDf t p) d /\ (pi_dcs (PI t) = false -> d = 0)) as (d & Bd & -> & Zd).
  { replace (PI (set_PIDf t p)) with (PI t) in E2 by (now dtpdu t). inv_ok E2; apply ok_pair in E2 as (<- & _).
    - eexists; split; [eapply idx_byte; eauto|]. split; [reflexivity|]. congruence.
    - exists 0. split; [apply zero_octet|]. split; [dtpdu t; cbn in *; now subst|reflexivity]. }
  set (t2 := set_DCSf (set_PIDf t p) d) in *.
  assert (F2 : PI t2 = PI t /\ PID t2 = p /\ DCS t2 = d /\ no_ud t2) by (unfold t2; now dtpdu t).
  destruct F2 as (F1 & F2 & F3 & N2). rewrite F1 in H.
  assert (HX : ud_only t2 t1 -> PI t1 = PI t /\ PID t1 = p /\ DCS t1 = d).
  { intros (h & u & ->). clearbody t2. dtpdu t2. cbn in *. now subst. }
  assert (K : (if pi_udl (PI t) then ud_wf t1 else UDH t1 = None /\ UD t1 = []) /\ ud_only t2 t1).
  { destruct (pi_udl (PI t)) eqn:EU.
    - apply bind_ok in H as (s1 & Es & H). apply on_err_ok in H.
      pose proof (slice_from_bytes _ _ _ HB Es) as Bs.
      destruct (decode_ud_sound _ _ _ Bs (no_ud_sound _ N2) H) as (_ & B).
      destruct (HX B) as (X & _). rewrite X in HA. apply decode_ud_wf in H; auto.
    - apply ok_inj in H. subst t1. split; [exact N2|]. exists (UDH t2), (UD t2). clearbody t2. now dtpdu t2. }
  destruct K as (K & O). destruct (HX O) as (X1 & X2 & X3). destruct O as (h & u & ->). split; [|now exists p, d, h, u].
  unfold optionals_wf. rewrite X1, X2, X3. repeat match goal with |- _ /\ _ => split end; auto.
Qed.

(** * The six types *)
Definition start (dir fo : Z) : tpdu := set_FO (set_Direction zero_tpdu dir) fo.

Ltac values := repeat
  match goal with
  | E : addr_unmarshal ?s = Ok (?a, _), HB : Forall is_byte ?s |- _ =>
      lazymatch goal with _ : addr_value a |- _ => fail | _ => pose proof (addr_unmarshal_value _ _ _ HB E) end
  | E : ts_unmarshal ?s = Ok ?a, HB : Forall is_byte ?s |- _ =>
      lazymatch goal with _ : in_century a -> time_value a |- _ => fail | _ => pose proof (ts_unmarshal_value _ _ HB E) end
  end.
Ltac fields := cbn [start zero_tpdu set_FO set_Direction set_UDHf set_UDf set_SCTS set_DCSf set_PIDf set_OA set_DA set_RA
    set_MR set_CT set_MN set_PI set_FCS set_DT set_ST set_VPf Direction FO FCS MR CT MN PI ST PID DCS OA DA RA SCTS DT VP UDH UD] in *.
Ltac wf := repeat match goal with |- _ /\ _ => split end; auto.

Lemma deliver_again fo s t1 : Forall is_byte s -> is_byte fo -> fo_mti fo = 0 ->
  unmarshal_deliver (start MT fo) s = Ok t1 -> in_century (SCTS t1) -> ud_again t1 -> deliver_wf t1.
Proof.
  intros HB HF HM H HC HA. unfold unmarshal_deliver in H. inv_ok' H. octets. values.
  apply decode_ud_wf in H as (W & h & u & ->); [| now apply buf_next_safe|now split|assumption].
  unfold deliver_wf. fields. wf.
Qed.

Lemma submit_again fo s t1 : Forall is_byte s -> is_byte fo -> fo_mti fo = 1 ->
  unmarshal_submit (start MO fo) s = Ok t1 -> vp_again (VP t1) -> ud_again t1 -> submit_wf t1.
Proof.
  intros HB HF HM H HC HA. unfold unmarshal_submit in H. inv_ok' H. octets. values.
  apply decode_ud_wf in H as (W & h & u & ->); [|assumption|now split|assumption].
  unfold submit_wf. fields.
  match goal with E : vp_unmarshal _ _ _ = Ok _ |- _ => apply vp_unmarshal_value in E; [|assumption|assumption] end. wf; tauto.
Qed.

Lemma command_again fo s t1 : Forall is_byte s -> is_byte fo -> fo_mti fo = 2 ->
  unmarshal_command (start MO fo) s = Ok t1 -> (fo_udhi fo = true -> UDH t1 = None /\ UD t1 = []) -> command_wf t1 /\ UDH t1 = None.
Proof.
  intros HB HF HM H HU. unfold unmarshal_command in H. inv_ok' H. octets. values.
  assert (HL : len (UD t1) <= 255) by (eapply decode_ud_len; [| |exact H]; [now apply buf_next_safe|reflexivity]).
  apply decode_ud_sound in H as (S & h & u & ->); [|now apply buf_next_safe|now apply no_ud_sound].
  destruct S as (S1 & S2). unfold command_wf. fields.
  split; [|destruct h; [destruct S1 as (S1 & _); now destruct (HU S1)|reflexivity]].
  wf. { destruct (fo_udhi fo); [right; now apply HU|now left]. } destruct S2 as [-> |[(S2 & _)|[(_ & S2)|(S2 & _)]]]; [constructor|discriminate S2|exact S2|discriminate S2].
Qed.

Lemma deliver_report_again fo s t1 : Forall is_byte s -> is_byte fo -> fo_mti fo = 0 ->
  unmarshal_deliver_report (start MO fo) s = Ok t1 -> FCS t1 <> 0 -> (pi_udl (PI t1) = true -> ud_again t1) ->
  deliver_report_wf t1.
Proof.
  intros HB HF HM H HC HA. unfold unmarshal_deliver_report in H. inv_ok' H. octets. values.
  apply optionals_again in H as (W & p & d & h & u & ->); try assumption; try reflexivity; [|now split].
  unfold deliver_report_wf, report_type. fields. wf.
Qed.

Lemma submit_report_again fo s t1 : Forall is_byte s -> is_byte fo -> fo_mti fo = 1 ->
  unmarshal_submit_report (start MT fo) s = Ok t1 -> FCS t1 <> 0 -> in_century (SCTS t1) ->
  (pi_udl (PI t1) = true -> ud_again t1) -> submit_report_wf t1.
Proof.
  intros HB HF HM H HC HS HA. unfold unmarshal_submit_report in H. inv_ok' H. octets. values.
  apply optionals_again in H as (W & p & d & h & u & ->); try assumption; try reflexivity; [|now split].
  unfold submit_report_wf, report_type. fields. wf.
Qed.

Lemma status_report_again fo s t1 : Forall is_byte s -> is_byte fo -> fo_mti fo = 2 ->
  unmarshal_status_report (start MT fo) s = Ok t1 -> in_century (SCTS t1) -> in_century (DT t1) ->
  (pi_udl (PI t1) = true -> ud_again t1) -> status_report_wf t1.
Proof.
  intros HB HF HM H HC HS HA. unfold unmarshal_status_report in H. inv_ok' H; octets; values.
  - apply optionals_again in H as (W & p & d & h & u & ->); try assumption; try reflexivity; [|now split].
    unfold status_report_wf, report_type. fields. wf.
  - apply ok_inj in H. subst t1. unfold status_report_wf, report_type, optionals_wf. fields.
    pose proof zero_octet. change (pi_udl 0) with false. wf.
Qed.

Lemma mti_cases fo : fo_mti fo = 0 \/ fo_mti fo = 1 \/ fo_mti fo = 2 \/ fo_mti fo = 3.
Proof.
  assert (H : 0 <= fo_mti fo < 4).
  { unfold fo_mti. change FoMTIMask with (Z.ones 2). rewrite Z.land_ones by lia. change (2 ^ 2) with 4. lia. }
  lia.
Qed.

Lemma reencode src mo t : Forall is_byte src -> unmarshal src mo = Ok t -> again t ->
  exists b, tpdu_marshal t = Ok b /\ Forall is_byte b /\ unmarshal b mo = Ok t.
Proof.
  intros HB H HA. destruct (unmarshal_sound _ _ _ HB H) as (_ & _ & HO).
  unfold unmarshal in H. destruct (tpdu_unmarshal_type _ _ _ H) as (HD & HF).
  unfold tpdu_unmarshal in H. destruct (len src <? 1); [discriminate|].
  apply bind_ok in H as (fo & Ef & H). cbv zeta in H. apply bind_ok in H as (s & Es & H).
  rewrite Ef in HF. apply ok_inj in HF. pose proof (idx_byte _ _ _ HB Ef) as Bf.
  pose proof (slice_from_bytes _ _ _ HB Es) as Bs.
  assert (ET : tpdu_type t = tpdu_type (start (if mo then MO else MT) fo)).
  { unfold tpdu_type. rewrite HD, <- HF. reflexivity. }
  unfold again, only_own_fields in HA, HO. cbv zeta in HA, HO. rewrite ET in HA, HO.
  fold (start (if mo then MO else MT) fo) in H.
  assert (HT : forall m, fo_mti fo = m -> tpdu_type (start (if mo then MO else MT) fo) = sms_type m (if mo then MO else MT)).
  { intros m <-. reflexivity. }
  set (ty := tpdu_type (start (if mo then MO else MT) fo)) in *. clearbody ty.
  destruct (mti_cases fo) as [M|[M|[M|M]]]; specialize (HT _ M); destruct mo; cbv in HT;
    change (if true then MO else MT) with MO in *; change (if false then MO else MT) with MT in *;
    rewrite HT in H, HA, HO; cbv [SmsDeliver SmsDeliverReport SmsSubmitReport SmsSubmit SmsStatusReport SmsCommand] in HA, HO;
    cbv [Z.eqb Pos.eqb SmsDeliver SmsDeliverReport SmsSubmitReport SmsSubmit SmsStatusReport SmsCommand] in H;
    try discriminate H; apply on_err_ok in H;
    destruct HA as (A1 & A2 & A3 & A4 & A5 & A6), HO as (O1 & O2 & O3 & O4 & O5 & O6).
  - apply deliver_report_again in H; try assumption; try now apply A4. destruct (deliver_report_roundtrip _ H) as (b & B1 & B2 & B3).
    exists b. rewrite <- (O4 eq_refl) in B3. auto.
  - apply deliver_again in H; try assumption; try now apply A1. destruct (deliver_roundtrip _ H) as (b & B1 & B2 & B3).
    exists b. rewrite <- (O1 eq_refl) in B3. auto.
  - apply submit_again in H; try assumption; try now apply A2. destruct (submit_roundtrip _ H) as (b & B1 & B2 & B3).
    exists b. rewrite <- (O2 eq_refl) in B3. auto.
  - apply submit_report_again in H; try assumption; try now apply A5. destruct (submit_report_roundtrip _ H) as (b & B1 & B2 & B3).
    exists b. rewrite <- (O5 eq_refl) in B3. auto.
  - apply command_again in H as (W & U); try assumption; [|rewrite HF; intros HU; now apply A3].
    specialize (O3 eq_refl). rewrite U in O3. change (set_UDHf (command_fields t) None) with (command_fields t) in O3.
    destruct (command_roundtrip _ W) as (b & B1 & B2 & B3). exists b. rewrite <- O3 in B3. auto.
  - apply status_report_again in H; try assumption; try now apply A6. destruct (status_report_roundtrip _ H) as (b & B1 & B2 & B3).
    exists b. rewrite <- (O6 eq_refl) in B3. auto.
Qed.

(** What survives is well formed. *)
Ltac six W := do 5 (split; [first [intros X; discriminate X|intros X Y; first [exact W|exfalso; congruence]]|]); first [intros X; discriminate X|intros X Y; first [exact W|exfalso; congruence]].
Lemma again_wf src mo t : Forall is_byte src -> unmarshal src mo = Ok t -> again t ->
  (mo = true -> fo_mti (FO t) = 0 -> deliver_report_wf t) /\ (mo = false -> fo_mti (FO t) = 0 -> deliver_wf t) /\
  (mo = true -> fo_mti (FO t) = 1 -> submit_wf t) /\ (mo = false -> fo_mti (FO t) = 1 -> submit_report_wf t) /\
  (mo = true -> fo_mti (FO t) = 2 -> command_wf t) /\ (mo = false -> fo_mti (FO t) = 2 -> status_report_wf t).
Proof.
  intros HB H HA. destruct (unmarshal_sound _ _ _ HB H) as (_ & _ & HO).
  unfold unmarshal in H. destruct (tpdu_unmarshal_type _ _ _ H) as (HD & HF).
  unfold tpdu_unmarshal in H. destruct (len src <? 1); [discriminate|].
  apply bind_ok in H as (fo & Ef & H). cbv zeta in H. apply bind_ok in H as (s & Es & H).
  rewrite Ef in HF. apply ok_inj in HF. pose proof (idx_byte _ _ _ HB Ef) as Bf.
  pose proof (slice_from_bytes _ _ _ HB Es) as Bs.
  assert (ET : tpdu_type t = tpdu_type (start (if mo then MO else MT) fo)).
  { unfold tpdu_type. rewrite HD, <- HF. reflexivity. }
  unfold again, only_own_fields in HA, HO. cbv zeta in HA, HO. rewrite ET in HA, HO.
  fold (start (if mo then MO else MT) fo) in H.
  assert (HT : forall m, fo_mti fo = m -> tpdu_type (start (if mo then MO else MT) fo) = sms_type m (if mo then MO else MT)).
  { intros m <-. reflexivity. }
  set (ty := tpdu_type (start (if mo then MO else MT) fo)) in *. clearbody ty.
  destruct (mti_cases fo) as [M|[M|[M|M]]]; specialize (HT _ M); destruct mo; cbv in HT;
    change (if true then MO else MT) with MO in *; change (if false then MO else MT) with MT in *;
    rewrite HT in H, HA, HO; cbv [SmsDeliver SmsDeliverReport SmsSubmitReport SmsSubmit SmsStatusReport SmsCommand] in HA, HO;
    cbv [Z.eqb Pos.eqb SmsDeliver SmsDeliverReport SmsSubmitReport SmsSubmit SmsStatusReport SmsCommand] in H;
    try discriminate H; apply on_err_ok in H;
    destruct HA as (A1 & A2 & A3 & A4 & A5 & A6), HO as (O1 & O2 & O3 & O4 & O5 & O6).
  - apply deliver_report_again in H; try assumption; try now apply A4. six H.
  - apply deliver_again in H; try assumption; try now apply A1. six H.
  - apply submit_again in H; try assumption; try now apply A2. six H.
  - apply submit_report_again in H; try assumption; try now apply A5. six H.
  - apply command_again in H as (W & U); try assumption; [|rewrite HF; intros HU; now apply A3].
    six W.
  - apply status_report_again in H; try assumption; try now apply A6. six H.
Qed.
