(** Lemmas about TPDUs that are marshalled and read back the same: they have
    none of the oddities of SpecReencode (C57). *)
From Verif Require Import PrintProofs SpecSegment SpecLeft.
From Verif Require Import GoBase GoLemmas SafeLemmas SevenBit SevenBitProofs SpecDigits SpecSegment SpecText Bcd Dcs FirstOctet TpduError
  DigitsProofs Address AddressProofs GoFloat GoTime TimeProofs ValidityPeriod VPProofs SpecTime SpecVP SpecDcs UserData Tpdu SpecTpdu SpecSegTpdu UdProofs
  SegmentProofs SegmentFitProofs FlagsProofs TpduProofs TpduSafeProofs Sms SpecAccept AcceptProofs SpecReencode ReencodeProofs SpecWire WireProofs.

(** * Times *)
Lemma bcd_encode_ok u b : bcd_encode u = Ok b -> 0 <= u <= 99 /\ bcd_decode b = Ok u.
Proof.
  intros H. split; [|now apply bcd_decode_encode]. rewrite bcd_encode_spec in H.
  destruct ((0 <=? u) && (u <=? 99)) eqn:E; [lia|discriminate].
Qed.
Lemma same_month y y' m d : 0 <= Z.rem y 100 -> y' mod 100 = Z.rem y 100 -> 1970 <= y' <= 2069 -> is_date y m d -> is_date y' m d.
Proof.
  intros H0 H1 H2 (Hm & Hd). split; [exact Hm|]. unfold month_len in *. destruct (m =? 2); [|exact Hd].
  assert (y mod 100 = y' mod 100).
  { pose proof (Z.quot_rem' y 100) as Q. rewrite H1. symmetry. apply Z.mod_unique_pos with (q := Z.quot y 100); [|exact Q].
    split; [exact H0|]. rewrite <- H1. lia. }
  assert (L : leap_year y = true -> leap_year y' = true).
  { assert (M4 : y mod 4 = y' mod 4).
    { replace (y mod 4) with (y mod 100 mod 4) by lia. replace (y' mod 4) with (y' mod 100 mod 4) by lia. congruence. }
    intros HL. assert (Y4 : y' mod 4 = 0).
    { rewrite <- M4. unfold leap_year in HL. destruct (y mod 400 =? 0) eqn:A; [lia|]. destruct (y mod 100 =? 0); [discriminate|lia]. }
    clear - Y4 H2. unfold leap_year. destruct (y' mod 400 =? 0) eqn:A; [reflexivity|]. destruct (y' mod 100 =? 0) eqn:B; [|lia].
    exfalso. assert (y' = 2000) by lia. subst y'. discriminate A. }
  destruct (leap_year y); [now rewrite (L eq_refl)|]. destruct (leap_year y'); lia.
Qed.
Lemma ts_written_century t q r t' : ts_marshal t = Ok q -> ts_unmarshal (q ++ r) = Ok t' -> in_century t' /\ len q = 7.
Proof.
  intros HM HU. unfold ts_marshal in HM. destruct (t_date t) as [[y m] d] eqn:ED.
  assert (HD : is_date y m d).
  { unfold t_date in ED. destruct (civil_all (t_local t / 86400 + unix_epoch_day)) as (_ & H & _). rewrite ED in H. cbn [date_ok] in H.
    unfold is_date. lia. }
  apply bind_ok in HM as (b0 & E0 & HM). apply bind_ok in HM as (b1 & E1 & HM). apply bind_ok in HM as (b2 & E2 & HM).
  apply bind_ok in HM as (b3 & E3 & HM). apply bind_ok in HM as (b4 & E4 & HM). apply bind_ok in HM as (b5 & E5 & HM).
  apply bind_ok in HM as (b6 & E6 & HM). apply ok_inj in HM. subst q. split; [|reflexivity].
  apply bcd_encode_ok in E0 as (R0 & E0), E1 as (R1 & E1), E2 as (R2 & E2), E3 as (R3 & E3), E4 as (R4 & E4), E5 as (R5 & E5).
  apply bcd_decode_signed_encode in E6.
  unfold ts_unmarshal in HU. cbn [app] in HU. rewrite !len_cons in HU. pose proof (len_nonneg r).
  destruct (_ <? 7); [discriminate|].
  destruct (idx_seven b0 b1 b2 b3 b4 b5 b6 r) as (I0 & I1 & I2 & I3 & I4 & I5 & I6).
  rewrite I0, I1, I2, I3, I4, I5, I6 in HU. cbn [bind] in HU. rewrite E0, E1, E2, E3, E4, E5, E6 in HU. cbn [bind] in HU.
  apply ok_inj in HU. subst t'.
  set (y' := if Z.rem y 100 <? 70 then Z.rem y 100 + 2000 else Z.rem y 100 + 1900) in *.
  assert (HY : 1970 <= y' <= 2069 /\ y' mod 100 = Z.rem y 100).
  { unfold y'. destruct (Z.rem y 100 <? 70) eqn:C; split; try lia. }
  destruct HY as (HY & HR). clearbody y'.
  pose proof (same_month y y' m d ltac:(lia) HR HY HD) as HD'. destruct (wf_date y' m d HY HD') as (_ & W).
  destruct HD as (Hm & _). unfold in_century, go_date. cbn [t_unix t_off].
  replace ((m - 1) / 12) with 0 by lia. replace ((m - 1) mod 12 + 1) with m by lia. rewrite Z.add_0_r. cbn [day_number] in W.
  unfold century. pose proof (Z.mod_pos_bound (t_local t) 86400). pose proof (Z.mod_pos_bound (t_local t) 3600).
  pose proof (Z.mod_pos_bound (t_local t) 60).
  assert (0 <= t_hour t <= 23) by (unfold t_hour; lia). assert (0 <= t_minute t <= 59) by (unfold t_minute; lia).
  assert (0 <= t_second t <= 59) by (unfold t_second; lia).
  set (D := days_before_year y' + days_before_month (is_leap y') m + (d - 1)) in *. lia.
Qed.
Lemma time_again t q : Forall is_byte q -> ts_marshal t = Ok q -> time_octets t q -> in_century t.
Proof.
  intros HB HM HT. assert (HU : ts_unmarshal q = Ok t) by (apply time_iff; [exact HB|]; exists q, []; now rewrite app_nil_r).
  rewrite <- (app_nil_r q) in HU. now apply (ts_written_century t q [] t).
Qed.
Lemma time_len t q : ts_marshal t = Ok q -> len q = 7.
Proof.
  unfold ts_marshal. destruct (t_date t) as [[y m] d]. intros HM.
  apply bind_ok in HM as (b0 & _ & HM). apply bind_ok in HM as (b1 & _ & HM). apply bind_ok in HM as (b2 & _ & HM).
  apply bind_ok in HM as (b3 & _ & HM). apply bind_ok in HM as (b4 & _ & HM). apply bind_ok in HM as (b5 & _ & HM).
  apply bind_ok in HM as (b6 & _ & HM). apply ok_inj in HM. now subst q.
Qed.

(** * Validity periods *)
Definition vp_part (v : validity) : res bytes :=
  if negb (vp_format v =? VpfNotPresent) then vp_marshal v else Ok [].
Lemma five_minutes : duration_to_relative (minutes 5) = 1. Proof. reflexivity. Qed.
Lemma relative_not_five o : relative_vp o (minutes 5) -> o = 0.
Proof.
  intros H. remember (minutes 5) as d eqn:E. destruct H; unfold weeks, days, hours, minutes in E; lia.
Qed.
Lemma period_len f v q : period_octets f v q -> vp_format v = f /\ len q = (if f =? 0 then 0 else if f =? 2 then 1 else 7).
Proof.
  intros H. destruct H; try (split; reflexivity). split; [reflexivity|]. cbn. eapply time_octets_len; eauto.
Qed.
Lemma part_len v q : vp_part v = Ok q -> 0 <= vp_format v < 4 ->
  len q = (if vp_format v =? 0 then 0 else if vp_format v =? 2 then 1 else 7).
Proof.
  unfold vp_part, vp_marshal, VpfNotPresent, VpfAbsolute, VpfEnhanced, VpfRelative. intros H HF.
  destruct (vp_format v =? 0) eqn:E0; cbn [negb] in H; [apply ok_inj in H; now subst q|].
  destruct (vp_format v =? 3) eqn:E3; [bfalse (vp_format v =? 2); now apply time_len in H|].
  destruct (vp_format v =? 1) eqn:E1.
  { bfalse (vp_format v =? 2). cbv zeta in H.
    destruct (EvpfRelativeHHMMSS <? _); [discriminate|]. destruct (_ =? EvpfRelative); [apply ok_inj in H; now subst q|].
    destruct (_ =? EvpfRelativeSeconds); [apply ok_inj in H; now subst q|].
    destruct (_ =? EvpfRelativeHHMMSS); [|apply ok_inj in H; now subst q].
    apply bind_ok in H as (x & _ & H). apply bind_ok in H as (y & _ & H). apply bind_ok in H as (z & _ & H). apply ok_inj in H. now subst q. }
  destruct (vp_format v =? 2); [apply ok_inj in H; now subst q|discriminate].
Qed.
Lemma part_again f v q : Forall is_byte q -> vp_part v = Ok q -> period_octets f v q -> vp_again v.
Proof.
  intros HB HM HP. unfold vp_again. destruct HP as [|o d HR|t b HT|efi E|efi o d E HR|efi n E|efi oh om os h m s E Hh Hm Hs];
    unfold vp_zero, vp_relative, vp_absolute, vp_enhanced in *; cbn [vp_format vp_time vp_duration vp_efi] in *;
    (split; [|split; [|split]]); try (intros X; discriminate X); try (intros _ X; lia).
  - intros _ ->. cbn in HM. unfold vp_part in HM. cbn in HM. apply ok_inj in HM. pose proof (relative_not_five _ HR). congruence.
  - intros _. apply (time_again _ b HB); [exact HM|exact HT].
  - intros _ _ ->. unfold vp_part, vp_marshal in HM. cbn [vp_format vp_efi vp_duration] in HM.
    change (negb (VpfEnhanced =? VpfNotPresent)) with true in HM. change (VpfEnhanced =? VpfAbsolute) with false in HM.
    change (VpfEnhanced =? VpfEnhanced) with true in HM. cbv iota zeta in HM.
    rewrite VPProofs.land7, E in HM. cbn in HM. apply ok_inj in HM. pose proof (relative_not_five _ HR). congruence.
  - intros _ _. unfold vp_part, vp_marshal in HM. cbn [vp_format vp_efi vp_duration] in HM.
    change (negb (VpfEnhanced =? VpfNotPresent)) with true in HM. change (VpfEnhanced =? VpfAbsolute) with false in HM.
    change (VpfEnhanced =? VpfEnhanced) with true in HM. cbv iota zeta in HM. rewrite VPProofs.land7, E in HM.
    change (EvpfRelativeHHMMSS <? 3) with false in HM. change (3 =? EvpfRelative) with false in HM.
    change (3 =? EvpfRelativeSeconds) with false in HM. change (3 =? EvpfRelativeHHMMSS) with true in HM. cbv iota in HM.
    apply bind_ok in HM as (x & Ex & HM). apply bind_ok in HM as (y & Ey & HM). apply bind_ok in HM as (z & Ez & HM).
    apply ok_inj in HM. apply on_err_ok in Ex, Ey, Ez.
    apply bcd_encode_ok in Ex as (Rx & Ex), Ey as (Ry & Ey), Ez as (Rz & Ez).
    assert (x = oh /\ y = om /\ z = os) as (-> & -> & ->) by (repeat split; congruence).
    apply two_digits_iff in Hh, Hm, Hs; try (now apply two_digits_byte in Hh || now apply two_digits_byte in Hm || now apply two_digits_byte in Hs).
    rewrite Ex in Hh. rewrite Ey in Hm. rewrite Ez in Hs. apply ok_inj in Hh, Hm, Hs.
    pose proof (Z.rem_bound_abs (in_units ns_minute (seconds (3600 * h + 60 * m + s))) 60 ltac:(lia)) as B1.
    pose proof (Z.rem_bound_abs (in_units ns_second (seconds (3600 * h + 60 * m + s))) 60 ltac:(lia)) as B2.
    rewrite Hm in Ry, B1. rewrite Hs in Rz, B2. rewrite Hh in Rx. unfold hours, minutes. unfold seconds in *. lia.
Qed.

(** * Addresses *)
Lemma address_value a q : Forall is_byte q -> address_octets a q -> addr_value a.
Proof.
  intros HB H. eapply addr_unmarshal_value; [exact HB|]. apply address_iff; [exact HB|].
  exists q, []. rewrite app_nil_r. split; [reflexivity|]. split; [exact H|reflexivity].
Qed.
Lemma app_align {A} (q r q' r' : list A) : q ++ r = q' ++ r' -> len q = len q' -> q = q' /\ r = r'.
Proof.
  intros H L. assert (length q = length q') as L' by (unfold len in L; lia). clear L. revert q' L' H.
  induction q as [|x q IH]; intros [|x' q'] L' H; try discriminate L'; [now split|]. cbn in H, L'. injection H as -> H.
  destruct (IH q') as (-> & ->); [lia|exact H|now split].
Qed.
Lemma address_align a q r m x : Forall is_byte (q ++ r) -> address_octets a q -> addr_marshal a = Ok m -> q ++ r = m ++ x -> q = m /\ r = x.
Proof.
  intros HB HA HM HE. apply app_align; [exact HE|]. pose proof (proj1 (Forall_app _ _ _) HB) as (Bq & _).
  destruct (addr_value_roundtrip a (address_value a q Bq HA)) as (p & Ep & _ & _ & R). rewrite HM in Ep. apply ok_inj in Ep. subst p.
  specialize (R x). rewrite <- HE in R. assert (addr_unmarshal (q ++ r) = Ok (a, len q)) as R'.
  { apply address_iff; [exact HB|]. now exists q, r. }
  rewrite R' in R. apply ok_pair in R. tauto.
Qed.
Lemma time_align t t' q r m x : time_octets t q -> ts_marshal t' = Ok m -> q ++ r = m ++ x -> q = m /\ r = x.
Proof. intros H1 H2 H. apply app_align; [exact H|]. apply time_octets_len in H1. apply time_len in H2. lia. Qed.

(** * User data *)
Lemma elements_last l : l <> [] -> exists i, In i l /\ len (elements l) = len (elements (removelast l)) + 2 + len (ie_data i).
Proof.
  induction l as [|i l IH]; [congruence|]. intros _. destruct l as [|j l].
  - exists i. split; [now left|]. cbn [elements removelast]. rewrite !len_cons, app_nil_r. change (len (@nil Z)) with 0. lia.
  - destruct IH as (k & Hk & E); [discriminate|]. exists k. split; [now right|].
    change (removelast (i :: j :: l)) with (i :: removelast (j :: l)). cbn [elements] in *. rewrite !len_cons, !len_app, !len_cons, len_app in *. lia.
Qed.
Lemma user_data_again t b : is_byte (DCS t) -> ud_sound t -> encode_ud t = Ok b -> Forall is_byte b ->
  user_data_octets (Z.testbit (FO t) 6) (DCS t) (UDH t) (UD t) b -> ud_again t.
Proof.
  intros HD (S1 & S2) HE HB HG. unfold encode_ud in HE. apply bind_ok in HE as (a & Ea & HE). apply on_err_ok in Ea. cbv zeta in HE.
  assert (EA : alphabet_of (DCS t) = Some a).
  { unfold tpdu_alphabet in Ea. rewrite (alphabet_meaning _ HD) in Ea. destruct (alphabet_of (DCS t)); [|discriminate]. apply ok_inj in Ea. now subst. }
  unfold ud_again. rewrite Ea. split; [now exists a|]. rewrite udhi_bit.
  inversion HG as [rest EH EU EB|l b0 h n m u a' L0 A1 LB HH Em HM EH EU EB].
  { split; [reflexivity|]. intros l X. discriminate X. }
  subst h u b. rewrite EA in A1. injection A1 as <-.
  apply Forall_cons_iff in HB as (Bl & HB). pose proof (len_nonneg (UD t)) as LU.
  assert (HS : UD t <> [] -> a = 0 -> Forall is_septet (UD t)).
  { intros NE ->. destruct S2 as [S2|[(S2 & F)|[(S2 & _)|(S2 & _)]]]; [contradiction|exact F|rewrite S2 in Ea; discriminate Ea|rewrite S2 in Ea; discriminate Ea]. }
  destruct (UDH t) as [le|] eqn:EH.
  - split; [discriminate|]. intros le' X. injection X as <-.
    destruct (Z.testbit (FO t) 6); [|now destruct HH].
    destruct HH as (rest & E0 & Hn & NE & HL). destruct S1 as (_ & _ & SF).
    cbn [ies] in HE. pose proof (udh_marshal_len le) as ML. rewrite <- elements_len in ML.
    destruct (elements_last le NE) as (i & Hi & EL). rewrite Forall_forall in SF. destruct (SF i Hi) as (_ & _ & Li).
    pose proof (len_nonneg (elements (removelast le))) as LR. pose proof (len_nonneg (ie_data i)) as LI.
    replace (len (elements le) =? 0) with false in ML by lia.
    assert (HM1 : exists hb, udh_marshal le = to_byte (len (elements le)) :: hb).
    { unfold udh_marshal. replace (len le =? 0) with false; [rewrite elements_len; eexists; reflexivity|].
      destruct le; [congruence|]. rewrite len_cons. pose proof (len_nonneg le). lia. }
    destruct HM1 as (hb & Ehb).
    assert (HEL : len (elements le) <= 255).
    { assert (n - 1 = to_byte (len (elements le))).
      { rewrite Ehb in HE. rewrite E0 in HE. destruct (a =? Alpha7Bit); [|destruct (_ && _); [discriminate|]]; apply ok_inj in HE; cbn [app] in HE; congruence. }
      unfold to_byte in *. lia. }
    split; [exact HEL|]. unfold header_size, header_octets. rewrite len_cons.
    set (E := len (elements le)) in *. unfold cdiv. change Alpha7Bit with 0 in *.
    destruct (a =? 0) eqn:E7.
    + set (f := fill_bits (len (udh_marshal le))) in *. destruct (fill_bits_spec (len (udh_marshal le)) ltac:(lia)) as (F1 & F2). fold f in F1, F2.
      destruct (UD t) as [|c cs] eqn:EU.
      * change (len (@nil Z)) with 0 in *. cbn [pack7bit] in HE. change (0 <? 0) with false in HE. cbv iota in HE. change (pack7bit [] f) with (@nil Z) in HE. rewrite app_nil_r in HE.
        apply ok_inj in HE. assert (l = to_byte (len (udh_marshal le) * 8 / 7) /\ b0 = udh_marshal le) as (-> & ->) by (split; congruence).
        rewrite ML in *. unfold to_byte in *. lia.
      * rewrite <- EU in *. assert (NU : UD t <> []) by (rewrite EU; discriminate). pose proof (len_ne_nil _ NU) as LP.
        replace (0 <? len (UD t)) with true in HE by lia. apply ok_inj in HE.
        assert (l = to_byte (len (UD t) + (len (udh_marshal le) * 8 + f) / 7) /\ b0 = udh_marshal le ++ pack7bit (UD t) f) as (-> & ->) by (split; congruence).
        rewrite len_app, (pack7bit_len (UD t) f (HS NU ltac:(lia)) ltac:(lia) NU), ML in LB. rewrite ML in *.
        pose proof (octets_septets (1 + E) (len (UD t)) ltac:(lia) ltac:(lia)) as OS. cbv zeta in OS. unfold cdiv in OS.
        replace (fill_bits (1 + E)) with f in OS by (unfold f; f_equal; lia).
        assert (TK : - (- (8 * (1 + E)) / 7) = ((E + 1) * 8 + f) / 7) by lia. rewrite TK in OS |- *.
        set (T := ((E + 1) * 8 + f) / 7) in *. unfold to_byte in *. lia.
    + destruct (_ && _); [discriminate|]. apply ok_inj in HE.
      assert (l = to_byte (len (UD t) + len (udh_marshal le)) /\ b0 = udh_marshal le ++ UD t) as (-> & ->) by (split; congruence).
      rewrite len_app, ML in LB. rewrite ML in *. unfold to_byte in *. lia.
  - split; [|intros l' X; discriminate X]. intros U _. rewrite U in HH. destruct HH as (rest & E0 & Hn & ->).
    destruct (UD t) as [|c cs] eqn:EU; [reflexivity|exfalso]. rewrite <- EU in *. assert (NU : UD t <> []) by (rewrite EU; discriminate). pose proof (len_ne_nil _ NU) as LP.
    cbn [ies] in HE. change (udh_marshal []) with (@nil Z) in HE. change (len (@nil Z)) with 0 in HE. change Alpha7Bit with 0 in HE. destruct (a =? 0) eqn:E7.
    + change (fill_bits 0) with 0 in HE. replace (0 <? len (UD t)) with true in HE by lia. change ((0 * 8 + 0) / 7) with 0 in HE. cbn [app] in HE. apply ok_inj in HE.
      assert (l = to_byte (len (UD t) + 0)) by congruence.
      destruct m as [|x m]; [congruence|]. destruct HM as (HM & _). change ((8 * 1 + 6) / 7) with 2 in HM. unfold to_byte in *. lia.
    + destruct (_ && _); [discriminate|]. apply ok_inj in HE. cbn [app] in HE. assert (b0 = UD t) by congruence. subst b0.
      destruct m as [|x m']; [congruence|]. destruct HM as (HM & _). assert (len (UD t) = len (skipn (Z.to_nat 1) (UD t))) by congruence.
      rewrite len_skipn in *; lia.
Qed.

(** * TPDUs *)
Lemma type_is t : is_byte (FO t) -> Direction t = 0 \/ Direction t = 1 -> tpdu_type t = 2 * (FO t mod 4) + Direction t.
Proof. intros HB HD. rewrite <- (type_of_fo (Direction t) (FO t) HB HD). reflexivity. Qed.
Lemma optionals_align t fo pi m ud opt :
  FO t = fo -> PI t = pi -> optional_octets fo pi (PID t) (DCS t) (UDH t) (UD t) opt -> opt = marshal_opt t ++ ud -> m = marshal_opt t ->
  (pi_udl (PI t) = true -> user_data_octets (Z.testbit fo 6) (DCS t) (UDH t) (UD t) ud).
Proof.
  intros EF EP (pid_o & dcs_o & rest & E & H1 & H2 & H3) EO -> HU. subst fo pi. destruct (pi_bits (PI t)) as (B1 & B2 & B3).
  rewrite B3 in HU. rewrite HU in H3. unfold marshal_opt in EO. rewrite B1, B2 in EO. rewrite E in EO.
  destruct (Z.testbit (PI t) 0); destruct (Z.testbit (PI t) 1); try destruct H1 as (H1 & _); try destruct H2 as (H2 & _); rewrite H1, H2 in EO; cbn [app] in EO;
    repeat match type of EO with _ :: _ = _ :: _ => apply (f_equal (@tl Z)) in EO; cbn [tl] in EO end; congruence.
Qed.
Lemma fields_octets src mo t : Forall is_byte src -> unmarshal src mo = Ok t -> is_byte (FO t) /\ is_byte (DCS t) /\ ud_sound t.
Proof. intros HB H. destruct (unmarshal_sound _ _ _ HB H) as (S & U & _). unfold sound, octet_fields in S. tauto. Qed.

Lemma again_needed t b mo : tpdu_marshal t = Ok b -> Forall is_byte b -> unmarshal b mo = Ok t -> again t.
Proof.
  intros HM HB HU. destruct (fields_octets _ _ _ HB HU) as (BF & BD & US). apply wire_iff in HU; [|exact HB].
  unfold tpdu_marshal in HM. unfold again. cbv zeta in *.
  destruct HU as [fo oa pid dcs ts h u oa_o ts_o ud_o M HA HT HD|fo mr da pid dcs vp h u da_o vp_o ud_o M HA HP HD
    |fo mr pid ct mn da h u da_o ud_o M HA HD|fo fcs pi pid dcs h u opt_o M HO|fo fcs pi ts pid dcs h u ts_o opt_o M HT HO
    |fo mr ra ts dt st pi pid dcs h u ra_o ts_o dt_o rest M HA HT HT' HO];
  match goal with |- context [tpdu_type ?t0] => set (t := t0) in * end;
  assert (TY : tpdu_type t = 2 * (FO t mod 4) + Direction t) by (apply type_is; [exact BF|first [left; reflexivity|right; reflexivity]]);
  change (FO t) with fo in *; rewrite M in TY; match type of TY with _ = ?r => let v := eval vm_compute in r in change r with v in TY end; rewrite TY in HM |- *;
  cbv [SmsDeliver SmsDeliverReport SmsSubmitReport SmsSubmit SmsStatusReport SmsCommand] in HM |- *; cbv [Z.eqb Pos.eqb] in HM; apply on_err_ok in HM;
  repeat match goal with |- _ /\ _ => split end; try (intros X; discriminate X); intros _.
  - unfold marshal_deliver in HM. apply bind_ok in HM as (q1 & E1 & HM). apply bind_ok in HM as (q2 & E2 & HM). apply bind_ok in HM as (q3 & E3 & HM).
    apply on_err_ok in E1, E2, E3. apply ok_inj in HM. change (FO t) with fo in HM. change (PID t) with pid in HM. change (DCS t) with dcs in HM.
    apply app_inv_head in HM. apply Forall_app in HB as (_ & HB).
    symmetry in HM. destruct (address_align _ _ _ _ _ HB HA E1 HM) as (-> & HM2). apply Forall_app in HB as (_ & HB). apply Forall_app in HB as (_ & HB).
    apply app_inv_head in HM2. destruct (time_align _ _ _ _ _ _ HT E2 HM2) as (-> & ->). apply Forall_app in HB as (B2 & B3). split.
    + now apply (time_again ts q2).
    + now apply (user_data_again t q3).
  - unfold marshal_submit in HM. apply bind_ok in HM as (q1 & E1 & HM). apply bind_ok in HM as (q3 & E3 & HM). apply bind_ok in HM as (q2 & E2 & HM).
    apply on_err_ok in E1, E3. apply ok_inj in HM. change (FO t) with fo in HM. change (MR t) with mr in HM. change (PID t) with pid in HM. change (DCS t) with dcs in HM.
    apply app_inv_head in HM. apply Forall_app in HB as (_ & HB).
    symmetry in HM. destruct (address_align _ _ _ _ _ HB HA E1 HM) as (-> & HM2). apply Forall_app in HB as (_ & HB). apply Forall_app in HB as (_ & HB).
    apply app_inv_head in HM2.
    assert (PV : vp_part vp = Ok q2).
    { unfold vp_part. change (VP t) with vp in E2. destruct (negb _); [now apply on_err_ok in E2|exact E2]. }
    destruct (period_len _ _ _ HP) as (PF & PL). pose proof (part_len _ _ PV ltac:(rewrite PF; lia)) as PL'. rewrite PF, <- PL in PL'.
    destruct (app_align _ _ _ _ HM2 (eq_sym PL')) as (-> & ->). apply Forall_app in HB as (B2 & B3). split.
    + now apply (part_again (fo / 8 mod 4) vp q2).
    + now apply (user_data_again t q3).
  - intros HU. unfold marshal_command in HM. apply bind_ok in HM as (q1 & E1 & HM). apply on_err_ok in E1. apply ok_inj in HM.
    change (FO t) with fo in HM. change (MR t) with mr in HM. change (PID t) with pid in HM. change (CT t) with ct in HM. change (MN t) with mn in HM.
    apply app_inv_head in HM. apply Forall_app in HB as (_ & HB).
    symmetry in HM. destruct (address_align _ _ _ _ _ HB HA E1 HM) as (-> & ->). change (UD t) with u in *. change (UDH t) with h in *.
    rewrite udhi_bit in HU. rewrite HU in HD.
    inversion HD as [rest EH EU EB|l b0 h' n m u' a' L0 A1 LB HH Em HM' EH EU EB]; [now split|]. exfalso. subst.
    change (alphabet_of 4) with (Some 1) in A1. injection A1 as <-. destruct HH as (rest & E0 & Hn & _).
    destruct (skipn (Z.to_nat n) u) as [|x m] eqn:ES.
    + rewrite HM' in Hn. cbn in Hn. lia.
    + destruct HM' as (EU & _). assert (len u = len (skipn (Z.to_nat n) u)) by (rewrite ES; now f_equal). rewrite len_skipn in *; lia.
  - unfold marshal_deliver_report in HM. apply bind_ok in HM as (q3 & E3 & HM). apply ok_inj in HM.
    change (FO t) with fo in HM. change (FCS t) with fcs in *. change (PI t) with pi in *. cbn [app] in HM.
    destruct (fcs =? 0) eqn:EF; cbn [negb app] in HM.
    + exfalso. assert (pi = 0) by (assert (pi = fcs) by congruence; lia). subst pi. cbn in E3. apply ok_inj in E3. subst q3. discriminate HM.
    + split; [lia|]. intros HU. rewrite HU in E3. apply on_err_ok in E3. assert (opt_o = marshal_opt t ++ q3) as -> by congruence.
      apply Forall_app in HB as (_ & HB). apply Forall_app in HB as (_ & HB). apply (user_data_again t q3); auto.
      eapply (optionals_align t fo pi); eauto.
  - unfold marshal_submit_report in HM. apply bind_ok in HM as (q2 & E2 & HM). apply bind_ok in HM as (q3 & E3 & HM). apply ok_inj in HM.
    apply on_err_ok in E2. change (FO t) with fo in HM. change (FCS t) with fcs in *. change (PI t) with pi in *. cbn [app] in HM.
    destruct (fcs =? 0) eqn:EF; cbn [negb app] in HM.
    + exfalso. assert (pi = 0) by (assert (pi = fcs) by congruence; lia). subst pi. cbn in E3. apply ok_inj in E3. subst q3.
      apply (f_equal len) in HM. rewrite !len_cons, !len_app in HM. apply time_len in E2. apply time_octets_len in HT.
      change (marshal_opt t) with (@nil Z) in HM. change (len (@nil Z)) with 0 in HM. pose proof (len_nonneg opt_o). lia.
    + split; [lia|]. assert (HM2 : ts_o ++ opt_o = q2 ++ marshal_opt t ++ q3) by congruence.
      destruct (time_align _ _ _ _ _ _ HT E2 HM2) as (-> & ->). apply Forall_app in HB as (_ & HB). apply Forall_app in HB as (B2 & HB). split.
      * now apply (time_again ts q2).
      * intros HU. rewrite HU in E3. apply on_err_ok in E3. apply Forall_app in HB as (_ & HB). apply (user_data_again t q3); auto.
        eapply (optionals_align t fo pi); eauto.
  - unfold marshal_status_report in HM. apply bind_ok in HM as (q1 & E1 & HM). apply bind_ok in HM as (q2 & E2 & HM). apply bind_ok in HM as (q3 & E3 & HM).
    apply bind_ok in HM as (q4 & E4 & HM). apply on_err_ok in E1, E2, E3. cbv zeta in HM.
    change (FO t) with fo in HM. change (MR t) with mr in HM. change (PI t) with pi in *. change (ST t) with st in HM.
    assert (HM' : exists opt, [fo; mr] ++ ra_o ++ ts_o ++ dt_o ++ [st] ++ rest = [fo; mr] ++ q1 ++ q2 ++ q3 ++ [st] ++ opt /\
      opt = (if pi =? 0 then [] else pi :: marshal_opt t ++ q4)).
    { destruct (pi =? 0); apply ok_inj in HM; eexists; (split; [|reflexivity]); rewrite <- HM, <- ?app_assoc; reflexivity. }
    destruct HM' as (opt & HM2 & EO). apply app_inv_head in HM2. apply Forall_app in HB as (_ & HB).
    destruct (address_align _ _ _ _ _ HB HA E1 HM2) as (-> & HM3). apply Forall_app in HB as (_ & HB).
    destruct (time_align _ _ _ _ _ _ HT E2 HM3) as (-> & HM4). apply Forall_app in HB as (B2 & HB).
    destruct (time_align _ _ _ _ _ _ HT' E3 HM4) as (-> & HM5). apply Forall_app in HB as (B3 & HB).
    apply app_inv_head in HM5. subst rest. apply Forall_app in HB as (_ & HB). split; [now apply (time_again ts q2)|]. split; [now apply (time_again dt q3)|].
    intros HU. rewrite HU in E4. apply on_err_ok in E4. destruct (pi =? 0) eqn:EP; [assert (pi = 0) by lia; subst pi; discriminate HU|].
    destruct HO as [(HO & _)|(opt_o & HO & HO2)]; [rewrite EO in HO; discriminate HO|]. assert (opt_o = marshal_opt t ++ q4) as -> by congruence.
    subst opt. apply Forall_cons_iff in HB as (_ & HB). apply Forall_app in HB as (_ & HB). apply (user_data_again t q4); auto.
    eapply (optionals_align t fo pi); eauto.
Qed.

(** Marshalling looks at the fields of the type only. *)
Definition typed_marshal (st : Z) (t : tpdu) : res bytes :=
  if st =? SmsDeliver then marshal_deliver t
  else if st =? SmsDeliverReport then marshal_deliver_report t
  else if st =? SmsSubmitReport then marshal_submit_report t
  else if st =? SmsSubmit then marshal_submit t
  else if st =? SmsStatusReport then marshal_status_report t
  else marshal_command t.
Lemma typed_marshal_eq t u st : tpdu_type t = st -> tpdu_type u = st -> typed_marshal st t = typed_marshal st u ->
  tpdu_marshal t = tpdu_marshal u.
Proof.
  intros E F. unfold tpdu_marshal, typed_marshal. rewrite E, F.
  destruct (st =? SmsDeliver); [now intros ->|]. destruct (st =? SmsDeliverReport); [now intros ->|].
  destruct (st =? SmsSubmitReport); [now intros ->|]. destruct (st =? SmsSubmit); [now intros ->|].
  destruct (st =? SmsStatusReport); [now intros ->|]. destruct (st =? SmsCommand); [now intros ->|reflexivity].
Qed.
Lemma encode_ud_eq t u : DCS t = DCS u -> UDH t = UDH u -> UD t = UD u -> encode_ud t = encode_ud u.
Proof. intros A B C. unfold encode_ud, tpdu_alphabet. now rewrite A, B, C. Qed.
Lemma submit_fields_marshal t : Direction t = MO -> fo_mti (FO t) = 1 -> tpdu_marshal t = tpdu_marshal (submit_fields t).
Proof.
  intros HD HM. apply (typed_marshal_eq _ _ SmsSubmit).
  - unfold tpdu_type. now rewrite HD, HM.
  - unfold tpdu_type. change (FO (submit_fields t)) with (FO t). now rewrite HM.
  - change (typed_marshal SmsSubmit) with marshal_submit. unfold marshal_submit.
    rewrite (encode_ud_eq (submit_fields t) t) by reflexivity. reflexivity.
Qed.
Lemma deliver_fields_marshal t : Direction t = MT -> fo_mti (FO t) = 0 -> tpdu_marshal t = tpdu_marshal (deliver_fields t).
Proof.
  intros HD HM. apply (typed_marshal_eq _ _ SmsDeliver).
  - unfold tpdu_type. now rewrite HD, HM.
  - unfold tpdu_type. change (FO (deliver_fields t)) with (FO t). now rewrite HM.
  - change (typed_marshal SmsDeliver) with marshal_deliver. unfold marshal_deliver.
    rewrite (encode_ud_eq (deliver_fields t) t) by reflexivity. reflexivity.
Qed.
Lemma deliver_report_fields_marshal t : Direction t = MO -> fo_mti (FO t) = 0 -> tpdu_marshal t = tpdu_marshal (deliver_report_fields t).
Proof.
  intros HD HM. apply (typed_marshal_eq _ _ SmsDeliverReport).
  - unfold tpdu_type. now rewrite HD, HM.
  - unfold tpdu_type. change (FO (deliver_report_fields t)) with (FO t). now rewrite HM.
  - change (typed_marshal SmsDeliverReport) with marshal_deliver_report. unfold marshal_deliver_report, marshal_opt.
    rewrite (encode_ud_eq (deliver_report_fields t) t) by reflexivity. reflexivity.
Qed.
Lemma submit_report_fields_marshal t : Direction t = MT -> fo_mti (FO t) = 1 -> tpdu_marshal t = tpdu_marshal (submit_report_fields t).
Proof.
  intros HD HM. apply (typed_marshal_eq _ _ SmsSubmitReport).
  - unfold tpdu_type. now rewrite HD, HM.
  - unfold tpdu_type. change (FO (submit_report_fields t)) with (FO t). now rewrite HM.
  - change (typed_marshal SmsSubmitReport) with marshal_submit_report. unfold marshal_submit_report, marshal_opt.
    rewrite (encode_ud_eq (submit_report_fields t) t) by reflexivity. reflexivity.
Qed.
Lemma status_report_fields_marshal t : Direction t = MT -> fo_mti (FO t) = 2 -> tpdu_marshal t = tpdu_marshal (status_report_fields t).
Proof.
  intros HD HM. apply (typed_marshal_eq _ _ SmsStatusReport).
  - unfold tpdu_type. now rewrite HD, HM.
  - unfold tpdu_type. change (FO (status_report_fields t)) with (FO t). now rewrite HM.
  - change (typed_marshal SmsStatusReport) with marshal_status_report. unfold marshal_status_report, marshal_opt.
    rewrite (encode_ud_eq (status_report_fields t) t) by reflexivity. reflexivity.
Qed.
Lemma command_fields_marshal t : Direction t = MO -> fo_mti (FO t) = 2 -> tpdu_marshal t = tpdu_marshal (command_fields t).
Proof.
  intros HD HM. apply (typed_marshal_eq _ _ SmsCommand).
  - unfold tpdu_type. now rewrite HD, HM.
  - unfold tpdu_type. change (FO (command_fields t)) with (FO t). now rewrite HM.
  - change (typed_marshal SmsCommand) with marshal_command. unfold marshal_command.
    reflexivity.
Qed.
