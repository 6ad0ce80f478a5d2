(** Lemmas for C74: the readers accept what the grammar says. *)
From Verif Require Import GoBase GoLemmas PrintProofs SafeLemmas Utf UtfProofs Bcd Semioctet DigitsProofs SevenBit SevenBitProofs Charset Gsm7 CharsetProofs
  Dcs FirstOctet TpduError Address AddressProofs GoTime TimeProofs ValidityPeriod VPProofs UserData UdProofs Tpdu
  SegmentProofs SegmentFitProofs FlagsProofs TpduProofs LeftProofs ShownProofs AlphabetProofs
  SpecText SpecBits SpecDigits SpecTime SpecVP SpecDcs SpecAlphabet SpecShown SpecTpdu SpecSegment SpecLeft SpecWire Sms.

(** ** Numbers *)
Lemma two_digits_byte o n : two_digits o n -> is_byte o.
Proof. intros (a & b & A & B & -> & _). unfold is_byte. lia. Qed.
Lemma two_digits_iff o n : is_byte o -> bcd_decode o = Ok n <-> two_digits o n.
Proof.
  intros H. rewrite (bcd_decode_spec o H). unfold is_byte in H. split.
  - destruct ((o mod 16 <=? 9) && (o / 16 <=? 9)) eqn:E; [|discriminate]. intros X. apply ok_inj in X. subst n.
    exists (o mod 16), (o / 16). lia.
  - intros (a & b & A & B & -> & ->). replace ((a + 16 * b) mod 16) with a by lia. replace ((a + 16 * b) / 16) with b by lia.
    replace ((a <=? 9) && (b <=? 9)) with true by lia. reflexivity.
Qed.
Lemma testbit3 a b : 0 <= a <= 7 -> 0 <= b <= 9 -> Z.testbit (a + 16 * b) 3 = false /\ Z.testbit (8 + a + 16 * b) 3 = true.
Proof.
  intros A B. rewrite !Z.testbit_odd, !Z.shiftr_div_pow2 by lia. change (2 ^ 3) with 8.
  replace ((a + 16 * b) / 8) with (2 * b) by lia. replace ((8 + a + 16 * b) / 8) with (2 * b + 1) by lia.
  rewrite Z.odd_mul, Z.odd_add, Z.odd_mul. now split.
Qed.
Lemma signed_digits_iff o n : is_byte o -> bcd_decode_signed o = Ok n <-> signed_digits o n.
Proof.
  intros H. rewrite (bcd_decode_signed_spec o H). unfold is_byte in H. split.
  - destruct (o / 16 <=? 9) eqn:E; [|discriminate]. intros X. apply ok_inj in X. subst n.
    exists (o mod 8), (o / 16). split; [lia|]. split; [lia|].
    rewrite Z.testbit_odd, Z.shiftr_div_pow2 by lia. change (2 ^ 3) with 8.
    pose proof (Zodd_mod (o / 8)) as P. unfold Zeq_bool in P. rewrite Zodd_mod.
    destruct (Zeq_bool (o / 8 mod 2) 1) eqn:Q; [apply Zeq_bool_eq in Q; right|apply Zeq_bool_neq in Q; left]; lia.
  - intros (a & b & A & B & D). destruct (testbit3 a b A B) as (T1 & T2).
    destruct D as [(-> & ->)|(-> & ->)].
    + rewrite T1. replace ((a + 16 * b) mod 8) with a by lia. replace ((a + 16 * b) / 16) with b by lia.
      replace (b <=? 9) with true by lia. f_equal. lia.
    + rewrite T2. replace ((8 + a + 16 * b) mod 8) with a by lia. replace ((8 + a + 16 * b) / 16) with b by lia.
      replace (b <=? 9) with true by lia. f_equal; lia.
Qed.

(** ** Digits *)
Lemma digits_cons o p : digits_of (o :: p) =
  (if no_filler (o mod 16) then [nth (Z.to_nat (o mod 16)) semi_alphabet 0] else []) ++
  (if no_filler (o / 16) then [nth (Z.to_nat (o / 16)) semi_alphabet 0] else []) ++ digits_of p.
Proof.
  unfold digits_of, nibbles. cbn [flat_map app filter].
  destruct (no_filler (o mod 16)), (no_filler (o / 16)); reflexivity.
Qed.
Lemma digit_any i : 0 <= i < 16 ->
  idx decode_digits i = Ok (if no_filler i then nth (Z.to_nat i) semi_alphabet 0 else fillF) /\
  (no_filler i = true -> (nth (Z.to_nat i) semi_alphabet 0 =? fillF) = false).
Proof.
  intros H. destruct (Z.eq_dec i 15) as [->|N]; [split; [reflexivity|discriminate]|].
  unfold no_filler. replace (negb (i =? 15)) with true by lia.
  replace i with (Z.of_nat (Z.to_nat i)) by lia. destruct (dd_code (Z.to_nat i) ltac:(lia)) as (E1 & E2).
  rewrite Nat2Z.id. now split.
Qed.
Lemma nibble_div o : is_byte o -> Z.land o 15 = o mod 16 /\ Z.shiftr o 4 = o / 16 /\ 0 <= o mod 16 < 16 /\ 0 <= o / 16 < 16.
Proof.
  intros H. unfold is_byte in H. change 15 with (Z.ones 4). rewrite Z.land_ones by lia.
  rewrite Z.shiftr_div_pow2 by lia. change (2 ^ 4) with 16. lia.
Qed.
Lemma digits_len p : len (digits_of p) <= 2 * len p.
Proof.
  induction p as [|o p IH]; [cbn; lia|]. rewrite digits_cons, !len_app, len_cons.
  destruct (no_filler (o mod 16)), (no_filler (o / 16)); unfold len in *; cbn [length]; lia.
Qed.

Lemma semi_sound src : Forall is_byte src -> forall dlen out ri o n,
  semi_decode_loop dlen src out ri = Ok (o, n) -> n = ri + len src -> o = out ++ digits_of src.
Proof.
  induction 1 as [|b src Hb Hs IH]; intros dlen out ri o n H N; cbn [semi_decode_loop] in H.
  - assert (Ok (out, ri) = Ok (o, n)) as X by (destruct (negb _); exact H). apply ok_pair in X as (<- & _). now rewrite app_nil_r.
  - rewrite len_cons in N. pose proof (len_nonneg src). destruct (negb (len out <? dlen)).
    { apply ok_pair in H as (_ & X). lia. }
    destruct (nibble_div b Hb) as (E1 & E2 & R1 & R2). rewrite E1, E2 in H.
    destruct (digit_any _ R1) as (D1 & F1), (digit_any _ R2) as (D2 & F2). rewrite D1, D2 in H. cbn [bind] in H.
    rewrite digits_cons.
    destruct (no_filler (b mod 16)).
    + rewrite F1 in H by reflexivity. cbn [negb] in H. set (d1 := nth (Z.to_nat (b mod 16)) semi_alphabet 0) in *.
      destruct (no_filler (b / 16)).
      * rewrite F2 in H by reflexivity. cbn [negb] in H. rewrite andb_true_r in H. set (d2 := nth (Z.to_nat (b / 16)) semi_alphabet 0) in *.
        destruct (len (out ++ [d1]) =? dlen); [discriminate|].
        destruct (len (out ++ [d1]) <? dlen); [|discriminate]. apply IH in H; [|lia]. rewrite H. now rewrite <- !app_assoc.
      * change (fillF =? fillF) with true in H. cbn [negb] in H. rewrite andb_false_r in H. apply IH in H; [|lia]. rewrite H. now rewrite <- !app_assoc.
    + change (fillF =? fillF) with true in H. cbn [negb] in H.
      destruct (no_filler (b / 16)).
      * rewrite F2 in H by reflexivity. cbn [negb] in H. rewrite andb_true_r in H. set (d2 := nth (Z.to_nat (b / 16)) semi_alphabet 0) in *.
        destruct (len out =? dlen); [discriminate|].
        destruct (len out <? dlen); [|discriminate]. apply IH in H; [|lia]. rewrite H. now rewrite <- !app_assoc.
      * change (fillF =? fillF) with true in H. cbn [negb] in H. rewrite andb_false_r in H. apply IH in H; [|lia]. rewrite H. reflexivity.
Qed.
Lemma semi_complete src : Forall is_byte src -> forall dlen out ri,
  len out + len (digits_of src) = dlen -> 2 * len src - 1 <= len (digits_of src) ->
  semi_decode_loop dlen src out ri = Ok (out ++ digits_of src, ri + len src).
Proof.
  induction 1 as [|b src Hb Hs IH]; intros dlen out ri HD HN; cbn [semi_decode_loop].
  - change (len (@nil Z)) with 0. rewrite app_nil_r, Z.add_0_r. now destruct (negb _).
  - rewrite digits_cons, !len_app, len_cons in *. pose proof (digits_len src) as L.
    destruct (nibble_div b Hb) as (E1 & E2 & R1 & R2). rewrite E1, E2.
    destruct (digit_any _ R1) as (D1 & F1), (digit_any _ R2) as (D2 & F2). rewrite D1, D2. cbn [bind].
    pose proof (len_nonneg (digits_of src)).
    assert (S1 : forall d : Z, len [d] = 1) by reflexivity. assert (S0 : len (@nil Z) = 0) by reflexivity.
    destruct (no_filler (b mod 16)).
    + rewrite F1 by reflexivity. cbn [negb]. set (d1 := nth (Z.to_nat (b mod 16)) semi_alphabet 0) in *.
      destruct (no_filler (b / 16)); rewrite ?S1, ?S0 in HD, HN; replace (len out <? dlen) with true by lia; cbn [negb].
      * rewrite F2 by reflexivity. cbn [negb]. set (d2 := nth (Z.to_nat (b / 16)) semi_alphabet 0) in *.
        rewrite andb_true_r, len_app, S1. replace (len out + 1 =? dlen) with false by lia. replace (len out + 1 <? dlen) with true by lia.
        rewrite IH; [|rewrite !len_app, !S1; lia|lia]. f_equal. f_equal; [now rewrite <- !app_assoc|lia].
      * change (fillF =? fillF) with true. cbn [negb]. rewrite andb_false_r.
        rewrite IH; [|rewrite !len_app, !S1; lia|lia]. f_equal. f_equal; [now rewrite <- !app_assoc|lia].
    + change (fillF =? fillF) with true. cbn [negb].
      destruct (no_filler (b / 16)); rewrite ?S1, ?S0 in HD, HN; [|exfalso; lia]. replace (len out <? dlen) with true by lia. cbn [negb].
      rewrite F2 by reflexivity. cbn [negb]. set (d2 := nth (Z.to_nat (b / 16)) semi_alphabet 0) in *.
      replace (len out =? dlen) with false by lia. cbn [andb].
      rewrite IH; [|rewrite !len_app, !S1; lia|lia]. f_equal. f_equal; [now rewrite <- !app_assoc|lia].
Qed.

(** ** Text in an address *)
Lemma default_listed g r : assoc default_decoder g = Some r <-> listed default_alphabet g r.
Proof. exact (latin_any 0 default_alphabet eq_refl g r). Qed.
Lemma assoc_nil g : @assoc [] g = None.
Proof. reflexivity. Qed.
Lemma plain_text_sound us : gsm7_fault (assoc default_decoder) (assoc []) us = None ->
  plain_text us (gsm7_chars (assoc default_decoder) (assoc []) us).
Proof.
  induction us as [|g us IH1 IH2] using list_pair_ind; intros H; [constructor|].
  cbn [gsm7_fault gsm7_chars] in *. destruct (g =? 27) eqn:E.
  - assert (g = 27) by lia. subst g. destruct us as [|x us]; [constructor|].
    destruct (x =? 27) eqn:E2.
    + assert (x = 27) by lia. subst x. constructor. now apply IH2.
    + rewrite assoc_nil in H. discriminate.
  - destruct (assoc default_decoder g) as [r|] eqn:A; [|discriminate]. cbn [or_space]. constructor; [lia|now apply default_listed|now apply IH1].
Qed.
Lemma plain_text_complete us rs : plain_text us rs ->
  gsm7_fault (assoc default_decoder) (assoc []) us = None /\ gsm7_chars (assoc default_decoder) (assoc []) us = rs.
Proof.
  induction 1 as [| |us rs P (A & B)|g r us rs N L P (A & B)]; [now split|now split| |].
  - cbn [gsm7_fault gsm7_chars]. change (27 =? 27) with true. cbv iota. rewrite A, B. now split.
  - apply default_listed in L. cbn [gsm7_fault gsm7_chars]. replace (g =? 27) with false by lia. rewrite L. cbn [or_space]. rewrite A, B. now split.
Qed.
Lemma text_iff us s : gsm7_decode addr_gsm7_decoder us = Ok s <-> exists rs, plain_text us rs /\ utf8_text rs s.
Proof.
  rewrite gsm7_decode_strict by reflexivity. cbn [gd_set gd_ext addr_gsm7_decoder]. split.
  - destruct (gsm7_fault _ _ us) eqn:F; [discriminate|]. intros X. apply ok_inj in X. subst s.
    eexists. split; [apply plain_text_sound, F|]. apply utf8_text_utf8_of, gsm7_chars_scalar; [exact (tk_scalar _ _ addr_set_ok)|].
    intros g r. rewrite assoc_nil. discriminate.
  - intros (rs & P & U). apply plain_text_complete in P as (-> & ->). f_equal. symmetry. now apply utf8_text_fun.
Qed.

Lemma ton_div toa : is_byte toa -> toa_ton toa = toa / 16 mod 8.
Proof.
  intros H. unfold toa_ton. change 7 with (Z.ones 3). rewrite Z.land_ones, Z.shiftr_div_pow2 by lia. reflexivity.
Qed.

(** ** Addresses *)
Lemma address_text_septets l p : 0 <= l -> Forall is_byte p -> len p = (l + 1) / 2 ->
  (if l <? (len (unpack7bit p 0) * 7 + 3) / 4 then slice (unpack7bit p 0) 0 (len (unpack7bit p 0) - 1) else Ok (unpack7bit p 0))
  = Ok (septets_of l p).
Proof.
  intros H0 HB HL. destruct (unpack7bit_spec p 0 HB ltac:(lia)) as (E & _). cbn [Z.to_nat skipn] in E.
  unfold septets_of. rewrite <- E. clear E.
  assert (LU : len (unpack7bit p 0) = 8 * len p / 7).
  { destruct p as [|o p]; [reflexivity|]. rewrite (unpack7bit_len (o :: p) 0 HB ltac:(lia) ltac:(discriminate)). f_equal; lia. }
  set (u := unpack7bit p 0) in *. rewrite HL in LU. pose proof (len_nonneg u).
  destruct (l <? (len u * 7 + 3) / 4) eqn:C.
  - rewrite slice_ok by lia. f_equal. cbn [Z.to_nat skipn]. f_equal. lia.
  - f_equal. symmetry. apply firstn_all2. unfold len in *. lia.
Qed.

Lemma address_iff b a n : Forall is_byte b ->
  (addr_unmarshal b = Ok (a, n) <-> exists q r, b = q ++ r /\ address_octets a q /\ n = len q).
Proof.
  intros HB. split.
  - intros H. pose proof (addr_unmarshal_inv _ _ _ HB H) as (L & _).
    exists (firstn (Z.to_nat n) b), (skipn (Z.to_nat n) b). split; [symmetry; apply firstn_skipn|].
    assert (LQ : len (firstn (Z.to_nat n) b) = n) by (unfold len in *; rewrite firstn_length; lia).
    split; [|lia]. rewrite <- (firstn_skipn (Z.to_nat n) b) in HB, H. rewrite <- LQ in H at 3.
    apply addr_unmarshal_trunc in H; [|exact HB]. apply Forall_app in HB as (HB & _). rewrite LQ in H.
    set (q := firstn (Z.to_nat n) b) in *. clearbody q. clear b L.
    unfold addr_unmarshal in H. destruct (len q <? 2) eqn:E2; [discriminate|].
    destruct q as [|l [|toa p]]; try (exfalso; unfold len in E2; cbn in E2; lia).
    change (idx (l :: toa :: p) 0) with (Ok l) in H. change (idx (l :: toa :: p) 1) with (Ok toa) in H. cbn [bind] in H.
    rewrite !Forall_cons_iff in HB. destruct HB as (Bl & Bt & Bp). rewrite !len_cons in *.
    rewrite (ton_div toa Bt) in H. unfold is_byte in Bl.
    destruct (1 + (1 + len p) <? 2 + (l + 1) / 2) eqn:E3; [discriminate|].
    apply bind_ok in H as (body & Eb & H). unfold TonAlphanumeric in H.
    assert (LP : len p = (l + 1) / 2).
    { destruct (toa / 16 mod 8 =? 5).
      - apply bind_ok in H as (u & _ & H). apply bind_ok in H as (s & _ & H). apply ok_pair in H as (_ & H). lia.
      - apply bind_ok in H as ([s m] & _ & H). destruct (negb (m =? (l + 1) / 2) || (len s <? l)) eqn:C; [discriminate|].
        apply ok_pair in H as (_ & H). lia. }
    assert (body = p) as ->.
    { apply slice_inv in Eb as (_ & _ & ->). change (Z.to_nat 2) with 2%nat. cbn [skipn]. apply firstn_all2. unfold len in *. lia. }
    clear Eb. destruct (toa / 16 mod 8 =? 5) eqn:ET.
    + apply bind_ok in H as (u & Eu & H). rewrite (address_text_septets l p ltac:(lia) Bp LP) in Eu. apply ok_inj in Eu. subst u.
      apply bind_ok in H as (s & Es & H). apply on_err_ok in Es. apply text_iff in Es as (rs & P & U). apply ok_pair in H as (<- & _).
      eapply ao_text; eauto. lia.
    + apply bind_ok in H as ([s m] & Es & H). apply on_err_ok in Es.
      destruct (negb (m =? (l + 1) / 2) || (len s <? l)) eqn:C; [discriminate|]. apply ok_pair in H as (<- & _).
      destruct (semi_decode_safe l p ltac:(lia) Bp) as [(o & n' & E' & Lo & _ & _)|E']; [|congruence].
      rewrite Es in E'. apply ok_pair in E' as (<- & <-). unfold semi_decode in Es.
      apply semi_sound in Es; [|exact Bp|lia]. cbn [app] in Es. subst s.
      apply ao_number; lia.
  - intros (q & r & -> & HA & ->). apply addr_unmarshal_local. apply Forall_app in HB as (HB & _).
    assert (A0 : forall l toa p, Forall is_byte (l :: toa :: p) -> len p = (l + 1) / 2 ->
      addr_unmarshal (l :: toa :: p) =
      if toa / 16 mod 8 =? 5 then
        bind (if l <? (len (unpack7bit p 0) * 7 + 3) / 4 then slice (unpack7bit p 0) 0 (len (unpack7bit p 0) - 1) else Ok (unpack7bit p 0))
          (fun u => bind (on_err (gsm7_decode addr_gsm7_decoder u) (new_decode_error "addr" 2)) (fun s => Ok ({| a_toa := toa; a_addr := s |}, 2 + (l + 1) / 2)))
      else bind (on_err (semi_decode l p) (new_decode_error "addr" 2)) (fun sn =>
        if negb (snd sn =? (l + 1) / 2) || (len (fst sn) <? l) then Err (new_decode_error "addr" 2 ErrUnderflow)
        else Ok ({| a_toa := toa; a_addr := fst sn |}, 2 + snd sn))).
    { clear. intros l toa p HB LP. unfold addr_unmarshal. rewrite !len_cons. pose proof (len_nonneg p).
      replace (1 + (1 + len p) <? 2) with false by lia.
      change (idx (l :: toa :: p) 0) with (Ok l). change (idx (l :: toa :: p) 1) with (Ok toa). cbn [bind].
      rewrite !Forall_cons_iff in HB. destruct HB as (Bl & Bt & Bp). rewrite (ton_div toa Bt).
      replace (1 + (1 + len p) <? 2 + (l + 1) / 2) with false by lia.
      rewrite slice_ok by (rewrite ?len_cons; lia). cbn [bind]. change (Z.to_nat 2) with 2%nat. cbn [skipn].
      replace (firstn (Z.to_nat (2 + (l + 1) / 2 - 2)) p) with p by (symmetry; apply firstn_all2; unfold len in *; lia).
      unfold TonAlphanumeric. destruct (toa / 16 mod 8 =? 5); [reflexivity|].
      destruct (on_err (semi_decode l p) _) as [[s m]|e| |]; reflexivity. }
    destruct HA as [l toa p ET LP LD|l toa p rs s ET LP P U]; rewrite (A0 l toa p HB LP); rewrite !len_cons;
      rewrite !Forall_cons_iff in HB; destruct HB as (Bl & Bt & Bp); unfold is_byte in Bl.
    + replace (toa / 16 mod 8 =? 5) with false by lia.
      unfold semi_decode. rewrite (semi_complete p Bp l [] 0); [|change (len (@nil Z)) with 0; lia|lia].
      cbn [on_err bind fst snd app]. replace (negb (0 + len p =? (l + 1) / 2) || (len (digits_of p) <? l)) with false by lia.
      f_equal. f_equal. lia.
    + replace (toa / 16 mod 8 =? 5) with true by lia. rewrite (address_text_septets l p ltac:(lia) Bp LP). cbn [bind].
      assert (gsm7_decode addr_gsm7_decoder (septets_of l p) = Ok s) as -> by (apply text_iff; eauto).
      cbn [on_err bind]. f_equal. f_equal. lia.
Qed.
(** ** Times *)
Lemma first_day y m first : 1 <= m <= 12 -> 0 <= y ->
  day_of first = (y, m, 1) <-> Z.of_nat first - 719528 = days_before_year y + days_before_month (is_leap y) m - unix_epoch_day.
Proof.
  intros Hm Hy. pose proof (civil_day first) as C. change unix_epoch_day with 719162. split.
  - intros E. destruct (civil_all (Z.of_nat first + -366)) as (_ & _ & D). rewrite C, E in D. cbn [day_number] in D. lia.
  - intros E. rewrite <- C. replace (Z.of_nat first + -366) with (day_number (y, m, 1)) by (cbn [day_number]; lia).
    apply civil_day_number. split; [lia|]. unfold month_len. destruct (m =? 2); [destruct (leap_year y); lia|]. destruct (_ || _); lia.
Qed.
Lemma time_iff b t : Forall is_byte b ->
  (ts_unmarshal b = Ok t <-> exists q r, b = q ++ r /\ time_octets t q).
Proof.
  intros HB.
  assert (YEAR : forall y mo, 0 <= y <= 99 -> 0 <= mo <= 99 -> 1 <= (mo - 1) mod 12 + 1 <= 12 /\
    0 <= (if y <? 70 then 2000 + y else 1900 + y) + (mo - 1) / 12).
  { intros y mo A B. destruct (y <? 70); lia. }
  assert (R : forall o n, two_digits o n -> 0 <= n <= 99) by (intros o n (x & y & ? & ? & ? & ?); lia).
  split.
  - intros H. pose proof (ts_unmarshal_len _ _ H) as L. unfold ts_unmarshal in H. bfalse (len b <? 7).
    destruct b as [|b0 [|b1 [|b2 [|b3 [|b4 [|b5 [|b6 rest]]]]]]]; try (exfalso; unfold len in L; cbn in L; lia).
    destruct (idx_seven b0 b1 b2 b3 b4 b5 b6 rest) as (I0 & I1 & I2 & I3 & I4 & I5 & I6). rewrite I0, I1, I2, I3, I4, I5, I6 in H. cbn [bind] in H.
    rewrite !Forall_cons_iff in HB. destruct HB as (H0 & H1 & H2 & H3 & H4 & H5 & H6 & _).
    apply bind_ok in H as (y & D0 & H). apply bind_ok in H as (mo & D1 & H). apply bind_ok in H as (d & D2 & H).
    apply bind_ok in H as (h & D3 & H). apply bind_ok in H as (mi & D4 & H). apply bind_ok in H as (s & D5 & H).
    apply bind_ok in H as (z & D6 & H). apply ok_inj in H. subst t.
    apply (two_digits_iff _ _ H0) in D0. apply (two_digits_iff _ _ H1) in D1. apply (two_digits_iff _ _ H2) in D2.
    apply (two_digits_iff _ _ H3) in D3. apply (two_digits_iff _ _ H4) in D4. apply (two_digits_iff _ _ H5) in D5.
    apply (signed_digits_iff _ _ H6) in D6.
    exists [b0; b1; b2; b3; b4; b5; b6], rest. split; [reflexivity|].
    destruct (YEAR y mo (R _ _ D0) (R _ _ D1)) as (Y1 & Y2).
    replace (if y <? 70 then y + 2000 else y + 1900) with (if y <? 70 then 2000 + y else 1900 + y) by (destruct (y <? 70); lia).
    set (year := if y <? 70 then 2000 + y else 1900 + y) in *. set (y' := year + (mo - 1) / 12) in *. set (m' := (mo - 1) mod 12 + 1) in *.
    pose proof (day_from_zero y' m' 1 Y1 ltac:(lia) Y2) as DZ. cbn [day_number] in DZ.
    set (first := Z.to_nat (days_before_year y' + days_before_month (is_leap y') m' + (1 - 1) + 366)).
    assert (EF : Z.of_nat first = days_before_year y' + days_before_month (is_leap y') m' + 366) by (subst first; lia).
    replace (go_date year mo d h mi s (z * 15 * 60)) with
      {| t_unix := 86400 * (Z.of_nat first - 719528 + d - 1) + 3600 * h + 60 * mi + s - 15 * 60 * z; t_nsec := 0; t_off := 15 * 60 * z |}.
    2:{ unfold go_date. fold y' m'. rewrite EF. change unix_epoch_day with 719162. f_equal; lia. }
    eapply to_time with (y := y) (mo := mo) (year := year); try eassumption; try reflexivity.
    fold y' m'. apply first_day; [exact Y1|exact Y2|]. rewrite EF. change unix_epoch_day with 719162. lia.
  - intros (q & r & -> & HT). apply ts_unmarshal_local. apply Forall_app in HB as (HB & _).
    destruct HT as [b0 b1 b2 b3 b4 b5 b6 y mo d h mi s z year first off D0 D1 D2 D3 D4 D5 D6 EY EF EO].
    rewrite !Forall_cons_iff in HB. destruct HB as (H0 & H1 & H2 & H3 & H4 & H5 & H6 & _).
    destruct (YEAR y mo (R _ _ D0) (R _ _ D1)) as (Y1 & Y2). rewrite <- EY in Y2.
    apply (two_digits_iff _ _ H0) in D0. apply (two_digits_iff _ _ H1) in D1. apply (two_digits_iff _ _ H2) in D2.
    apply (two_digits_iff _ _ H3) in D3. apply (two_digits_iff _ _ H4) in D4. apply (two_digits_iff _ _ H5) in D5.
    apply (signed_digits_iff _ _ H6) in D6.
    apply first_day in EF; [|assumption|assumption].
    unfold ts_unmarshal. change (len [b0; b1; b2; b3; b4; b5; b6] <? 7) with false. cbv iota.
    destruct (idx_seven b0 b1 b2 b3 b4 b5 b6 []) as (I0 & I1 & I2 & I3 & I4 & I5 & I6). rewrite I0, I1, I2, I3, I4, I5, I6. cbn [bind].
    rewrite D0, D1, D2, D3, D4, D5, D6. cbn [bind]. cbv zeta.
    replace (if y <? 70 then y + 2000 else y + 1900) with year by (rewrite EY; destruct (y <? 70); lia).
    f_equal. unfold go_date. f_equal; lia.
Qed.
Lemma time_octets_len t q : time_octets t q -> len q = 7.
Proof. now intros []. Qed.

(** ** Validity periods *)
Lemma period_iff b v n f : Forall is_byte b -> 0 <= f < 4 ->
  (vp_unmarshal vp_zero b f = Ok (v, n) <-> exists q r, b = q ++ r /\ period_octets f v q /\ n = len q).
Proof.
  intros HB HF. unfold vp_unmarshal, VpfAbsolute, VpfEnhanced, VpfRelative, VpfNotPresent.
  assert (f = 0 \/ f = 1 \/ f = 2 \/ f = 3) as [-> |[-> |[-> | ->]]] by lia; cbn [Z.eqb Pos.eqb]; cbv iota.
  - split.
    + intros H. apply ok_pair in H as (<- & <-). exists [], b. split; [reflexivity|]. split; [constructor|reflexivity].
    + intros (q & r & -> & HP & ->). inversion HP; subst. reflexivity.
  - split.
    + intros H. apply bind_ok in H as ([efi d] & E & H). apply ok_pair in H as (<- & <-).
      unfold vp_unmarshal_enhanced in E. destruct (len b <? 7) eqn:L; [discriminate|].
      destruct b as [|b0 [|b1 [|b2 [|b3 [|b4 [|b5 [|b6 rest]]]]]]]; try (exfalso; unfold len in L; cbn in L; lia).
      destruct (idx_seven b0 b1 b2 b3 b4 b5 b6 rest) as (I0 & I1 & I2 & I3 & I4 & I5 & I6).
      exists [b0; b1; b2; b3; b4; b5; b6], rest. split; [reflexivity|]. split; [|reflexivity].
      rewrite !Forall_cons_iff in HB. destruct HB as (H0 & H1 & H2 & H3 & H4 & H5 & H6 & _).
      cbv zeta in E. rewrite I0, I1, I2, I3 in E. cbn [bind] in E. rewrite land7 in E.
      unfold EvpfRelativeHHMMSS, EvpfRelative, EvpfRelativeSeconds, EvpfNotPresent in E.
      destruct (b0 mod 8 =? 0) eqn:F0.
      { cbn [bind] in E. change (Z.to_nat (6 - 0)) with 6%nat in E. cbn [check_fill Z.add Pos.add Pos.succ] in E.
        rewrite I1, I2, I3, I4, I5, I6 in E. cbn [bind] in E.
        destruct (b1 =? 0) eqn:Z1; [|discriminate]. destruct (b2 =? 0) eqn:Z2; [|discriminate]. destruct (b3 =? 0) eqn:Z3; [|discriminate].
        destruct (b4 =? 0) eqn:Z4; [|discriminate]. destruct (b5 =? 0) eqn:Z5; [|discriminate]. destruct (b6 =? 0) eqn:Z6; [|discriminate].
        cbn [negb bind] in E. apply ok_pair in E as (<- & <-).
        replace b1 with 0 by lia. replace b2 with 0 by lia. replace b3 with 0 by lia. replace b4 with 0 by lia. replace b5 with 0 by lia. replace b6 with 0 by lia.
        apply po_enh_none. lia. }
      destruct (b0 mod 8 =? 1) eqn:F1.
      { cbn [bind] in E. change (Z.to_nat (6 - 1)) with 5%nat in E. cbn [check_fill Z.add Pos.add Pos.succ] in E.
        rewrite I2, I3, I4, I5, I6 in E. cbn [bind] in E.
        destruct (b2 =? 0) eqn:Z2; [|discriminate]. destruct (b3 =? 0) eqn:Z3; [|discriminate].
        destruct (b4 =? 0) eqn:Z4; [|discriminate]. destruct (b5 =? 0) eqn:Z5; [|discriminate]. destruct (b6 =? 0) eqn:Z6; [|discriminate].
        cbn [negb bind] in E. apply ok_pair in E as (<- & <-).
        replace b2 with 0 by lia. replace b3 with 0 by lia. replace b4 with 0 by lia. replace b5 with 0 by lia. replace b6 with 0 by lia.
        apply po_enh_relative; [lia|]. apply relative_to_duration_spec. unfold is_byte in H1. lia. }
      destruct (b0 mod 8 =? 2) eqn:F2.
      { cbn [bind] in E. change (Z.to_nat (6 - 1)) with 5%nat in E. cbn [check_fill Z.add Pos.add Pos.succ] in E.
        rewrite I2, I3, I4, I5, I6 in E. cbn [bind] in E.
        destruct (b2 =? 0) eqn:Z2; [|discriminate]. destruct (b3 =? 0) eqn:Z3; [|discriminate].
        destruct (b4 =? 0) eqn:Z4; [|discriminate]. destruct (b5 =? 0) eqn:Z5; [|discriminate]. destruct (b6 =? 0) eqn:Z6; [|discriminate].
        cbn [negb bind] in E. apply ok_pair in E as (<- & <-).
        replace b2 with 0 by lia. replace b3 with 0 by lia. replace b4 with 0 by lia. replace b5 with 0 by lia. replace b6 with 0 by lia.
        replace (ns_second * b1) with (seconds b1) by (unfold seconds, ns_second; lia). apply po_enh_seconds. lia. }
      destruct (b0 mod 8 =? 3) eqn:F3; [|discriminate].
      apply bind_ok in E as ([d1 used] & E1 & E). apply bind_ok in E1 as (h & D1 & E1). apply on_err_ok in D1.
      apply bind_ok in E1 as (m & D2 & E1). apply on_err_ok in D2. apply bind_ok in E1 as (s & D3 & E1). apply on_err_ok in D3.
      apply ok_pair in E1 as (E1 & <-).
      change (Z.to_nat (6 - 3)) with 3%nat in E. cbn [check_fill Z.add Pos.add Pos.succ] in E. rewrite I4, I5, I6 in E. cbn [bind] in E.
      destruct (b4 =? 0) eqn:Z4; [|discriminate]. destruct (b5 =? 0) eqn:Z5; [|discriminate]. destruct (b6 =? 0) eqn:Z6; [|discriminate].
      cbn [negb bind] in E. apply ok_pair in E as (<- & <-).
      replace b4 with 0 by lia. replace b5 with 0 by lia. replace b6 with 0 by lia.
      apply (two_digits_iff _ _ H1) in D1. apply (two_digits_iff _ _ H2) in D2. apply (two_digits_iff _ _ H3) in D3.
      replace d1 with (seconds (3600 * h + 60 * m + s)) by (rewrite <- E1; unfold seconds, ns_hour, ns_minute, ns_second; lia).
      apply po_enh_hms; try assumption. lia.
    + intros (q & r & -> & HP & ->). apply Forall_app in HB as (HB & _).
      assert (G : forall q efi d, v = vp_enhanced d efi -> len q = 7 -> vp_unmarshal_enhanced q = Ok (efi, d) ->
        bind (vp_unmarshal_enhanced (q ++ r)) (fun x => let '(efi, d) := x in
          Ok ({| vp_format := 1; vp_time := vp_time vp_zero; vp_duration := d; vp_efi := efi |}, 7)) = Ok (v, len q)).
      { intros q0 efi d -> L E. 
        pose proof (vp_unmarshal_local vp_zero q0 1 r) as VL. unfold vp_unmarshal in VL at 1.
        unfold VpfAbsolute, VpfEnhanced, VpfRelative, VpfNotPresent in VL. cbn [Z.eqb Pos.eqb] in VL. rewrite E in VL. cbn [bind] in VL.
        specialize (VL _ eq_refl). unfold vp_unmarshal in VL. unfold VpfAbsolute, VpfEnhanced, VpfRelative, VpfNotPresent in VL. cbn [Z.eqb Pos.eqb] in VL.
        rewrite VL, L. reflexivity. }
      inversion HP; subst.
      * apply G with (efi := efi) (d := 0); [reflexivity|reflexivity|].
        unfold vp_unmarshal_enhanced. change (len [efi; 0; 0; 0; 0; 0; 0] <? 7) with false. cbv iota.
        change (idx [efi; 0; 0; 0; 0; 0; 0] 0) with (Ok efi). cbn [bind]. rewrite land7. cbv zeta. rewrite H. reflexivity.
      * apply G with (efi := efi) (d := d); [reflexivity|reflexivity|]. apply relative_vp_fun in H0 as (_ & ->).
        unfold vp_unmarshal_enhanced. change (len [efi; o; 0; 0; 0; 0; 0] <? 7) with false. cbv iota.
        change (idx [efi; o; 0; 0; 0; 0; 0] 0) with (Ok efi). cbn [bind]. rewrite land7. cbv zeta. rewrite H. reflexivity.
      * apply G with (efi := efi) (d := seconds n); [reflexivity|reflexivity|].
        unfold vp_unmarshal_enhanced. change (len [efi; n; 0; 0; 0; 0; 0] <? 7) with false. cbv iota.
        change (idx [efi; n; 0; 0; 0; 0; 0] 0) with (Ok efi). cbn [bind]. rewrite land7. cbv zeta. rewrite H.
        unfold EvpfRelativeHHMMSS, EvpfRelative, EvpfRelativeSeconds, EvpfNotPresent. cbn [Z.eqb Pos.eqb].
        change (idx [efi; n; 0; 0; 0; 0; 0] 1) with (Ok n). cbn [bind]. replace (ns_second * n) with (seconds n) by (unfold seconds, ns_second; lia). reflexivity.
      * rewrite !Forall_cons_iff in HB. destruct HB as (B0 & B1 & B2 & B3 & _).
        apply G with (efi := efi) (d := seconds (3600 * h + 60 * m + s)); [reflexivity|reflexivity|].
        apply (two_digits_iff _ _ B1) in H0. apply (two_digits_iff _ _ B2) in H1. apply (two_digits_iff _ _ B3) in H2.
        unfold vp_unmarshal_enhanced. change (len [efi; oh; om; os; 0; 0; 0] <? 7) with false. cbv iota.
        change (idx [efi; oh; om; os; 0; 0; 0] 0) with (Ok efi). cbn [bind]. rewrite land7. cbv zeta. rewrite H.
        unfold EvpfRelativeHHMMSS, EvpfRelative, EvpfRelativeSeconds, EvpfNotPresent. cbn [Z.eqb Pos.eqb].
        change (idx [efi; oh; om; os; 0; 0; 0] 1) with (Ok oh). change (idx [efi; oh; om; os; 0; 0; 0] 2) with (Ok om).
        change (idx [efi; oh; om; os; 0; 0; 0] 3) with (Ok os). cbn [bind]. rewrite H0. cbn [on_err bind]. rewrite H1. cbn [on_err bind]. rewrite H2. cbn [on_err bind].
        replace (h * ns_hour + m * ns_minute + s * ns_second) with (seconds (3600 * h + 60 * m + s)) by (unfold seconds, ns_hour, ns_minute, ns_second; lia).
        reflexivity.
  - split.
    + destruct b as [|o b]; [discriminate|]. rewrite len_cons. pose proof (len_nonneg b). replace (1 + len b <? 1) with false by lia.
      change (idx (o :: b) 0) with (Ok o). cbn [bind]. intros H1. apply ok_pair in H1 as (<- & <-).
      exists [o], b. split; [reflexivity|]. split; [|reflexivity]. apply Forall_inv in HB. unfold is_byte in HB.
      apply (po_relative o (relative_to_duration o)). apply relative_to_duration_spec. lia.
    + intros (q & r & -> & HP & ->). inversion HP; subst. cbn [app]. rewrite len_cons. pose proof (len_nonneg r). replace (1 + len r <? 1) with false by lia.
      change (idx (o :: r) 0) with (Ok o). cbn [bind]. apply relative_vp_fun in H as (_ & ->). reflexivity.
  - split.
    + intros H. apply bind_ok in H as (t & E & H). apply ok_pair in H as (<- & <-). apply time_iff in E as (q & r & -> & E); [|exact HB].
      exists q, r. split; [reflexivity|]. split; [now apply po_absolute|]. symmetry. now apply time_octets_len in E.
    + intros (q & r & -> & HP & ->). inversion HP; subst. rewrite (proj2 (time_iff (q ++ r) t HB)) by eauto.
      cbn [bind]. apply time_octets_len in H. rewrite H. reflexivity.
Qed.

(** ** Headers *)
Lemma udh_loop_over l : forall fuel pre rest lim, (length l <= fuel)%nat ->
  match l with [] => lim = len pre | _ => len pre + len (elements (removelast l)) + 2 <= lim <= len pre + len (elements l) end ->
  udh_loop fuel (pre ++ elements l ++ rest) lim (len pre) = Ok l.
Proof.
  induction l as [|i l IH]; intros fuel pre rest lim Hf HL.
  - subst lim. destruct fuel; cbn [udh_loop]; replace (len pre <? len pre) with false by lia; reflexivity.
  - destruct fuel as [|fuel]; [cbn [length] in Hf; lia|]. cbn [length] in Hf.
    pose proof (len_nonneg (elements l)). pose proof (len_nonneg (ie_data i)).
    pose proof (len_nonneg pre). pose proof (len_nonneg rest). pose proof (len_nonneg (elements (removelast (i :: l)))).
    assert (LE : len (elements (i :: l)) = 2 + len (ie_data i) + len (elements l)) by (cbn [elements]; rewrite !len_cons, len_app; lia).
    cbn [udh_loop]. replace (len pre <? lim) with true by lia. cbn [negb].
    replace (lim <? len pre + 2) with false by lia.
    cbn [elements app].
    replace (pre ++ ie_id i :: len (ie_data i) :: (ie_data i ++ elements l) ++ rest)
      with ((pre ++ [ie_id i; len (ie_data i)]) ++ (ie_data i ++ elements l ++ rest)) by now rewrite <- !app_assoc.
    set (pre2 := pre ++ [ie_id i; len (ie_data i)]).
    assert (L2 : len pre2 = len pre + 2) by (unfold pre2; rewrite len_app; reflexivity).
    assert (I1 : idx (pre2 ++ ie_data i ++ elements l ++ rest) (len pre) = Ok (ie_id i)).
    { unfold pre2. rewrite <- app_assoc. rewrite idx_app_r by lia. now rewrite Z.sub_diag. }
    assert (I2 : idx (pre2 ++ ie_data i ++ elements l ++ rest) (len pre + 1) = Ok (len (ie_data i))).
    { unfold pre2. rewrite <- app_assoc. rewrite idx_app_r by lia. now replace (len pre + 1 - len pre) with 1 by lia. }
    rewrite I1. cbn [bind]. rewrite I2. cbn [bind]. replace (len pre + 1 + 1) with (len pre2) by lia.
    rewrite !len_app. replace (len pre2 + (len (ie_data i) + (len (elements l) + len rest)) <? len pre2 + len (ie_data i)) with false by lia.
    rewrite slice_ok by (rewrite ?len_app; lia). cbn [bind].
    replace (skipn (Z.to_nat (len pre2)) (pre2 ++ ie_data i ++ elements l ++ rest)) with (ie_data i ++ elements l ++ rest)
      by (unfold len; rewrite Nat2Z.id, skipn_app, skipn_all, Nat.sub_diag; reflexivity).
    replace (len pre2 + len (ie_data i) - len pre2) with (len (ie_data i)) by lia.
    replace (firstn (Z.to_nat (len (ie_data i))) (ie_data i ++ elements l ++ rest)) with (ie_data i)
      by (unfold len; rewrite Nat2Z.id, firstn_app, firstn_all, Nat.sub_diag; cbn [firstn]; now rewrite app_nil_r).
    replace (pre2 ++ ie_data i ++ elements l ++ rest) with ((pre2 ++ ie_data i) ++ elements l ++ rest) by now rewrite <- !app_assoc.
    replace (len pre2 + len (ie_data i)) with (len (pre2 ++ ie_data i)) by now rewrite len_app.
    destruct l as [|j l].
    { cbn [elements] in LE, HL. change (len (@nil Z)) with 0 in *. cbn [elements app].
      assert (udh_loop fuel ((pre2 ++ ie_data i) ++ rest) lim (len (pre2 ++ ie_data i)) = Ok []) as ->.
      { destruct fuel; cbn [udh_loop]; rewrite len_app; replace (len pre2 + len (ie_data i) <? lim) with false by (rewrite L2; lia); reflexivity. }
      cbn [bind]. now destruct i. }
    rewrite IH; [cbn [bind]; now destruct i|lia|].
    change (removelast (i :: j :: l)) with (i :: removelast (j :: l)) in HL. cbn [elements] in HL. rewrite ?len_cons, ?len_app, ?len_cons, ?len_app in HL.
    rewrite len_app, L2. cbn [elements]. rewrite ?len_cons, ?len_app. lia.
Qed.
Lemma header_iff b h n : Forall is_byte b -> (udh_unmarshal b = Ok (h, n) <-> header_at b h n).
Proof.
  intros HB. split.
  - intros H. destruct (udh_accepted _ _ _ HB H) as (L & (tail & E) & _ & G & M). exists tail.
    split; [destruct h; exact E|]. split; [exact L|]. destruct h as [l|]; [|exact M]. destruct M. cbn [ies] in G. lia || tauto.
  - intros (rest & -> & L & M). unfold udh_unmarshal. rewrite len_cons in *.
    set (l := match h with Some l => l | None => [] end) in *.
    pose proof (len_nonneg (elements l ++ rest)).
    replace (1 + len (elements l ++ rest) <? 1) with false by lia.
    change (idx (n - 1 :: elements l ++ rest) 0) with (Ok (n - 1)). cbn [bind].
    replace (n - 1 + 1) with n by lia. replace (1 + len (elements l ++ rest) <? n) with false by lia.
    pose proof (udh_loop_over l (length (n - 1 :: elements l ++ rest)) [n - 1] rest n) as U.
    change (len [n - 1]) with 1 in U. cbn [app] in U. rewrite U.
    + cbn [bind]. destruct h as [l0|]; subst l; [destruct l0; [tauto|reflexivity]|reflexivity].
    + cbn [length]. rewrite app_length. pose proof (elements_length l). lia.
    + destruct h as [l0|]; subst l; [destruct M as (M1 & M2); destruct l0; [congruence|lia]|]. exact M.
Qed.

(** ** User data *)
Lemma septets_iff l n m u : Forall is_byte m -> m <> [] -> 0 <= n -> decode_7bit l n m = Ok u <-> septets_behind n l m u.
Proof.
  intros HB NE N. unfold decode_7bit, septets_behind. cbv zeta.
  destruct (fill_bits_spec n N) as (F1 & F2). unfold cdiv in F1.
  set (taken := (8 * n + 6) / 7).
  assert (FB : (if 0 <? n then fill_bits n else 0) = 7 * taken - 8 * n /\ (if 0 <? n then l - (n * 8 + (if 0 <? n then fill_bits n else 0)) / 7 else l) = l - taken).
  { destruct (0 <? n) eqn:E; [split; lia|]. assert (n = 0) by lia. subst n. subst taken. cbn. lia. }
  destruct FB as (FB & FC). rewrite FC, FB.
  assert (R : 0 <= 7 * taken - 8 * n <= 6) by (subst taken; lia).
  destruct (unpack7bit_spec m _ HB R) as (E & _). rewrite E. set (all := cut7 _) in *. clearbody all. clear E.
  set (c := l - taken). clearbody c. pose proof (len_nonneg all) as LN. split.
  - destruct (len all <? c) eqn:C1; [discriminate|]. destruct (c <? len all) eqn:C2.
    + destruct (c + 1 <? len all) eqn:C3; [discriminate|]. intros H. apply bind_ok in H as (x & Hx & H). destruct (x =? 0) eqn:X; [|discriminate].
      cbn [negb] in H. apply slice_inv in H as (_ & _ & ->). rewrite Z.sub_0_r. cbn [Z.to_nat skipn].
      pose proof (idx_range _ _ _ Hx). split; [unfold len in *; rewrite firstn_length; lia|right].
      pose proof (skipn_cons_idx _ _ _ Hx) as S. rewrite <- (firstn_skipn (Z.to_nat c) all) at 1. rewrite S. f_equal.
      replace x with 0 by lia. f_equal. apply skipn_all2. unfold len in *. lia.
    + intros H. apply ok_inj in H. subst u. split; [lia|now left].
  - intros (L & [-> | ->]).
    + replace (len u <? c) with false by lia. replace (c <? len u) with false by lia. reflexivity.
    + rewrite len_app. change (len [0]) with 1. replace (len u + 1 <? c) with false by lia. replace (c <? len u + 1) with true by lia.
      replace (c + 1 <? len u + 1) with false by lia. rewrite idx_app_r by lia. replace (c - len u) with 0 by lia. cbn [bind idx_0].
      change (idx [0] 0) with (Ok 0). cbn [bind Z.eqb negb]. pose proof (len_nonneg u). rewrite slice_ok by (rewrite ?len_app; change (len [0]) with 1; lia).
      rewrite Z.sub_0_r. cbn [Z.to_nat skipn]. f_equal. rewrite <- L. unfold len. rewrite Nat2Z.id, firstn_app, firstn_all, Nat.sub_diag. cbn [firstn]. now rewrite app_nil_r.
Qed.
Lemma udhi_bit f : fo_udhi f = Z.testbit f 6.
Proof. unfold fo_udhi. apply (bit_test f 6 FoUDHI); [lia|reflexivity]. Qed.
Lemma user_data_iff t b t' : Forall is_byte b -> is_byte (DCS t) -> UDH t = None -> UD t = [] ->
  (decode_ud t b = Ok t' <-> exists h u, user_data_octets (Z.testbit (FO t) 6) (DCS t) h u b /\ t' = set_UDHf (set_UDf t u) h).
Proof.
  intros HB HD EH EU. rewrite <- udhi_bit. unfold decode_ud.
  assert (SAME : set_UDHf (set_UDf t []) None = t) by (revert EH EU; dtpdu t; cbn; now intros -> ->).
  assert (SAMEU : forall h, set_UDHf (set_UDf t []) h = set_UDHf t h) by (intros h; revert EU; dtpdu t; cbn; now intros ->).
  destruct b as [|l b].
  { split; [discriminate|]. intros (h & u & H & _). inversion H. }
  rewrite len_cons. pose proof (len_nonneg b). replace (1 + len b <? 1) with false by lia.
  change (idx (l :: b) 0) with (Ok l). cbn [bind].
  apply Forall_cons_iff in HB as (Bl & HB).
  destruct (l =? 0) eqn:E0.
  { assert (l = 0) by lia. subst l. split.
    - intros H1. apply ok_inj in H1. subst t'. exists None, []. split; [constructor|now rewrite SAME].
    - intros (h & u & H1 & ->). inversion H1; subst; [now rewrite SAME|lia]. }
  unfold tpdu_alphabet. rewrite (alphabet_meaning _ HD). unfold Alpha7Bit, AlphaUCS2.
  destruct (alphabet_of (DCS t)) as [a|] eqn:EA.
  2:{ split; [discriminate|]. intros (h & u & H1 & _). inversion H1; subst; [lia|congruence]. }
  cbn [on_err bind].
  assert (SZ : (if a =? 0 then ((if a =? 0 then l else 0) * 7 + 7) / 8 else l) = (if a =? 0 then (7 * l + 7) / 8 else l))
    by (destruct (a =? 0); [f_equal; lia|reflexivity]).
  rewrite SZ. clear SZ. set (sz := if a =? 0 then (7 * l + 7) / 8 else l) in *.
  destruct (1 + len b <? 1 + sz) eqn:C1.
  { split; [discriminate|]. intros (h & u & H1 & _). inversion H1 as [|l1 b1 h1 n m u1 a1 N0 A1 L1 HD1 M1 U1]; subst; [lia|]. assert (a1 = a) by congruence. subst a1. fold sz in L1. lia. }
  destruct (1 + sz <? 1 + len b) eqn:C2.
  { split; [discriminate|]. intros (h & u & H1 & _). inversion H1 as [|l1 b1 h1 n m u1 a1 N0 A1 L1 HD1 M1 U1]; subst; [lia|]. assert (a1 = a) by congruence. subst a1. fold sz in L1. lia. }
  assert (LB : len b = sz) by lia.
  change (slice_from (l :: b) 1) with (slice_from ([l] ++ b) 1). rewrite (slice_from_app [l] b) by reflexivity. cbn [bind].
  assert (HH : forall h n, (if fo_udhi (FO t) then on_err (udh_unmarshal b) (new_decode_error "udh" 1) else Ok (None, 0)) = Ok (h, n) <->
    (if fo_udhi (FO t) then header_at b h n else h = None /\ n = 0)).
  { intros h n. destruct (fo_udhi (FO t)).
    - rewrite <- header_iff by assumption. split; [apply on_err_ok|now intros ->].
    - split; [intros X; apply ok_pair in X as (<- & <-); now split|now intros (-> & ->)]. }
  assert (HN : forall h n, (if fo_udhi (FO t) then header_at b h n else h = None /\ n = 0) -> 0 <= n <= len b).
  { intros h n. destruct (fo_udhi (FO t)); [intros (r & _ & X & _); lia|lia]. }
  assert (TAIL : forall n, 0 <= n <= len b -> slice_from (l :: b) (1 + n) = Ok (skipn (Z.to_nat n) b)).
  { intros n Hn. rewrite slice_from_ok by (rewrite len_cons; lia). f_equal. now replace (Z.to_nat (1 + n)) with (S (Z.to_nat n)) by lia. }
  assert (EMPTY : forall n, 0 <= n <= len b -> (1 + n =? 1 + len b) = match skipn (Z.to_nat n) b with [] => true | _ => false end).
  { intros n Hn. assert (LS : len (skipn (Z.to_nat n) b) = len b - n) by (unfold len in *; rewrite skipn_length; lia).
    destruct (skipn (Z.to_nat n) b) eqn:ES; [change (len (@nil Z)) with 0 in LS; lia|].
    rewrite len_cons in LS. match goal with |- context [len ?x] => pose proof (len_nonneg l0) end. lia. }
  split.
  - intros H1. apply bind_ok in H1 as ([h n] & Eh & H1). apply HH in Eh. pose proof (HN _ _ Eh) as Hn.
    rewrite (EMPTY n Hn), (TAIL n Hn) in H1.
    assert (Bm : Forall is_byte (skipn (Z.to_nat n) b)) by (apply Forall_skipn'; exact HB).
    destruct (skipn (Z.to_nat n) b) as [|x m] eqn:EM.
    + apply ok_inj in H1. subst t'. exists h, []. split; [|now rewrite SAMEU].
      eapply ud_some with (n := n); [lia|exact EA|exact LB|exact Eh|reflexivity|]. now rewrite EM.
    + cbn [bind] in H1. destruct (a =? 0) eqn:E7.
      * apply bind_ok in H1 as (sm & Es & H1). apply on_err_ok in Es. apply septets_iff in Es; [|exact Bm|discriminate|lia].
        apply ok_inj in H1. subst t'. exists h, sm. split; [|reflexivity].
        eapply ud_some with (n := n); [lia|exact EA|rewrite E7; exact LB|exact Eh|reflexivity|]. rewrite EM, E7. exact Es.
      * destruct ((a =? 2) && (Z.land (len (x :: m)) 1 =? 1)) eqn:E2; [discriminate|].
        apply ok_inj in H1. subst t'. exists h, (x :: m). split; [|reflexivity].
        eapply ud_some with (n := n); [lia|exact EA|rewrite E7; exact LB|exact Eh|reflexivity|]. rewrite EM, E7. split; [reflexivity|].
        intros ->. change (2 =? 2) with true in E2. cbn [andb] in E2. change 1 with (Z.ones 1) in E2 at 1. rewrite Z.land_ones in E2 by lia.
        change (2 ^ 1) with 2 in E2. exists (len (x :: m) / 2). lia.
  - intros (h & u & H1 & ->). inversion H1 as [|l1 b1 h1 n m u1 a1 N0 A1 L1 HD1 M1 U1]; subst; [lia|].
    assert (a1 = a) by congruence. subst a1. pose proof (HN _ _ HD1) as Hn.
    rewrite (proj2 (HH h n) HD1). cbn [bind]. rewrite (EMPTY n Hn), (TAIL n Hn).
    assert (Bm : Forall is_byte (skipn (Z.to_nat n) b)) by (apply Forall_skipn'; exact HB).
    destruct (skipn (Z.to_nat n) b) as [|x m] eqn:EM.
    + subst u. now rewrite SAMEU.
    + cbn [bind]. destruct (a =? 0) eqn:E7.
      * apply septets_iff in U1; [|exact Bm|discriminate|lia]. rewrite U1. reflexivity.
      * destruct U1 as (-> & U2). replace ((a =? 2) && (Z.land (len (x :: m)) 1 =? 1)) with false; [reflexivity|].
        destruct (a =? 2) eqn:E2; [|reflexivity]. cbn [andb]. destruct U2 as (k & EK); [lia|]. rewrite EK.
        change 1 with (Z.ones 1) at 1. rewrite Z.land_ones by lia. change (2 ^ 1) with 2. lia.
Qed.

(** ** TPDUs *)
Lemma go_cons r rs total t b t' : (forall t b, r_run r t b <> Ok None) ->
  (go (r :: rs) total t b = (t', Ok tt) <-> exists t1 b1, r_run r t b = Ok (Some (t1, b1)) /\ go rs total t1 b1 = (t', Ok tt)).
Proof.
  intros N. cbn [go]. split.
  - destruct (r_run r t b) as [[[t1 b1]|]|e| |] eqn:E; try discriminate; [|now apply N in E]. intros H. now exists t1, b1.
  - intros (t1 & b1 & -> & H). exact H.
Qed.
Lemma go_byte f set e rs total t b t' : go (rd_byte f set e :: rs) total t b = (t', Ok tt) <->
  exists x b1, b = x :: b1 /\ go rs total (set t x) b1 = (t', Ok tt).
Proof.
  rewrite go_cons by (intros ? []; discriminate). cbn [r_run rd_byte]. split.
  - destruct b as [|x b]; [intros (? & ? & H & _); discriminate|]. intros (t1 & b1 & E & H). apply some_pair in E as (<- & <-). eauto.
  - intros (x & b1 & -> & H). eauto.
Qed.
Lemma go_into f set rs total t b t' : go (rd_into f set :: rs) total t b = (t', Ok tt) <->
  exists x b1, b = x :: b1 /\ go rs total (set t x) b1 = (t', Ok tt).
Proof.
  rewrite go_cons by (intros ? []; discriminate). cbn [r_run rd_into]. split.
  - destruct b as [|x b]; [intros (? & ? & H & _); discriminate|]. intros (t1 & b1 & E & H). apply some_pair in E as (<- & <-). eauto.
  - intros (x & b1 & -> & H). eauto.
Qed.
Lemma skip_pre {A} (q r : list A) : skipn (Z.to_nat (len q)) (q ++ r) = r.
Proof. apply skip_q. Qed.
Lemma go_addr f set rs total t b t' : Forall is_byte b -> (go (rd_addr f set :: rs) total t b = (t', Ok tt) <->
  exists a q b1, b = q ++ b1 /\ address_octets a q /\ go rs total (set t a) b1 = (t', Ok tt)).
Proof.
  intros HB. rewrite go_cons. 2:{ intros ? b0. cbn [r_run rd_addr]. destruct (addr_unmarshal b0); discriminate. }
  cbn [r_run rd_addr]. split.
  - intros (t1 & b1 & E & H). apply bind_ok in E as ([a n] & Ea & E). cbn [fst snd] in E. apply some_pair in E as (<- & <-).
    apply address_iff in Ea as (q & r & -> & A & ->); [|exact HB]. rewrite skip_pre in H. now exists a, q, r.
  - intros (a & q & b1 & -> & A & H). exists (set t a), b1.
    rewrite (proj2 (address_iff (q ++ b1) a (len q) HB)) by eauto. cbn [bind fst snd]. rewrite skip_pre. now split.
Qed.
Lemma go_ts f set rs total t b t' : Forall is_byte b -> (go (rd_ts f set :: rs) total t b = (t', Ok tt) <->
  exists x q b1, b = q ++ b1 /\ time_octets x q /\ go rs total (set t x) b1 = (t', Ok tt)).
Proof.
  intros HB. rewrite go_cons. 2:{ intros ? b0. cbn [r_run rd_ts]. destruct (ts_unmarshal b0); discriminate. }
  assert (SK : forall x (q r : bytes), time_octets x q -> skipn 7 (q ++ r) = r).
  { intros x q r T. apply time_octets_len in T. rewrite <- (skip_pre q r) at 2. now rewrite T. }
  cbn [r_run rd_ts]. split.
  - intros (t1 & b1 & E & H). apply bind_ok in E as (x & Ea & E). apply some_pair in E as (<- & <-).
    apply time_iff in Ea as (q & r & -> & A); [|exact HB]. rewrite (SK x q r A) in H. now exists x, q, r.
  - intros (x & q & b1 & -> & A & H). exists (set t x), b1.
    rewrite (proj2 (time_iff (q ++ b1) x HB)) by eauto. cbn [bind]. rewrite (SK x q b1 A). now split.
Qed.
Lemma vpf_div f : fo_vpf f = f / 8 mod 4.
Proof.
  unfold fo_vpf. change FoVPFMask with (3 * 2 ^ 3). change FoVPFShift with 3.
  rewrite Z.shiftr_land, <- Z.shiftl_mul_pow2, Z.shiftr_shiftl_l, Z.sub_diag, Z.shiftl_0_r by lia.
  change 3 with (Z.ones 2) at 2. rewrite Z.land_ones, Z.shiftr_div_pow2 by lia. reflexivity.
Qed.
Lemma go_vp rs total t b t' : Forall is_byte b -> VP t = vp_zero -> (go (rd_vp :: rs) total t b = (t', Ok tt) <->
  exists v q b1, b = q ++ b1 /\ period_octets (FO t / 8 mod 4) v q /\ go rs total (set_VPf t v) b1 = (t', Ok tt)).
Proof.
  intros HB HV. rewrite go_cons. 2:{ intros t0 b0. cbn [r_run rd_vp]. destruct (vp_unmarshal _ _ _); discriminate. }
  cbn [r_run rd_vp]. rewrite HV, vpf_div. assert (R : 0 <= FO t / 8 mod 4 < 4) by lia. split.
  - intros (t1 & b1 & E & H). apply bind_ok in E as ([v n] & Ea & E). cbn [fst snd] in E. apply some_pair in E as (<- & <-).
    apply period_iff in Ea as (q & r & -> & A & ->); [|exact HB|exact R]. rewrite skip_pre in H. now exists v, q, r.
  - intros (v & q & b1 & -> & A & H). exists (set_VPf t v), b1.
    rewrite (proj2 (period_iff (q ++ b1) v (len q) _ HB R)) by eauto. cbn [bind fst snd]. rewrite skip_pre. now split.
Qed.
Lemma go_dcs8 rs total t b t' : go (rd_dcs8 :: rs) total t b = (t', Ok tt) <-> go rs total (set_DCSf t 4) b = (t', Ok tt).
Proof. reflexivity. Qed.
Lemma go_opt f set c rs total t b t' : go (rd_opt f set c :: rs) total t b = (t', Ok tt) <->
  if c (PI t) then exists x b1, b = x :: b1 /\ go rs total (set t x) b1 = (t', Ok tt) else go rs total t b = (t', Ok tt).
Proof.
  rewrite go_cons. 2:{ intros t0 b0. cbn [r_run rd_opt]. destruct (c (PI t0)), b0; discriminate. }
  cbn [r_run rd_opt]. destruct (c (PI t)).
  - split.
    + destruct b as [|x b]; [intros (? & ? & H & _); discriminate|]. intros (t1 & b1 & E & H). apply some_pair in E as (<- & <-). eauto.
    + intros (x & b1 & -> & H). eauto.
  - split; [intros (t1 & b1 & E & H); apply some_pair in E as (<- & <-); exact H|eauto].
Qed.
Lemma go_ud c total t b t' : Forall is_byte b -> is_byte (DCS t) -> UDH t = None -> UD t = [] ->
  (go [rd_ud c] total t b = (t', Ok tt) <->
   if c (PI t) then exists h u, user_data_octets (Z.testbit (FO t) 6) (DCS t) h u b /\ t' = set_UDHf (set_UDf t u) h else t' = t).
Proof.
  intros HB HD EH EU. rewrite go_cons. 2:{ intros t0 b0. cbn [r_run rd_ud]. destruct (c (PI t0)); [|discriminate]. destruct (decode_ud t0 b0); discriminate. }
  cbn [r_run rd_ud go]. destruct (c (PI t)).
  - rewrite <- user_data_iff by assumption. split.
    + intros (t1 & b1 & E & H). apply bind_ok in E as (t2 & E2 & E). apply some_pair in E as (<- & _).
      apply (f_equal fst) in H. cbn [fst] in H. congruence.
    + intros E. exists t', []. rewrite E. now split.
  - split.
    + intros (t1 & b1 & E & H). apply some_pair in E as (<- & _). now apply (f_equal fst) in H.
    + intros ->. now exists t, [].
Qed.
Lemma pi_bits p : pi_pid p = Z.testbit p 0 /\ pi_dcs p = Z.testbit p 1 /\ pi_udl p = Z.testbit p 2.
Proof.
  repeat split; [apply (bit_test p 0 PiPID)|apply (bit_test p 1 PiDCS)|apply (bit_test p 2 PiUDL)]; try lia; reflexivity.
Qed.
Lemma go_optionals total t b t' : Forall is_byte b -> PID t = 0 -> DCS t = 0 -> UDH t = None -> UD t = [] ->
  (go optionals total t b = (t', Ok tt) <->
   exists pid dcs h u, optional_octets (FO t) (PI t) pid dcs h u b /\ t' = set_UDHf (set_UDf (set_DCSf (set_PIDf t pid) dcs) u) h).
Proof.
  intros HB E1 E2 E3 E4. unfold optionals, optional_octets. destruct (pi_bits (PI t)) as (P0 & P1 & P2). rewrite <- P0, <- P1, <- P2. clear P0 P1 P2.
  assert (SP : set_PIDf t 0 = t) by (revert E1; dtpdu t; cbn; now intros ->).
  assert (SD : forall x, set_DCSf (set_PIDf t x) 0 = set_PIDf t x) by (intros x; revert E2; dtpdu t; cbn; now intros ->).
  assert (SU : forall x y, set_UDHf (set_UDf (set_DCSf (set_PIDf t x) y) []) None = set_DCSf (set_PIDf t x) y)
    by (intros x y; revert E3 E4; dtpdu t; cbn; now intros -> ->).
  assert (F : forall x y, PI (set_PIDf t x) = PI t /\ PI (set_DCSf (set_PIDf t x) y) = PI t /\ FO (set_DCSf (set_PIDf t x) y) = FO t /\
    DCS (set_DCSf (set_PIDf t x) y) = y /\ UDH (set_DCSf (set_PIDf t x) y) = None /\ UD (set_DCSf (set_PIDf t x) y) = [])
    by (intros x y; revert E3 E4; dtpdu t; cbn; now intros -> ->).
  assert (LAST : forall x y b1, Forall is_byte b1 -> is_byte y ->
    (go [rd_ud pi_udl] total (set_DCSf (set_PIDf t x) y) b1 = (t', Ok tt) <->
     exists h u, (if pi_udl (PI t) then user_data_octets (Z.testbit (FO t) 6) y h u b1 else h = None /\ u = []) /\
       t' = set_UDHf (set_UDf (set_DCSf (set_PIDf t x) y) u) h)).
  { intros x y b1 B1 By. destruct (F x y) as (_ & F2 & F3 & F4 & F5 & F6). rewrite go_ud by (rewrite ?F4; assumption). rewrite F2, F3, F4.
    destruct (pi_udl (PI t)); [reflexivity|]. split.
    - intros ->. exists None, []. now rewrite SU.
    - intros (h & u & (-> & ->) & ->). now rewrite SU. }
  assert (B0 : is_byte 0) by (unfold is_byte; lia).
  assert (MID : forall x b1, Forall is_byte b1 ->
    (go [rd_opt F_DCS set_DCSf pi_dcs; rd_ud pi_udl] total (set_PIDf t x) b1 = (t', Ok tt) <->
     exists y h u dcs_o rest, b1 = dcs_o ++ rest /\ (if pi_dcs (PI t) then dcs_o = [y] else dcs_o = [] /\ y = 0) /\
       (if pi_udl (PI t) then user_data_octets (Z.testbit (FO t) 6) y h u rest else h = None /\ u = []) /\
       t' = set_UDHf (set_UDf (set_DCSf (set_PIDf t x) y) u) h)).
  { intros x b1 B1. rewrite go_opt. destruct (F x 0) as (-> & _). destruct (pi_dcs (PI t)).
    - split.
      + intros (y & b2 & -> & H). apply Forall_cons_iff in B1 as (By & B1). apply LAST in H as (h & u & H & E); [|assumption|assumption].
        exists y, h, u, [y], b2. split; [reflexivity|]. split; [reflexivity|]. split; eassumption.
      + intros (y & h & u & o & r & -> & -> & H & E). cbn [app] in *. apply Forall_cons_iff in B1 as (By & B1).
        exists y, r. split; [reflexivity|]. apply LAST; eauto.
    - rewrite <- (SD x) at 1. rewrite (LAST x 0 b1 B1 B0). split.
      + intros (h & u & H & E). exists 0, h, u, [], b1. split; [reflexivity|]. split; [now split|]. split; eassumption.
      + intros (y & h & u & o & r & -> & (-> & ->) & H & E). eauto. }
  rewrite go_opt. destruct (pi_pid (PI t)).
  - split.
    + intros (x & b1 & -> & H). apply Forall_cons_iff in HB as (_ & HB). apply MID in H as (y & h & u & o & r & -> & A & B & C); [|exact HB].
      exists x, y, h, u. split; [|exact C]. exists [x], o, r. split; [reflexivity|]. split; [reflexivity|]. split; eassumption.
    + intros (x & y & h & u & (p & o & r & -> & -> & A & B) & C). cbn [app] in *. apply Forall_cons_iff in HB as (_ & HB).
      exists x, (o ++ r). split; [reflexivity|]. apply MID; [exact HB|]. exists y, h, u, o, r. split; [reflexivity|]. split; [exact A|]. split; eassumption.
  - rewrite <- SP at 1. rewrite (MID 0 b HB). split.
    + intros (y & h & u & o & r & -> & A & B & C). exists 0, y, h, u. split; [|exact C]. exists [], o, r. split; [reflexivity|]. split; [now split|]. split; eassumption.
    + intros (x & y & h & u & (p & o & r & -> & (-> & ->) & A & B) & C). exists y, h, u, o, r. split; [reflexivity|]. split; [exact A|]. split; eassumption.
Qed.

Definition fresh_tpdu (dir fo : Z) : tpdu := set_FO (set_Direction zero_tpdu dir) fo.
Lemma deliver_iff fo s t : Forall is_byte (fo :: s) -> fo mod 4 = 0 ->
  (go (readers SmsDeliver) (len s) (fresh_tpdu MT fo) s = (t, Ok tt) <-> tpdu_octets false t (fo :: s)).
Proof.
  intros HB M. apply Forall_cons_iff in HB as (Bf & HB). change (readers SmsDeliver) with
    [rd_addr F_OA set_OA; rd_into F_PID set_PIDf; rd_byte F_DCS set_DCSf EOF; rd_ts F_SCTS set_SCTS; rd_ud (fun _ => true)].
  split.
  - intros H. apply go_addr in H as (a & q & b1 & -> & A & H); [|exact HB]. apply Forall_app in HB as (_ & HB).
    apply go_into in H as (pid & b2 & -> & H). apply Forall_cons_iff in HB as (_ & HB).
    apply go_byte in H as (dcs & b3 & -> & H). apply Forall_cons_iff in HB as (Bd & HB).
    apply go_ts in H as (ts & q2 & b4 & -> & T & H); [|exact HB]. apply Forall_app in HB as (_ & HB).
    apply go_ud in H; [|exact HB|exact Bd|reflexivity|reflexivity]. destruct H as (h & u & U & ->).
    exact (w_deliver fo a pid dcs ts h u q q2 b4 M A T U).
  - intros H. inversion H; subst; try (exfalso; lia). apply go_addr; [exact HB|]. eexists _, _, _. split; [reflexivity|]. split; [eassumption|].
    apply Forall_app in HB as (_ & HB). cbn [app] in *. rewrite !Forall_cons_iff in HB. destruct HB as (_ & Bd & HB).
    apply go_into. eexists _, _. split; [reflexivity|]. apply go_byte. eexists _, _. split; [reflexivity|].
    apply go_ts; [exact HB|]. eexists _, _, _. split; [reflexivity|]. split; [eassumption|]. apply Forall_app in HB as (_ & HB).
    apply go_ud; [exact HB|exact Bd|reflexivity|reflexivity|]. cbv beta iota. eexists _, _. split; [eassumption|]. reflexivity.
Qed.
Lemma submit_iff fo s t : Forall is_byte (fo :: s) -> fo mod 4 = 1 ->
  (go (readers SmsSubmit) (len s) (fresh_tpdu MO fo) s = (t, Ok tt) <-> tpdu_octets true t (fo :: s)).
Proof.
  intros HB M. apply Forall_cons_iff in HB as (Bf & HB). change (readers SmsSubmit) with
    [rd_byte F_MR set_MR ErrUnderflow; rd_addr F_DA set_DA; rd_byte F_PID set_PIDf ErrUnderflow;
     rd_byte F_DCS set_DCSf ErrUnderflow; rd_vp; rd_ud (fun _ => true)].
  split.
  - intros H. apply go_byte in H as (mr & b0 & -> & H). apply Forall_cons_iff in HB as (_ & HB).
    apply go_addr in H as (a & q & b1 & -> & A & H); [|exact HB]. apply Forall_app in HB as (_ & HB).
    apply go_byte in H as (pid & b2 & -> & H). apply Forall_cons_iff in HB as (_ & HB).
    apply go_byte in H as (dcs & b3 & -> & H). apply Forall_cons_iff in HB as (Bd & HB).
    apply go_vp in H as (v & q2 & b4 & -> & V & H); [|exact HB|reflexivity]. apply Forall_app in HB as (_ & HB).
    apply go_ud in H; [|exact HB|exact Bd|reflexivity|reflexivity]. destruct H as (h & u & U & ->).
    exact (w_submit fo mr a pid dcs v h u q q2 b4 M A V U).
  - intros H. inversion H; subst; try (exfalso; lia).
    apply go_byte. eexists _, _. split; [reflexivity|]. apply Forall_cons_iff in HB as (_ & HB).
    apply go_addr; [exact HB|]. eexists _, _, _. split; [reflexivity|]. split; [eassumption|].
    apply Forall_app in HB as (_ & HB). cbn [app] in *. rewrite !Forall_cons_iff in HB. destruct HB as (_ & Bd & HB).
    apply go_byte. eexists _, _. split; [reflexivity|]. apply go_byte. eexists _, _. split; [reflexivity|].
    apply go_vp; [exact HB|reflexivity|]. eexists _, _, _. split; [reflexivity|]. split; [eassumption|]. apply Forall_app in HB as (_ & HB).
    apply go_ud; [exact HB|exact Bd|reflexivity|reflexivity|]. cbv beta iota. eexists _, _. split; [eassumption|]. reflexivity.
Qed.
Lemma command_iff fo s t : Forall is_byte (fo :: s) -> fo mod 4 = 2 ->
  (go (readers SmsCommand) (len s) (fresh_tpdu MO fo) s = (t, Ok tt) <-> tpdu_octets true t (fo :: s)).
Proof.
  intros HB M. apply Forall_cons_iff in HB as (Bf & HB). change (readers SmsCommand) with
    [rd_into F_MR set_MR; rd_into F_PID set_PIDf; rd_into F_CT set_CT; rd_into F_MN set_MN;
     rd_addr F_DA set_DA; rd_dcs8; rd_ud (fun _ => true)].
  assert (B4 : is_byte 4) by (unfold is_byte; lia).
  split.
  - intros H. apply go_into in H as (mr & b0 & -> & H). apply Forall_cons_iff in HB as (_ & HB).
    apply go_into in H as (pid & b1 & -> & H). apply Forall_cons_iff in HB as (_ & HB).
    apply go_into in H as (ct & b2 & -> & H). apply Forall_cons_iff in HB as (_ & HB).
    apply go_into in H as (mn & b3 & -> & H). apply Forall_cons_iff in HB as (_ & HB).
    apply go_addr in H as (a & q & b4 & -> & A & H); [|exact HB]. apply Forall_app in HB as (_ & HB).
    apply go_dcs8 in H. apply go_ud in H; [|exact HB|exact B4|reflexivity|reflexivity]. destruct H as (h & u & U & ->).
    exact (w_command fo mr pid ct mn a h u q b4 M A U).
  - intros H. inversion H; subst; try (exfalso; lia). cbn [app] in *.
    apply go_into. eexists _, _. split; [reflexivity|]. apply Forall_cons_iff in HB as (_ & HB).
    apply go_into. eexists _, _. split; [reflexivity|]. apply Forall_cons_iff in HB as (_ & HB).
    apply go_into. eexists _, _. split; [reflexivity|]. apply Forall_cons_iff in HB as (_ & HB).
    apply go_into. eexists _, _. split; [reflexivity|]. apply Forall_cons_iff in HB as (_ & HB).
    apply go_addr; [exact HB|]. eexists _, _, _. split; [reflexivity|]. split; [eassumption|]. apply Forall_app in HB as (_ & HB).
    apply go_dcs8. apply go_ud; [exact HB|exact B4|reflexivity|reflexivity|]. cbv beta iota. eexists _, _. split; [eassumption|]. reflexivity.
Qed.
Lemma deliver_report_iff fo s t : Forall is_byte (fo :: s) -> fo mod 4 = 0 ->
  (go (readers SmsDeliverReport) (len s) (fresh_tpdu MO fo) s = (t, Ok tt) <-> tpdu_octets true t (fo :: s)).
Proof.
  intros HB M. apply Forall_cons_iff in HB as (Bf & HB). change (readers SmsDeliverReport) with
    (rd_byte F_FCS set_FCS ErrUnderflow :: rd_byte F_PI set_PI ErrUnderflow :: optionals).
  split.
  - intros H. apply go_byte in H as (fcs & b0 & -> & H). apply Forall_cons_iff in HB as (_ & HB).
    apply go_byte in H as (pi & b1 & -> & H). apply Forall_cons_iff in HB as (_ & HB).
    apply go_optionals in H as (pid & dcs & h & u & O & ->); try reflexivity; [|exact HB].
    exact (w_deliver_report fo fcs pi pid dcs h u b1 M O).
  - intros H. inversion H; subst; try (exfalso; lia). cbn [app] in *.
    apply go_byte. eexists _, _. split; [reflexivity|]. apply Forall_cons_iff in HB as (_ & HB).
    apply go_byte. eexists _, _. split; [reflexivity|]. apply Forall_cons_iff in HB as (_ & HB).
    apply go_optionals; try reflexivity; [exact HB|]. eexists _, _, _, _. split; [eassumption|]. reflexivity.
Qed.
Lemma submit_report_iff fo s t : Forall is_byte (fo :: s) -> fo mod 4 = 1 ->
  (go (readers SmsSubmitReport) (len s) (fresh_tpdu MT fo) s = (t, Ok tt) <-> tpdu_octets false t (fo :: s)).
Proof.
  intros HB M. apply Forall_cons_iff in HB as (Bf & HB). change (readers SmsSubmitReport) with
    (rd_byte F_FCS set_FCS ErrUnderflow :: rd_byte F_PI set_PI ErrUnderflow :: rd_ts F_SCTS set_SCTS :: optionals).
  split.
  - intros H. apply go_byte in H as (fcs & b0 & -> & H). apply Forall_cons_iff in HB as (_ & HB).
    apply go_byte in H as (pi & b1 & -> & H). apply Forall_cons_iff in HB as (_ & HB).
    apply go_ts in H as (ts & q2 & b4 & -> & T & H); [|exact HB]. apply Forall_app in HB as (_ & HB).
    apply go_optionals in H as (pid & dcs & h & u & O & ->); try reflexivity; [|exact HB].
    exact (w_submit_report fo fcs pi ts pid dcs h u q2 b4 M T O).
  - intros H. inversion H; subst; try (exfalso; lia). cbn [app] in *.
    apply go_byte. eexists _, _. split; [reflexivity|]. apply Forall_cons_iff in HB as (_ & HB).
    apply go_byte. eexists _, _. split; [reflexivity|]. apply Forall_cons_iff in HB as (_ & HB).
    apply go_ts; [exact HB|]. eexists _, _, _. split; [reflexivity|]. split; [eassumption|]. apply Forall_app in HB as (_ & HB).
    apply go_optionals; try reflexivity; [exact HB|]. eexists _, _, _, _. split; [eassumption|]. reflexivity.
Qed.
Lemma go_last_pi rs total t b t' : go (rd_last_pi :: rs) total t b = (t', Ok tt) <->
  b = [] /\ t' = t \/ exists x b1, b = x :: b1 /\ go rs total (set_PI t x) b1 = (t', Ok tt).
Proof.
  cbn [go r_run rd_last_pi]. destruct b as [|x b].
  - split; [intros H; left; split; [reflexivity|now apply (f_equal fst) in H]|]. intros [(_ & ->)|(x & b1 & H & _)]; [reflexivity|discriminate].
  - split; [intros H; right; eauto|]. intros [(H & _)|(y & b1 & H & G)]; [discriminate|]. injection H as <- <-. exact G.
Qed.
Lemma status_report_iff fo s t : Forall is_byte (fo :: s) -> fo mod 4 = 2 ->
  (go (readers SmsStatusReport) (len s) (fresh_tpdu MT fo) s = (t, Ok tt) <-> tpdu_octets false t (fo :: s)).
Proof.
  intros HB M. apply Forall_cons_iff in HB as (Bf & HB). change (readers SmsStatusReport) with
    (rd_byte F_MR set_MR ErrUnderflow :: rd_addr F_RA set_RA :: rd_ts F_SCTS set_SCTS :: rd_ts F_DT set_DT ::
     rd_byte F_ST set_ST ErrUnderflow :: rd_last_pi :: optionals).
  split.
  - intros H. apply go_byte in H as (mr & b0 & -> & H). apply Forall_cons_iff in HB as (_ & HB).
    apply go_addr in H as (a & q & b1 & -> & A & H); [|exact HB]. apply Forall_app in HB as (_ & HB).
    apply go_ts in H as (ts & q2 & b2 & -> & T & H); [|exact HB]. apply Forall_app in HB as (_ & HB).
    apply go_ts in H as (dt & q3 & b3 & -> & T2 & H); [|exact HB]. apply Forall_app in HB as (_ & HB).
    apply go_byte in H as (st & b4 & -> & H). apply Forall_cons_iff in HB as (_ & HB).
    apply go_last_pi in H as [(-> & ->)|(pi & b5 & -> & H)].
    + refine (w_status_report fo mr a ts dt st 0 0 0 None [] q q2 q3 [] M A T T2 _). left. repeat split.
    + apply Forall_cons_iff in HB as (_ & HB). apply go_optionals in H as (pid & dcs & h & u & O & ->); try reflexivity; [|exact HB].
      refine (w_status_report fo mr a ts dt st pi pid dcs h u q q2 q3 (pi :: b5) M A T T2 _). right. exists b5. now split.
  - intros H. inversion H; subst; try (exfalso; lia). cbn [app] in *.
    apply go_byte. eexists _, _. split; [reflexivity|]. apply Forall_cons_iff in HB as (_ & HB).
    apply go_addr; [exact HB|]. eexists _, _, _. split; [reflexivity|]. split; [eassumption|]. apply Forall_app in HB as (_ & HB).
    apply go_ts; [exact HB|]. eexists _, _, _. split; [reflexivity|]. split; [eassumption|]. apply Forall_app in HB as (_ & HB).
    apply go_ts; [exact HB|]. eexists _, _, _. split; [reflexivity|]. split; [eassumption|]. apply Forall_app in HB as (_ & HB).
    apply go_byte. eexists _, _. split; [reflexivity|]. apply Forall_cons_iff in HB as (_ & HB).
    apply go_last_pi. match goal with X : _ \/ _ |- _ => destruct X as [(-> & -> & -> & -> & -> & ->)|(b5 & -> & O)] end.
    + left. now split.
    + right. apply Forall_cons_iff in HB as (_ & HB). eexists _, _. split; [reflexivity|].
      apply go_optionals; try reflexivity; [exact HB|]. eexists _, _, _, _. split; [eassumption|]. reflexivity.
Qed.

Lemma type_of_fo dir fo : is_byte fo -> dir = 0 \/ dir = 1 -> tpdu_type (fresh_tpdu dir fo) = 2 * (fo mod 4) + dir.
Proof.
  intros H D. assert (S : (tpdu_type (fresh_tpdu dir fo) =? 2 * (fo mod 4) + dir) = true); [|lia].
  revert fo H. apply (zrange_sweep 256). destruct D as [-> | ->]; vm_compute; reflexivity.
Qed.
Lemma octets_first mo t b : tpdu_octets mo t b -> exists fo s, b = fo :: s /\ fo mod 4 <> 3.
Proof. intros []; cbn [app]; eexists _, _; (split; [reflexivity|lia]). Qed.

Lemma wire_iff src mo t : Forall is_byte src -> (unmarshal src mo = Ok t <-> tpdu_octets mo t src).
Proof.
  intros HB. unfold unmarshal. destruct src as [|fo s].
  { split; [discriminate|]. intros H. apply octets_first in H as (? & ? & H & _). discriminate. }
  pose proof (Forall_inv HB) as Bf. pose proof (Forall_inv_tail HB) as Bs. set (dir := if mo then MO else MT).
  assert (DIR : dir = 0 \/ dir = 1) by (subst dir; destruct mo; [right|left]; reflexivity).
  pose proof (type_of_fo dir fo Bf DIR) as TY.
  assert (K : forall st, tpdu_type (fresh_tpdu dir fo) = st -> known_type st = true ->
    (tpdu_unmarshal (set_Direction zero_tpdu dir) (fo :: s) = Ok t <-> go (readers st) (len s) (fresh_tpdu dir fo) s = (t, Ok tt))).
  { intros st <- KN. split; [now apply go_bytes_prefix|now apply go_to_unmarshal]. }
  assert (M : fo mod 4 = 0 \/ fo mod 4 = 1 \/ fo mod 4 = 2 \/ fo mod 4 = 3) by lia.
  destruct M as [M|[M|[M|M]]]; rewrite M in TY.
  - destruct mo; subst dir; rewrite (K _ TY eq_refl); [now apply deliver_report_iff|now apply deliver_iff].
  - destruct mo; subst dir; rewrite (K _ TY eq_refl); [now apply submit_iff|now apply submit_report_iff].
  - destruct mo; subst dir; rewrite (K _ TY eq_refl); [now apply command_iff|now apply status_report_iff].
  - split.
    + intros H. rewrite <- outcome_unmarshal, unmarshal_left_go in H by exact Bs. cbv zeta in H. fold (fresh_tpdu dir fo) in H. rewrite TY in H.
      destruct DIR as [-> | ->]; discriminate.
    + intros H. apply octets_first in H as (? & ? & E & N). injection E as <- <-. congruence.
Qed.
