(** Proofs about unmarshalling arbitrary input: safety and accounting for every
    octet. *)
From Verif Require Import GoBase GoLemmas SafeLemmas SevenBit SevenBitProofs SpecSegment Dcs FirstOctet TpduError
  Address AddressProofs GoTime TimeProofs ValidityPeriod VPProofs UserData Tpdu SpecTpdu UdProofs
  SegmentProofs SegmentFitProofs TpduProofs Sms.

Lemma tpdu_alphabet_cases t :
  tpdu_alphabet t = Err ErrInvalid \/
  exists a, tpdu_alphabet t = Ok a /\ (a = Alpha7Bit \/ a = Alpha8Bit \/ a = AlphaUCS2).
Proof.
  unfold tpdu_alphabet, dcs_alphabet, dcs_alpha, dcs_alphabet_raw.
  destruct (Z.land (DCS t) 128 =? 0).
  { cbn [snd fst]. right. eexists. split; [reflexivity|].
    set (a := Z.land (Z.shiftr (DCS t) 2) 3).
    assert (0 <= a < 4). { unfold a. change 3 with (Z.ones 2). rewrite Z.land_ones by lia. lia. }
    unfold AlphaReserved, Alpha7Bit, Alpha8Bit, AlphaUCS2.
    destruct (a =? 3) eqn:E; lia. }
  destruct (Z.land (DCS t) 224 =? 192). { right. exists Alpha7Bit. tauto. }
  destruct (Z.land (DCS t) 240 =? 224). { right. exists AlphaUCS2. tauto. }
  destruct (Z.land (DCS t) 240 =? 240).
  { cbn [snd fst]. right. eexists. split; [reflexivity|]. destruct (_ =? 4); tauto. }
  now left.
Qed.

(** Located errors with no inner offset. *)
Lemma err_at {A} f o e n : err_within 0 e -> 0 <= o <= n ->
  safe_located n (@Err A (new_decode_error f o e)).
Proof. intros. cbn [safe_located]. apply new_decode_error_located with (n := 0); auto; lia. Qed.

Lemma decode_7bit_safe sml h src n : 0 <= h -> cdiv (8 * h) 7 <= sml ->
  safe n (decode_7bit sml h src).
Proof.
  intros H0 H. unfold decode_7bit. destruct (fill_bits_spec h H0) as (E & F).
  set (f := if 0 <? h then fill_bits h else 0).
  assert (0 <= (if 0 <? h then sml - (h * 8 + f) / 7 else sml)) as HS.
  { unfold f. destruct (0 <? h) eqn:Eh; [lia|]. assert (h = 0) by lia. subst h. exact H. }
  set (sml' := if 0 <? h then sml - (h * 8 + f) / 7 else sml) in *.
  destruct (len (unpack7bit src f) <? sml') eqn:E1; [exact I|].
  destruct (sml' <? len (unpack7bit src f)) eqn:E2; [|exact I].
  destruct (sml' + 1 <? len (unpack7bit src f)) eqn:E3; [exact I|].
  destruct (idx_ok (unpack7bit src f) sml' ltac:(lia)) as (x & -> & _). cbn [bind].
  destruct (negb (x =? 0)); [exact I|]. rewrite slice_ok by lia. exact I.
Qed.

Lemma decode_ud_safe t src : Forall is_byte src -> safe_located (len src) (decode_ud t src).
Proof.
  intros HB. unfold decode_ud. pose proof (len_nonneg src) as L0.
  destruct (len src <? 1) eqn:E1; [apply err_at; [exact I|lia]|].
  destruct (idx_ok src 0 ltac:(lia)) as (udl & -> & Hu). cbn [bind].
  assert (Bu : is_byte udl) by (rewrite Forall_forall in HB; auto). unfold is_byte in Bu.
  destruct (udl =? 0) eqn:E0; [exact I|].
  destruct (tpdu_alphabet_cases t) as [->|(alpha & -> & HA)]; cbn [on_err bind].
  { apply err_at; [exact I|lia]. }
  set (sml7 := if alpha =? Alpha7Bit then udl else 0).
  set (ol := if alpha =? Alpha7Bit then (sml7 * 7 + 7) / 8 else udl). cbv zeta.
  destruct (len src <? 1 + ol) eqn:E2; [apply err_at; [exact I|lia]|].
  destruct (1 + ol <? len src) eqn:E3; [apply err_at; [exact I|lia]|].
  assert (Ls : len src = 1 + ol) by lia.
  apply bind_safe_located.
  { destruct (fo_udhi (FO t)); [|exact I]. rewrite slice_from_ok by lia. cbn [bind].
    assert (Ln : len (skipn (Z.to_nat 1) src) = len src - 1) by (apply len_skipn; lia).
    apply on_err_located with (n := len src - 1); try lia.
    rewrite <- Ln. apply safe_located_safe, udh_unmarshal_safe.
    eapply slice_from_bytes; [exact HB|]. apply slice_from_ok. lia. }
  intros [h hl] HH.
  assert (Hhl : 0 <= hl <= len src - 1).
  { destruct (fo_udhi (FO t)).
    - apply bind_ok in HH as (s & Es & HH). apply on_err_ok in HH.
      pose proof (slice_from_bytes _ _ _ HB Es) as Bs. apply slice_from_inv in Es as (_ & _ & Ln).
      apply udh_accepted in HH as (HR & _); [lia|assumption].
    - apply ok_pair in HH as (_ & <-). lia. }
  destruct (1 + hl =? len src) eqn:E4; [exact I|].
  rewrite slice_from_ok by lia. cbn [bind].
  destruct (alpha =? Alpha7Bit) eqn:EA.
  - apply bind_safe_located; [|intros; exact I].
    apply on_err_located with (n := 0); try lia. apply decode_7bit_safe; [lia|].
    unfold cdiv. unfold ol, sml7 in *. lia.
  - destruct ((alpha =? AlphaUCS2) && _); [|exact I]. apply err_at; [exact I|lia].
Qed.

(** Accepted user data ends where the length octet says, so nothing can follow
    it unless it is empty. *)
Lemma decode_ud_exact t s ext t1 t2 :
  decode_ud t s = Ok t1 -> decode_ud t (s ++ ext) = Ok t2 -> ext <> [] -> t1 = t /\ t2 = t.
Proof.
  intros H1 H2 NE. unfold decode_ud in H1, H2. pose proof (len_ne_nil _ NE) as LE.
  rewrite len_app in H2. pose proof (len_nonneg s). pose proof (len_nonneg ext).
  destruct (len s <? 1) eqn:E1; [discriminate|].
  replace (len s + len ext <? 1) with false in H2 by lia.
  rewrite idx_app_l in H2 by lia.
  destruct (idx s 0) as [udl| | |]; try discriminate. cbn [bind] in *.
  destruct (udl =? 0). { apply ok_inj in H1, H2. auto. }
  destruct (tpdu_alphabet t) as [alpha| | |]; try discriminate. cbn [on_err bind] in *.
  set (sml7 := if alpha =? Alpha7Bit then udl else 0) in *.
  set (ol := if alpha =? Alpha7Bit then (sml7 * 7 + 7) / 8 else udl) in *. cbv zeta in *.
  destruct (len s <? 1 + ol) eqn:E2; [discriminate|].
  destruct (1 + ol <? len s) eqn:E3; [discriminate|].
  replace (len s + len ext <? 1 + ol) with false in H2 by lia.
  replace (1 + ol <? len s + len ext) with true in H2 by lia. discriminate.
Qed.

(** ** Safety of the whole *)

Lemma read_byte_safe f off b n : 0 <= off <= n -> safe_located n (read_byte f off b).
Proof. intros. destruct b; [|exact I]. cbn [read_byte]. now apply err_at. Qed.
Lemma read_byte_ok f off b x b' : read_byte f off b = Ok (x, b') -> b = x :: b'.
Proof. destruct b; cbn; [discriminate|]. intros H. apply ok_pair in H as (-> & ->). reflexivity. Qed.
Lemma Forall_skipn {A} (P : A -> Prop) n l : Forall P l -> Forall P (skipn n l).
Proof. intros H. rewrite <- (firstn_skipn n l) in H. apply Forall_app in H. tauto. Qed.
Lemma len_skipn_le {A} n (l : list A) : len (skipn n l) <= len l.
Proof. unfold len. rewrite skipn_length. lia. Qed.
Lemma buf_next_safe n b : Forall is_byte b -> Forall is_byte (buf_next n b).
Proof. apply Forall_skipn. Qed.

Lemma on_err_sub {A} (r : res A) f o n m :
  safe_located n r -> 0 <= o -> 0 <= n -> o + n <= m ->
  safe_located m (on_err r (new_decode_error f o)).
Proof. intros H. apply on_err_located. now apply safe_located_safe. Qed.

Lemma unmarshal_optionals_safe t src ri : Forall is_byte src -> 0 <= ri <= len src ->
  safe_located (len src) (unmarshal_optionals t src ri).
Proof.
  intros HB HR. unfold unmarshal_optionals.
  apply bind_safe_located.
  { destruct (pi_pid _); [|exact I]. destruct (len src <=? ri) eqn:E; [apply err_at; [exact I|lia]|].
    destruct (idx_ok src ri ltac:(lia)) as (x & -> & _). exact I. }
  intros [t1 r1] H1.
  assert (R1 : 0 <= r1 <= len src).
  { destruct (pi_pid _); [|apply ok_pair in H1 as (_ & <-); lia].
    destruct (len src <=? ri) eqn:E; [discriminate|]. apply bind_ok in H1 as (x & _ & H1).
    apply ok_pair in H1 as (_ & <-). lia. }
  apply bind_safe_located.
  { destruct (pi_dcs _); [|exact I]. destruct (len src <=? r1) eqn:E; [apply err_at; [exact I|lia]|].
    destruct (idx_ok src r1 ltac:(lia)) as (x & -> & _). exact I. }
  intros [t2 r2] H2.
  assert (R2 : 0 <= r2 <= len src).
  { destruct (pi_dcs _); [|apply ok_pair in H2 as (_ & <-); lia].
    destruct (len src <=? r1) eqn:E; [discriminate|]. apply bind_ok in H2 as (x & _ & H2).
    apply ok_pair in H2 as (_ & <-). lia. }
  destruct (pi_udl _); [|exact I].
  rewrite slice_from_ok by lia. cbn [bind].
  apply on_err_sub with (n := len src - r2); try lia.
  rewrite <- (len_skipn src r2) by lia. apply decode_ud_safe. now apply Forall_skipn.
Qed.

Lemma unmarshal_command_safe t src : Forall is_byte src -> safe_located (len src) (unmarshal_command t src).
Proof.
  intros HB. unfold unmarshal_command. pose proof (len_nonneg src) as L0.
  apply bind_safe_located; [apply read_byte_safe; lia|].
  intros [x b] HR; apply read_byte_ok in HR.
  apply bind_safe_located; [apply read_byte_safe; subst; pose proof (len_nonneg b); lens; lia|].
  intros [x2 b2] HR2; apply read_byte_ok in HR2.
  apply bind_safe_located; [apply read_byte_safe; subst; pose proof (len_nonneg b2); lens; lia|].
  intros [x3 b3] HR3; apply read_byte_ok in HR3.
  apply bind_safe_located; [apply read_byte_safe; subst; pose proof (len_nonneg b3); lens; lia|].
  intros [x4 b4] HR4; apply read_byte_ok in HR4.
  assert (B4 : Forall is_byte b4). { subst. now do 4 apply Forall_inv_tail in HB. }
  assert (L4 : len src = 4 + len b4) by (subst; lens; lia). pose proof (len_nonneg b4).
  apply bind_safe_located.
  { apply on_err_sub with (n := len b4); try lia. now apply addr_unmarshal_safe. }
  intros [a n] Ha. apply on_err_ok in Ha. apply addr_unmarshal_inv in Ha as (Hn & _); [|assumption].
  assert (L5 : len (buf_next n b4) = len b4 - n) by (apply len_skipn; lia).
  apply on_err_sub with (n := len (buf_next n b4)); try lia.
  apply decode_ud_safe. now apply buf_next_safe.
Qed.

Lemma unmarshal_deliver_safe t src : Forall is_byte src -> safe_located (len src) (unmarshal_deliver t src).
Proof.
  intros HB. unfold unmarshal_deliver. pose proof (len_nonneg src) as L0.
  apply bind_safe_located.
  { apply on_err_sub with (n := len src); try lia. now apply addr_unmarshal_safe. }
  intros [a n] Ha. apply on_err_ok in Ha. apply addr_unmarshal_inv in Ha as (Hn & _); [|assumption].
  rewrite slice_from_ok by lia. cbn [bind].
  set (b := skipn (Z.to_nat n) src). assert (Lb : len b = len src - n) by (apply len_skipn; lia).
  assert (Bb : Forall is_byte b) by now apply Forall_skipn.
  apply bind_safe_located; [apply read_byte_safe; lia|].
  intros [x b1] HR; apply read_byte_ok in HR.
  assert (L1 : len b = 1 + len b1) by (rewrite HR; lens; lia).
  assert (B1 : Forall is_byte b1) by (rewrite HR in Bb; now apply Forall_inv_tail in Bb). pose proof (len_nonneg b1).
  apply bind_safe_located; [apply read_byte_safe; lia|].
  intros [x2 b2] HR2; apply read_byte_ok in HR2.
  assert (L2 : len b1 = 1 + len b2) by (rewrite HR2; lens; lia).
  assert (B2 : Forall is_byte b2) by (rewrite HR2 in B1; now apply Forall_inv_tail in B1).
  pose proof (len_nonneg b2).
  apply bind_safe_located.
  { apply on_err_located with (n := 0); try lia. now apply ts_unmarshal_safe. }
  intros ts Hts. apply on_err_ok, ts_unmarshal_len in Hts.
  assert (L3 : len (buf_next 7 b2) = len b2 - 7) by (apply len_skipn; lia).
  apply on_err_sub with (n := len (buf_next 7 b2)); try lia.
  apply decode_ud_safe. now apply buf_next_safe.
Qed.

Lemma unmarshal_deliver_report_safe t src : Forall is_byte src ->
  safe_located (len src) (unmarshal_deliver_report t src).
Proof.
  intros HB. unfold unmarshal_deliver_report. pose proof (len_nonneg src) as L0.
  destruct (len src <=? 0) eqn:E0; [apply err_at; [exact I|lia]|].
  destruct (idx_ok src 0 ltac:(lia)) as (x & -> & _). cbn [bind].
  destruct (len src <=? 0 + 1) eqn:E1; [apply err_at; [exact I|lia]|].
  destruct (idx_ok src (0 + 1) ltac:(lia)) as (x1 & -> & _). cbn [bind].
  apply unmarshal_optionals_safe; [assumption|lia].
Qed.

Lemma slice_ts_safe src ri n : Forall is_byte src -> 0 <= ri -> ri + 7 <= len src ->
  safe n (s <- slice src ri (ri + 7) ;; ts_unmarshal s).
Proof.
  intros HB H0 H1. rewrite slice_ok by lia. cbn [bind]. apply ts_unmarshal_safe.
  eapply slice_bytes; [exact HB|]. apply slice_ok; lia.
Qed.

Lemma unmarshal_submit_report_safe t src : Forall is_byte src ->
  safe_located (len src) (unmarshal_submit_report t src).
Proof.
  intros HB. unfold unmarshal_submit_report. pose proof (len_nonneg src) as L0.
  destruct (len src <? 1) eqn:E0; [apply err_at; [exact I|lia]|].
  destruct (idx_ok src 0 ltac:(lia)) as (x & -> & _). cbn [bind].
  destruct (len src <=? 0 + 1) eqn:E1; [apply err_at; [exact I|lia]|].
  destruct (idx_ok src (0 + 1) ltac:(lia)) as (x1 & -> & _). cbn [bind].
  destruct (len src <? 0 + 1 + 1 + 7) eqn:E2; [apply err_at; [exact I|lia]|].
  rewrite slice_ok by lia. cbn [bind].
  apply bind_safe_located.
  { apply on_err_located with (n := 0); try lia. apply ts_unmarshal_safe.
    eapply slice_bytes; [exact HB|]. apply slice_ok; lia. }
  intros ts _. apply unmarshal_optionals_safe; [assumption|lia].
Qed.

Lemma unmarshal_status_report_safe t src : Forall is_byte src ->
  safe_located (len src) (unmarshal_status_report t src).
Proof.
  intros HB. unfold unmarshal_status_report. pose proof (len_nonneg src) as L0.
  destruct (len src <=? 0) eqn:E0; [apply err_at; [exact I|lia]|].
  destruct (idx_ok src 0 ltac:(lia)) as (x & -> & _). cbn [bind].
  rewrite slice_from_ok by lia. cbn [bind].
  set (b := skipn (Z.to_nat (0 + 1)) src).
  assert (Lb : len b = len src - 1) by (apply (len_skipn src 1); lia).
  assert (Bb : Forall is_byte b) by now apply Forall_skipn.
  apply bind_safe_located.
  { apply on_err_sub with (n := len b); try lia. now apply addr_unmarshal_safe. }
  intros [a n] Ha. apply on_err_ok in Ha. apply addr_unmarshal_inv in Ha as (Hn & _); [|assumption].
  cbv beta iota zeta.
  destruct (len src <? 0 + 1 + n + 7) eqn:E2; [apply err_at; [exact I|lia]|].
  rewrite slice_ok by lia. cbn [bind].
  apply bind_safe_located.
  { apply on_err_located with (n := 0); try lia. apply ts_unmarshal_safe.
    eapply slice_bytes; [exact HB|]. apply slice_ok; lia. }
  intros ts _. cbv beta zeta.
  destruct (len src <? 0 + 1 + n + 7 + 7) eqn:E3; [apply err_at; [exact I|lia]|].
  rewrite slice_ok by lia. cbn [bind].
  apply bind_safe_located.
  { apply on_err_located with (n := 0); try lia. apply ts_unmarshal_safe.
    eapply slice_bytes; [exact HB|]. apply slice_ok; lia. }
  intros dt _. cbv beta zeta.
  destruct (len src <=? 0 + 1 + n + 7 + 7) eqn:E4; [apply err_at; [exact I|lia]|].
  destruct (idx_ok src (0 + 1 + n + 7 + 7) ltac:(lia)) as (st & -> & _). cbn [bind].
  destruct (0 + 1 + n + 7 + 7 + 1 <? len src) eqn:E5; [|exact I].
  destruct (idx_ok src (0 + 1 + n + 7 + 7 + 1) ltac:(lia)) as (p & -> & _). cbn [bind].
  apply unmarshal_optionals_safe; [assumption|lia].
Qed.

Lemma unmarshal_submit_safe t src : Forall is_byte src ->
  safe_located (len src) (unmarshal_submit t src).
Proof.
  intros HB. unfold unmarshal_submit. pose proof (len_nonneg src) as L0.
  destruct (len src <? 1) eqn:E0; [apply err_at; [exact I|lia]|].
  destruct (idx_ok src 0 ltac:(lia)) as (x & -> & _). cbn [bind].
  rewrite slice_from_ok by lia. cbn [bind].
  set (b := skipn (Z.to_nat 1) src).
  assert (Lb : len b = len src - 1) by (apply (len_skipn src 1); lia).
  assert (Bb : Forall is_byte b) by now apply Forall_skipn.
  apply bind_safe_located.
  { apply on_err_sub with (n := len b); try lia. now apply addr_unmarshal_safe. }
  intros [a n] Ha. apply on_err_ok in Ha. apply addr_unmarshal_inv in Ha as (Hn & _); [|assumption].
  cbv beta iota zeta.
  destruct (len src <=? 1 + n) eqn:E2; [apply err_at; [exact I|lia]|].
  destruct (idx_ok src (1 + n) ltac:(lia)) as (x1 & -> & _). cbn [bind].
  destruct (len src <=? 1 + n + 1) eqn:E3; [apply err_at; [exact I|lia]|].
  destruct (idx_ok src (1 + n + 1) ltac:(lia)) as (x2 & -> & _). cbn [bind].
  rewrite slice_from_ok by lia. cbn [bind].
  set (c := skipn (Z.to_nat (1 + n + 1 + 1)) src).
  assert (Lc : len c = len src - (1 + n + 1 + 1)) by (apply len_skipn; lia).
  assert (Bc : Forall is_byte c) by now apply Forall_skipn.
  apply bind_safe_located.
  { apply on_err_located with (n := len c); try lia. now apply vp_unmarshal_safe. }
  intros [v m] Hv. apply on_err_ok in Hv. apply vp_unmarshal_size in Hv as (Hm & _).
  cbv beta iota zeta. rewrite slice_from_ok by lia. cbn [bind].
  apply on_err_sub with (n := len src - (1 + n + 1 + 1 + m)); try lia.
  rewrite <- (len_skipn src) by lia. apply decode_ud_safe. now apply Forall_skipn.
Qed.

Lemma tpdu_unmarshal_safe t src : Forall is_byte src -> safe_located (len src) (tpdu_unmarshal t src).
Proof.
  intros HB. unfold tpdu_unmarshal. pose proof (len_nonneg src) as L0.
  destruct (len src <? 1) eqn:E0; [apply err_at; [exact I|lia]|].
  destruct (idx_ok src 0 ltac:(lia)) as (fo & -> & _). cbn [bind].
  rewrite slice_from_ok by lia. cbn [bind]. cbv zeta.
  set (s := skipn (Z.to_nat 1) src).
  assert (Ls : len s = len src - 1) by (apply (len_skipn src 1); lia).
  assert (Bs : Forall is_byte s) by now apply Forall_skipn.
  assert (HW : forall r f, safe_located (len s) r ->
     safe_located (len src) (@on_err tpdu r (new_decode_error f 1))).
  { intros r f H. apply on_err_sub with (n := len s); try lia. assumption. }
  repeat match goal with |- safe_located _ (if ?b then _ else _) => destruct b end;
    try (apply err_at; [exact I|lia]); apply HW;
    auto using unmarshal_deliver_safe, unmarshal_deliver_report_safe, unmarshal_submit_report_safe,
      unmarshal_submit_safe, unmarshal_status_report_safe, unmarshal_command_safe.
Qed.

(** ** Accounting for every octet: what an accepted input and an accepted
    extension of it have in common. *)

Definition same_no_ud (t t1 t2 : tpdu) : Prop := t1 = t2 /\ UD t1 = UD t /\ UDH t1 = UDH t.

Lemma ud_ext t s ext t1 t2 f1 f2 :
  on_err (decode_ud t s) f1 = Ok t1 -> on_err (decode_ud t (s ++ ext)) f2 = Ok t2 -> ext <> [] ->
  t1 = t /\ t2 = t.
Proof. intros H1 H2. apply on_err_ok in H1, H2. now apply decode_ud_exact with (s := s) (ext := ext). Qed.

Lemma unmarshal_submit_ext t p ext t1 t2 : Forall is_byte p ->
  unmarshal_submit t p = Ok t1 -> unmarshal_submit t (p ++ ext) = Ok t2 -> ext <> [] ->
  same_no_ud t t1 t2.
Proof.
  intros HB H1 H2 NE. unfold unmarshal_submit in *. rewrite len_app in H2.
  pose proof (len_nonneg ext) as L0. pose proof (len_nonneg p).
  destruct (len p <? 1) eqn:E0; [discriminate|].
  replace (len p + len ext <? 1) with false in H2 by lia. rewrite idx_app_l in H2 by lia.
  apply bind_ok in H1 as (x & Ex & H1). rewrite Ex in H2. cbn [bind] in H2. cbv zeta in H1.
  apply bind_ok in H1 as (s & Es & H1). rewrite (slice_from_app_l _ _ _ _ Es) in H2. cbn [bind] in H2.
  apply bind_ok in H1 as ([a n] & Ea & H1). apply on_err_ok in Ea.
  rewrite (addr_unmarshal_local _ _ _ ext Ea) in H2. cbn [on_err bind] in H2.
  pose proof (slice_from_bytes _ _ _ HB Es) as Bs.
  apply slice_from_inv in Es as (_ & _ & Ls).
  apply addr_unmarshal_inv in Ea as (Hn & _); [|assumption].
  destruct (len p <=? 1 + n) eqn:E1; [discriminate|].
  replace (len p + len ext <=? 1 + n) with false in H2 by lia. rewrite idx_app_l in H2 by lia.
  apply bind_ok in H1 as (x1 & Ex1 & H1). rewrite Ex1 in H2. cbn [bind] in H2.
  destruct (len p <=? 1 + n + 1) eqn:E2; [discriminate|].
  replace (len p + len ext <=? 1 + n + 1) with false in H2 by lia. rewrite idx_app_l in H2 by lia.
  apply bind_ok in H1 as (x2 & Ex2 & H1). rewrite Ex2 in H2. cbn [bind] in H2.
  apply bind_ok in H1 as (s2 & Es2 & H1). rewrite (slice_from_app_l _ _ _ _ Es2) in H2. cbn [bind] in H2.
  apply bind_ok in H1 as ([v m] & Ev & H1). apply on_err_ok in Ev.
  rewrite (vp_unmarshal_local _ _ _ ext _ Ev) in H2. cbn [on_err bind] in H2.
  apply bind_ok in H1 as (s3 & Es3 & H1). rewrite (slice_from_app_l _ _ _ _ Es3) in H2. cbn [bind] in H2.
  destruct (ud_ext _ _ _ _ _ _ _ H1 H2 NE) as (-> & ->).
  unfold same_no_ud. split; [reflexivity|]. dtpdu t. split; reflexivity.
Qed.

Lemma buf_next_app_l n (a b : bytes) : 0 <= n <= len a -> buf_next n (a ++ b) = buf_next n a ++ b.
Proof. intros H. unfold buf_next. apply skipn_app_le. unfold len in H. lia. Qed.

Lemma unmarshal_deliver_ext t p ext t1 t2 : Forall is_byte p ->
  unmarshal_deliver t p = Ok t1 -> unmarshal_deliver t (p ++ ext) = Ok t2 -> ext <> [] ->
  same_no_ud t t1 t2.
Proof.
  intros HB H1 H2 NE. unfold unmarshal_deliver in *.
  apply bind_ok in H1 as ([a n] & Ea & H1). apply on_err_ok in Ea.
  rewrite (addr_unmarshal_local _ _ _ ext Ea) in H2. cbn [on_err bind] in H2.
  apply bind_ok in H1 as (s & Es & H1). rewrite (slice_from_app_l _ _ _ _ Es) in H2. cbn [bind] in H2.
  apply bind_ok in H1 as ([x b1] & Ex & H1). apply read_byte_ok in Ex. subst s. cbn [app read_byte bind] in H2.
  apply bind_ok in H1 as ([x2 b2] & Ex2 & H1). apply read_byte_ok in Ex2. subst b1.
  cbn [app read_byte bind] in H2.
  apply bind_ok in H1 as (ts & Ets & H1). apply on_err_ok in Ets.
  rewrite (ts_unmarshal_local _ ext _ Ets) in H2. cbn [on_err bind] in H2.
  apply ts_unmarshal_len in Ets. rewrite buf_next_app_l in H2 by lia.
  destruct (ud_ext _ _ _ _ _ _ _ H1 H2 NE) as (-> & ->).
  unfold same_no_ud. split; [reflexivity|]. dtpdu t. split; reflexivity.
Qed.

Lemma unmarshal_command_ext t p ext t1 t2 : Forall is_byte p ->
  unmarshal_command t p = Ok t1 -> unmarshal_command t (p ++ ext) = Ok t2 -> ext <> [] ->
  same_no_ud t t1 t2.
Proof.
  intros HB H1 H2 NE. unfold unmarshal_command in *.
  apply bind_ok in H1 as ([x b] & Ex & H1). apply read_byte_ok in Ex. subst p. cbn [app read_byte bind] in H2.
  apply bind_ok in H1 as ([x2 b2] & Ex & H1). apply read_byte_ok in Ex. subst b. cbn [app read_byte bind] in H2.
  apply bind_ok in H1 as ([x3 b3] & Ex & H1). apply read_byte_ok in Ex. subst b2. cbn [app read_byte bind] in H2.
  apply bind_ok in H1 as ([x4 b4] & Ex & H1). apply read_byte_ok in Ex. subst b3. cbn [app read_byte bind] in H2.
  apply bind_ok in H1 as ([a n] & Ea & H1). apply on_err_ok in Ea.
  rewrite (addr_unmarshal_local _ _ _ ext Ea) in H2. cbn [on_err bind] in H2.
  do 4 apply Forall_inv_tail in HB.
  apply addr_unmarshal_inv in Ea as (Hn & _); [|assumption]. rewrite buf_next_app_l in H2 by lia.
  destruct (ud_ext _ _ _ _ _ _ _ H1 H2 NE) as (-> & ->).
  unfold same_no_ud. split; [reflexivity|]. dtpdu t. split; reflexivity.
Qed.

Lemma unmarshal_optionals_ext t p ext ri t1 t2 : 0 <= ri <= len p ->
  unmarshal_optionals t p ri = Ok t1 -> unmarshal_optionals t (p ++ ext) ri = Ok t2 -> ext <> [] ->
  same_no_ud t t1 t2.
Proof.
  intros HR H1 H2 NE. unfold unmarshal_optionals in *. rewrite len_app in H2.
  pose proof (len_nonneg ext) as L0.
  apply bind_ok in H1 as ([u1 r1] & E1 & H1).
  assert (F1 : (if pi_pid (PI t) then if len p + len ext <=? ri then Err (new_decode_error "pid" ri ErrUnderflow)
       else x <- idx (p ++ ext) ri ;; Ok (set_PIDf t x, ri + 1) else Ok (t, ri)) = Ok (u1, r1) /\
       0 <= r1 <= len p /\ UD u1 = UD t /\ UDH u1 = UDH t).
  { destruct (pi_pid (PI t)); [|apply ok_pair in E1 as (<- & <-); repeat split; lia].
    destruct (len p <=? ri) eqn:E; [discriminate|].
    replace (len p + len ext <=? ri) with false by lia. rewrite idx_app_l by lia.
    split; [exact E1|]. apply bind_ok in E1 as (x & _ & E1). apply ok_pair in E1 as (<- & <-).
    dtpdu t; repeat split; lia. }
  destruct F1 as (F1 & R1 & U1 & V1). rewrite F1 in H2. cbn [bind] in H2.
  apply bind_ok in H1 as ([u2 r2] & E2 & H1).
  assert (F2 : (if pi_dcs (PI u1) then if len p + len ext <=? r1 then Err (new_decode_error "dcs" r1 ErrUnderflow)
       else x <- idx (p ++ ext) r1 ;; Ok (set_DCSf u1 x, r1 + 1) else Ok (u1, r1)) = Ok (u2, r2) /\
       0 <= r2 <= len p /\ UD u2 = UD t /\ UDH u2 = UDH t).
  { destruct (pi_dcs (PI u1)); [|apply ok_pair in E2 as (<- & <-); repeat split; auto; lia].
    destruct (len p <=? r1) eqn:E; [discriminate|].
    replace (len p + len ext <=? r1) with false by lia. rewrite idx_app_l by lia.
    split; [exact E2|]. apply bind_ok in E2 as (x & _ & E2). apply ok_pair in E2 as (<- & <-).
    clear - U1 V1 E R1. dtpdu u1; repeat split; auto; lia. }
  destruct F2 as (F2 & R2 & U2 & V2). rewrite F2 in H2. cbn [bind] in H2.
  destruct (pi_udl (PI u2)).
  - apply bind_ok in H1 as (s3 & Es3 & H1). rewrite (slice_from_app_l _ _ _ _ Es3) in H2. cbn [bind] in H2.
    destruct (ud_ext _ _ _ _ _ _ _ H1 H2 NE) as (-> & ->). repeat split; assumption.
  - apply ok_inj in H1, H2. subst. repeat split; assumption.
Qed.

Lemma unmarshal_deliver_report_ext t p ext t1 t2 :
  unmarshal_deliver_report t p = Ok t1 -> unmarshal_deliver_report t (p ++ ext) = Ok t2 -> ext <> [] ->
  same_no_ud t t1 t2.
Proof.
  intros H1 H2 NE. unfold unmarshal_deliver_report in *. rewrite len_app in H2.
  pose proof (len_nonneg ext) as L0.
  destruct (len p <=? 0) eqn:E0; [discriminate|].
  replace (len p + len ext <=? 0) with false in H2 by lia. rewrite idx_app_l in H2 by lia.
  apply bind_ok in H1 as (x & Ex & H1). rewrite Ex in H2. cbn [bind] in H2.
  destruct (len p <=? 0 + 1) eqn:E1; [discriminate|].
  replace (len p + len ext <=? 0 + 1) with false in H2 by lia. rewrite idx_app_l in H2 by lia.
  apply bind_ok in H1 as (x2 & Ex2 & H1). rewrite Ex2 in H2. cbn [bind] in H2.
  match type of H1 with unmarshal_optionals _ _ ?r = _ => assert (HR : 0 <= r <= len p) by lia end.
  destruct (unmarshal_optionals_ext _ _ _ _ _ _ HR H1 H2 NE) as (-> & U & V).
  unfold same_no_ud. rewrite U, V. dtpdu t. repeat split.
Qed.

Lemma unmarshal_submit_report_ext t p ext t1 t2 :
  unmarshal_submit_report t p = Ok t1 -> unmarshal_submit_report t (p ++ ext) = Ok t2 -> ext <> [] ->
  same_no_ud t t1 t2.
Proof.
  intros H1 H2 NE. unfold unmarshal_submit_report in *. rewrite len_app in H2.
  pose proof (len_nonneg ext) as L0.
  destruct (len p <? 1) eqn:E0; [discriminate|].
  replace (len p + len ext <? 1) with false in H2 by lia. rewrite idx_app_l in H2 by lia.
  apply bind_ok in H1 as (x & Ex & H1). rewrite Ex in H2. cbn [bind] in H2.
  destruct (len p <=? 0 + 1) eqn:E1; [discriminate|].
  replace (len p + len ext <=? 0 + 1) with false in H2 by lia. rewrite idx_app_l in H2 by lia.
  apply bind_ok in H1 as (x2 & Ex2 & H1). rewrite Ex2 in H2. cbn [bind] in H2.
  destruct (len p <? 0 + 1 + 1 + 7) eqn:E2; [discriminate|].
  replace (len p + len ext <? 0 + 1 + 1 + 7) with false in H2 by lia.
  rewrite slice_app_l in H2 by lia.
  apply bind_ok in H1 as (s & Es & H1). rewrite Es in H2. cbn [bind] in H2.
  apply bind_ok in H1 as (ts & Ets & H1). rewrite Ets in H2. cbn [bind] in H2.
  match type of H1 with unmarshal_optionals _ _ ?r = _ => assert (HR : 0 <= r <= len p) by lia end.
  destruct (unmarshal_optionals_ext _ _ _ _ _ _ HR H1 H2 NE) as (-> & U & V).
  unfold same_no_ud. rewrite U, V. dtpdu t. repeat split.
Qed.

(** A status report may end before its PI octet. *)
Lemma unmarshal_status_report_ext t p ext t1 t2 : Forall is_byte p ->
  unmarshal_status_report t p = Ok t1 -> unmarshal_status_report t (p ++ ext) = Ok t2 -> ext <> [] ->
  same_no_ud t t1 t2 \/
  (tpdu_type t1 = tpdu_type t /\ UD t1 = UD t /\ UDH t1 = UDH t /\ exists n, addr_unmarshal (skipn 1 p) = Ok (RA t1, n) /\
     len p = n + 16).
Proof.
  intros HB H1 H2 NE. unfold unmarshal_status_report in *. rewrite len_app in H2.
  pose proof (len_nonneg ext) as L0.
  destruct (len p <=? 0) eqn:E0; [discriminate|].
  replace (len p + len ext <=? 0) with false in H2 by lia. rewrite idx_app_l in H2 by lia.
  apply bind_ok in H1 as (x & Ex & H1). rewrite Ex in H2. cbn [bind] in H2. cbv zeta in H1, H2.
  apply bind_ok in H1 as (s & Es & H1). rewrite (slice_from_app_l _ _ _ _ Es) in H2. cbn [bind] in H2.
  apply bind_ok in H1 as ([a n] & Ea & H1). apply on_err_ok in Ea.
  rewrite (addr_unmarshal_local _ _ _ ext Ea) in H2. cbn [on_err bind] in H2.
  pose proof (slice_from_bytes _ _ _ HB Es) as Bs.
  apply slice_from_inv in Es as (_ & Es & Ls). rewrite Es in Ea. pose proof Ea as Ea0.
  rewrite <- Es in Ea.
  apply addr_unmarshal_inv in Ea as (Hn & _); [|assumption].
  destruct (len p <? 0 + 1 + n + 7) eqn:E2; [discriminate|].
  replace (len p + len ext <? 0 + 1 + n + 7) with false in H2 by lia.
  rewrite slice_app_l in H2 by lia.
  apply bind_ok in H1 as (s1 & Es1 & H1). rewrite Es1 in H2. cbn [bind] in H2.
  apply bind_ok in H1 as (ts & Ets & H1). rewrite Ets in H2. cbn [bind] in H2.
  destruct (len p <? 0 + 1 + n + 7 + 7) eqn:E3; [discriminate|].
  replace (len p + len ext <? 0 + 1 + n + 7 + 7) with false in H2 by lia.
  rewrite slice_app_l in H2 by lia.
  apply bind_ok in H1 as (s2 & Es2 & H1). rewrite Es2 in H2. cbn [bind] in H2.
  apply bind_ok in H1 as (dt & Edt & H1). rewrite Edt in H2. cbn [bind] in H2.
  destruct (len p <=? 0 + 1 + n + 7 + 7) eqn:E4; [discriminate|].
  replace (len p + len ext <=? 0 + 1 + n + 7 + 7) with false in H2 by lia. rewrite idx_app_l in H2 by lia.
  apply bind_ok in H1 as (st & Est & H1). rewrite Est in H2. cbn [bind] in H2.
  destruct (0 + 1 + n + 7 + 7 + 1 <? len p) eqn:E5.
  - left. replace (0 + 1 + n + 7 + 7 + 1 <? len p + len ext) with true in H2 by lia.
    rewrite idx_app_l in H2 by lia.
    apply bind_ok in H1 as (x2 & Ex2 & H1). rewrite Ex2 in H2. cbn [bind] in H2.
    match type of H1 with unmarshal_optionals _ _ ?r = _ => assert (HR : 0 <= r <= len p) by lia end.
  destruct (unmarshal_optionals_ext _ _ _ _ _ _ HR H1 H2 NE) as (-> & U & V).
    unfold same_no_ud. rewrite U, V. dtpdu t. repeat split.
  - right. apply ok_inj in H1. subst t1.
    split; [now dtpdu t|]. split; [now dtpdu t|]. split; [now dtpdu t|].
    exists n. split; [|lia]. change (Z.to_nat (0 + 1)) with 1%nat in Ea0. rewrite Ea0. dtpdu t. reflexivity.
Qed.

Lemma tpdu_unmarshal_ext t p ext t1 t2 : Forall is_byte p ->
  tpdu_unmarshal t p = Ok t1 -> tpdu_unmarshal t (p ++ ext) = Ok t2 -> ext <> [] ->
  same_no_ud t t1 t2 \/
  (tpdu_type t1 = SmsStatusReport /\ UD t1 = UD t /\ UDH t1 = UDH t /\
   exists n, addr_unmarshal (skipn 2 p) = Ok (RA t1, n) /\ len p = n + 17).
Proof.
  intros HB H1 H2 NE. unfold tpdu_unmarshal in *. rewrite len_app in H2.
  pose proof (len_nonneg ext) as L0. pose proof (len_nonneg p).
  destruct (len p <? 1) eqn:E0; [discriminate|].
  replace (len p + len ext <? 1) with false in H2 by lia. rewrite idx_app_l in H2 by lia.
  apply bind_ok in H1 as (x & Ex & H1). rewrite Ex in H2. cbn [bind] in H2. cbv zeta in H1.
  apply bind_ok in H1 as (s & Es & H1). rewrite (slice_from_app_l _ _ _ _ Es) in H2. cbn [bind] in H2.
  pose proof (slice_from_bytes _ _ _ HB Es) as Bs.
  apply slice_from_inv in Es as (_ & Es & Ls). change (Z.to_nat 1) with 1%nat in Es.
  assert (FX : forall u1 u2, same_no_ud (set_FO t x) u1 u2 -> same_no_ud t u1 u2).
  { intros u1 u2 (A & B & C). unfold same_no_ud. rewrite B, C. dtpdu t. repeat split; assumption. }
  destruct (_ =? SmsDeliver).
  { left. apply FX. apply on_err_ok in H1, H2. now apply (unmarshal_deliver_ext _ s ext). }
  destruct (_ =? SmsDeliverReport).
  { left. apply FX. apply on_err_ok in H1, H2. now apply (unmarshal_deliver_report_ext _ s ext). }
  destruct (_ =? SmsSubmitReport).
  { left. apply FX. apply on_err_ok in H1, H2. now apply (unmarshal_submit_report_ext _ s ext). }
  destruct (_ =? SmsSubmit).
  { left. apply FX. apply on_err_ok in H1, H2. now apply (unmarshal_submit_ext _ s ext). }
  destruct (_ =? SmsStatusReport) eqn:ES.
  { apply on_err_ok in H1, H2.
    destruct (unmarshal_status_report_ext _ s ext t1 t2 Bs H1 H2 NE) as [HS|(ET & U & V & n & Ea & Ln)].
    - left. now apply FX.
    - right. split; [lia|].
      split; [rewrite U; now dtpdu t|]. split; [rewrite V; now dtpdu t|].
      exists n. subst s. split; [|lia]. destruct p as [|a p]; [discriminate|]. exact Ea. }
  destruct (_ =? SmsCommand).
  { left. apply FX. apply on_err_ok in H1, H2. now apply (unmarshal_command_ext _ s ext). }
  discriminate.
Qed.

(** ** The type of the result is the type announced by the first octet. *)

Definition keeps (t t1 : tpdu) : Prop := FO t1 = FO t /\ Direction t1 = Direction t.

Ltac inv_ok H :=
  repeat (cbv zeta in H;
    match type of H with
    | bind _ _ = Ok _ => let x := fresh "x" in let E := fresh "E" in apply bind_ok in H as (x & E & H)
    | (let '(_, _) := ?x in _) = Ok _ => destruct x
    | (if ?c then _ else _) = Ok _ => destruct c
    | on_err _ _ = Ok _ => apply on_err_ok in H
    | Err _ = Ok _ => discriminate
    | Panic = Ok _ => discriminate
    end).

Lemma decode_ud_keeps t s t1 : decode_ud t s = Ok t1 -> keeps t t1.
Proof.
  intros H. unfold decode_ud in H. inv_ok H; apply ok_inj in H; subst t1; clear; dtpdu t; now split.
Qed.
Lemma unmarshal_optionals_keeps t s ri t1 : unmarshal_optionals t s ri = Ok t1 -> keeps t t1.
Proof.
  intros H. unfold unmarshal_optionals in H.
  apply bind_ok in H as ([u1 r1] & E1 & H). assert (K1 : keeps t u1).
  { inv_ok E1; apply ok_pair in E1 as (<- & _); clear; dtpdu t; now split. }
  apply bind_ok in H as ([u2 r2] & E2 & H). assert (K2 : keeps u1 u2).
  { inv_ok E2; apply ok_pair in E2 as (<- & _); clear; dtpdu u1; now split. }
  assert (K3 : keeps u2 t1).
  { inv_ok H; [now apply decode_ud_keeps in H|apply ok_inj in H; subst; now split]. }
  unfold keeps in *. intuition congruence.
Qed.
Lemma keeps_trans a b c : keeps a b -> keeps b c -> keeps a c.
Proof. unfold keeps. intuition congruence. Qed.

Lemma unmarshal_keeps t s t1 :
  (unmarshal_deliver t s = Ok t1 \/ unmarshal_deliver_report t s = Ok t1 \/ unmarshal_submit_report t s = Ok t1 \/
   unmarshal_submit t s = Ok t1 \/ unmarshal_status_report t s = Ok t1 \/ unmarshal_command t s = Ok t1) ->
  keeps t t1.
Proof.
  intros [H|[H|[H|[H|[H|H]]]]];
  [unfold unmarshal_deliver in H|unfold unmarshal_deliver_report in H|unfold unmarshal_submit_report in H
  |unfold unmarshal_submit in H|unfold unmarshal_status_report in H|unfold unmarshal_command in H]; inv_ok H;
  match type of H with
  | decode_ud _ _ = _ => apply decode_ud_keeps in H
  | unmarshal_optionals _ _ _ = _ => apply unmarshal_optionals_keeps in H
  | _ => apply ok_inj in H; subst t1
  end; try (eapply keeps_trans; [|exact H]); clear; dtpdu t; now split.
Qed.

Lemma tpdu_unmarshal_type t p t1 : tpdu_unmarshal t p = Ok t1 ->
  Direction t1 = Direction t /\ idx p 0 = Ok (FO t1).
Proof.
  intros H. unfold tpdu_unmarshal in H. destruct (len p <? 1); [discriminate|].
  apply bind_ok in H as (x & Ex & H). cbv zeta in H. apply bind_ok in H as (s & Es & H).
  assert (K : keeps (set_FO t x) t1).
  { apply (unmarshal_keeps _ s). inv_ok H; tauto. }
  destruct K as (K1 & K2). rewrite K1, K2, Ex. clear. dtpdu t. now split.
Qed.

(** A non-zero length octet fixes the number of octets. *)
Lemma decode_ud_length t udl s t1 : decode_ud t (udl :: s) = Ok t1 -> udl <> 0 ->
  exists a, tpdu_alphabet t = Ok a /\ len s = if a =? Alpha7Bit then (udl * 7 + 7) / 8 else udl.
Proof.
  intros H NZ. unfold decode_ud in H. rewrite len_cons in H. pose proof (len_nonneg s).
  replace (1 + len s <? 1) with false in H by lia. rewrite idx_0 in H. cbn [bind] in H.
  replace (udl =? 0) with false in H by lia. cbv zeta in H.
  apply bind_ok in H as (a & Ea & H). apply on_err_ok in Ea. exists a. split; [assumption|].
  destruct (1 + len s <? _) eqn:E1 in H; [discriminate|].
  destruct (_ <? 1 + len s) eqn:E2 in H; [discriminate|].
  destruct (a =? Alpha7Bit); lia.
Qed.
