(** Lemmas for smscounter. *)
From Verif Require Import GoBase GoLemmas SafeLemmas Utf Ucs2 UtfProofs SpecText Charset CharsetProofs Gsm7 Dcs FirstOctet
  UserData Tpdu Segment SegmentProofs SegmentOptProofs SegmentFitProofs SpecSegTpdu Sms SpecSelect SpecDcs UserDataProofs
  FlagsProofs SpecSms SmsProofs SpecSegment EncodeProofs Cmd.

Lemma septets_length l s : forall rs ud, gsm7_encode_runes (oenc l s) rs = Ok ud ->
  len ud = sum (map (fun r => if covers (new_encoder l) r then 1 else 2) rs).
Proof.
  induction rs as [|r rs IH]; intros ud H; cbn [gsm7_encode_runes] in H.
  { injection H as <-. reflexivity. }
  cbn [map sum fold_right]. unfold covers at 1.
  change (ge_set (oenc l s)) with (new_encoder l) in H.
  destruct (assoc (new_encoder l) r).
  - apply bind_ok in H as (x & Hx & H). injection H as <-. rewrite len_cons, (IH _ Hx). reflexivity.
  - destruct (assoc (ge_ext (oenc l s)) r); [|discriminate].
    apply bind_ok in H as (x & Hx & H). injection H as <-. rewrite !len_cons, (IH _ Hx). unfold sum. lia.
Qed.
Lemma units_length : forall rs, Forall scalar rs ->
  len (ucs2_encode rs) = 2 * sum (map (fun r => if r <? 65536 then 1 else 2) rs).
Proof.
  unfold ucs2_encode, utf16_encode. induction 1 as [|r rs Hr _ IH]; [reflexivity|].
  cbn [flat_map map sum fold_right]. rewrite flat_map_app, len_app, IH.
  unfold utf16_encode_rune, in_range. unfold scalar in Hr.
  destruct (r <? 65536) eqn:E.
  - btrue ((0 <=? r) && (r <=? 55295) || (57344 <=? r) && (r <=? 65535)).
    cbn [flat_map app]. rewrite !len_cons, len_nil. unfold sum. lia.
  - bfalse ((0 <=? r) && (r <=? 55295) || (57344 <=? r) && (r <=? 65535)).
    btrue ((65536 <=? r) && (r <=? 1114111)).
    cbn [flat_map app]. rewrite !len_cons, len_nil. unfold sum. lia.
Qed.
Lemma sum_pos f (rs : list Z) : (forall r, 1 <= f r) -> rs <> [] -> 1 <= sum (map f rs).
Proof.
  intros Hf. induction rs as [|r rs IH]; [congruence|]. intros _. cbn [map sum fold_right].
  destruct rs as [|r' rs]; [cbn; specialize (Hf r); lia|].
  specialize (IH ltac:(discriminate)). specialize (Hf r). unfold sum in *. lia.
Qed.
Lemma septets_escapes l s : forall rs ud, gsm7_encode_runes (oenc l s) rs = Ok ud ->
  existsb (Z.eqb 27) ud =
  existsb (fun r => match assoc (new_encoder l) r with Some c => c =? 27 | None => true end) rs.
Proof.
  induction rs as [|r rs IH]; intros ud H; cbn [gsm7_encode_runes] in H.
  { injection H as <-. reflexivity. }
  cbn [existsb]. change (ge_set (oenc l s)) with (new_encoder l) in H.
  destruct (assoc (new_encoder l) r).
  - apply bind_ok in H as (x & Hx & H). injection H as <-. cbn [existsb]. rewrite (IH _ Hx), Z.eqb_sym. reflexivity.
  - destruct (assoc (ge_ext (oenc l s)) r); [|discriminate].
    apply bind_ok in H as (x & Hx & H). injection H as <-. reflexivity.
Qed.

Lemma runes_of_nil s : Forall is_byte s -> s <> [] -> runes_of s <> [].
Proof. intros HB HN. destruct (runes_of_step s HB HN) as (r & s' & -> & _). discriminate. Qed.

(** Segments of a message share their block size. *)
Lemma segment_sizes t msg cfg segs s s' : segment t msg cfg = Ok segs -> In s segs -> In s' segs ->
  ud_block_size s = ud_block_size s'.
Proof.
  intros H Hs Hs'. destruct (segment_cases _ _ _ _ H) as [(-> & ->)|[(NE & L & ->)|(NE & L & cs & Hc & ->)]].
  - contradiction.
  - destruct Hs as [<-|[]], Hs' as [<-|[]]. reflexivity.
  - apply make_segments_In in Hs as (k & c & _ & ->). apply make_segments_In in Hs' as (k' & c' & _ & ->).
    now rewrite !make_segment_size.
Qed.
Lemma sum_UD segs b : (forall s, In s segs -> len (UD s) <= b) -> forall l,
  len (concat (map UD (segs ++ [l]))) <= b * len segs + len (UD l).
Proof.
  induction segs as [|s segs IH]; intros H l.
  - cbn [app map concat]. rewrite app_nil_r, len_nil. lia.
  - cbn [app map concat]. rewrite len_app, len_cons.
    pose proof (H s (or_introl eq_refl)). specialize (IH (fun x Hx => H x (or_intror Hx)) l). nia.
Qed.

Lemma existsb_concat (f : Z -> bool) pdus :
  existsb (fun p => existsb f (UD p)) pdus = existsb f (concat (map UD pdus)).
Proof. induction pdus as [|p pdus IH]; [reflexivity|]. cbn [existsb map concat]. rewrite existsb_app, IH. reflexivity. Qed.

(** The template of Encode with no options but character sets. *)
Definition plain_submit : tpdu := set_FO (set_Direction zero_tpdu 1) 1.
Definition count_encoder (nli : Z) : sms_encoder :=
  {| e_eopts := language_opts nli; e_pdu := plain_submit; e_msg_count := 0; e_concat_ref := 0 |}.

Lemma udhl_ids l h : map (fun i => (ie_id i, ie_data i)) l = h ->
  udhl l = sum (map (fun x => 2 + len (snd x)) h).
Proof. intros <-. induction l as [|i l IH]; [reflexivity|]. cbn [udhl map sum fold_right snd] in *. rewrite IH. reflexivity. Qed.
Lemma choice_header_small c : 0 <= sum (map (fun x => 2 + len (snd x)) (choice_header c)) <= 6.
Proof. destruct c; cbn; lia. Qed.

Lemma count_encode msg nli : Forall is_byte msg -> msg <> [] ->
  exists t ud pdus, encode msg (count_opts nli) = Ok pdus /\
    segment t ud (encoder_seg_cfg (count_encoder nli)) = Ok pdus /\
    dcs_alpha (DCS t) = choice_alpha (choose msg (language_opts nli)) /\
    ud <> [] /\
    match choice_tables (choose msg (language_opts nli)) with
    | Some (l, s) => gsm7_encode (oenc l s) msg = Ok ud
    | None => ud = ucs2_encode (runes_of msg)
    end.
Proof.
  intros HB HN. unfold encode.
  assert (EE : sms_new_encoder (AsSubmit :: count_opts nli) = count_encoder nli).
  { unfold count_opts, count_encoder, language_opts. destruct (nli =? 0); reflexivity. }
  rewrite EE. unfold encoder_encode. cbn [fold_left].
  pose proof (prepare_cases (count_encoder nli) msg) as HP.
  change (DCS (e_pdu (count_encoder nli))) with 0 in HP. specialize (HP ltac:(unfold is_byte; lia)).
  change (given_encoded 0) with false in HP. cbv iota in HP.
  change (e_eopts (count_encoder nli)) with (language_opts nli) in HP.
  destruct (encode_user_data msg (language_opts nli)) as [[ud h] a] eqn:EU.
  destruct HP as [HC HP].
  assert (alphabet_expressible (coding_group 0) (choice_alpha (choose msg (language_opts nli))) = true) as EX
    by (destruct (choose _ _); reflexivity).
  rewrite EX in HP. destruct HP as (t & ET & HA & HBt & _ & HU & HF & _ & HT).
  assert (HCu : match choice_tables (choose msg (language_opts nli)) with
    | Some (l, s) => gsm7_encode (oenc l s) msg = Ok ud
    | None => ud = ucs2_encode (runes_of msg)
    end).
  { destruct HC as [_ HC]. destruct (choice_tables _) as [[l s]|]; [|tauto]. destruct HC as [_ HC]. exact HC. }
  assert (HL : udhl (ies (UDH t)) <= 119).
  { rewrite HU. unfold prep_header. destruct h as [l|]; [|cbn; lia]. destruct HC as [HC _].
    cbn [ies] in *. rewrite (udhl_ids _ _ HC). pose proof (choice_header_small (choose msg (language_opts nli))). lia. }
  assert (HTy : tpdu_type t = SmsSubmit).
  { unfold tpdu_type. rewrite HT. cbn [FO Direction]. rewrite HF. destruct h; reflexivity. }
  destruct (segment_total t ud (encoder_seg_cfg (count_encoder nli))) as (pdus & HS).
  { left. pose proof (multi_size_room t (sc_wide (encoder_seg_cfg (count_encoder nli)))) as HM.
    rewrite HTy in HM. unfold SmsSubmit, SmsCommand in HM. specialize (HM ltac:(lia) ltac:(lia) HL).
    pose proof (largest_unit_4 (dcs_alpha (DCS t))). lia. }
  exists t, ud, pdus. rewrite ET. cbn [bind]. rewrite HS. cbn [bind].
  split; [reflexivity|]. split; [reflexivity|]. split.
  { rewrite (dcs_alpha_spec _ HBt), HA. destruct (choose _ _); reflexivity. }
  split; [|exact HCu].
  assert (1 <= len ud); [|intros ->; rewrite len_nil in *; lia].
  pose proof (runes_of_nil _ HB HN) as HR.
  destruct (choice_tables _) as [[l s]|].
  - rewrite (septets_length l s (runes_of msg) ud HCu). apply sum_pos; [|exact HR].
    intros r. destruct (covers _ r); lia.
  - rewrite HCu, units_length by (now apply runes_of_scalar).
    assert (1 <= sum (map (fun r => if r <? 65536 then 1 else 2) (runes_of msg))).
    { apply sum_pos; [|exact HR]. intros r. destruct (r <? 65536); lia. }
    lia.
Qed.

Lemma new_count_spec msg nli : Forall is_byte msg -> msg <> [] ->
  exists pdus k, encode msg (count_opts nli) = Ok pdus /\ new_count msg nli = Ok k /\
    k_messages k = len pdus /\ 1 <= k_messages k /\ 1 <= k_llen k <= k_pdulen k /\
    k_remaining k = k_pdulen k - k_llen k /\
    real_length msg (language_opts nli) <= k_tlen k /\
    k_tlen k = k_pdulen k * (k_messages k - 1) + k_llen k /\
    (k_messages k = 1 -> k_tlen k = real_length msg (language_opts nli)) /\
    k_encoding k = encoding_name msg (language_opts nli).
Proof.
  intros HB HN. destruct (count_encode msg nli HB HN) as (t & ud & pdus & HE & HS & HA & HU & HC).
  destruct (segment_lossless _ _ _ _ HS) as (HL1 & HL2 & _).
  assert (HP : pdus <> []) by (intros ->; cbn in HL1; congruence).
  assert (HAll : forall s, In s pdus -> DCS s = DCS t).
  { intros s Hs. apply In_nth_error in Hs as (k & Hk). pose proof (segment_inherits _ _ _ _ HS k s Hk) as HI.
    unfold inherits in HI. tauto. }
  destruct (exists_last HP) as (front & lst & EP).
  assert (Hlst : In lst pdus) by (rewrite EP; apply in_or_app; right; left; reflexivity).
  destruct pdus as [|p0 pdus']; [congruence|]. set (pdus := p0 :: pdus') in *.
  assert (H0 : In p0 pdus) by (left; reflexivity).
  assert (HLen : len pdus = len front + 1) by (rewrite EP, len_app; reflexivity).
  assert (Hidx : idx pdus (len pdus - 1) = Ok lst).
  { rewrite EP, len_app. change (len [lst]) with 1. replace (len front + 1 - 1) with (len front) by lia.
    apply idx_app_mid. }
  assert (HX : forall s, In s pdus -> ud_block_size s = ud_block_size p0).
  { intros s Hs. eapply segment_sizes; eauto. }
  assert (Hsum : len ud <= ud_block_size p0 * len front + len (UD lst)).
  { rewrite <- HL1, EP. apply sum_UD. intros s Hs. rewrite <- (HX s) by (rewrite EP; apply in_or_app; now left).
    apply HL2. rewrite EP. apply in_or_app. now left. }
  assert (Hlst1 : 1 <= len (UD lst) <= ud_block_size p0).
  { destruct (HL2 lst Hlst) as [Hne Hle]. rewrite (HX lst Hlst) in Hle. split; [|exact Hle].
    pose proof (len_nonneg (UD lst)). destruct (Z.eq_dec (len (UD lst)) 0) as [E|E]; [|lia].
    apply len_0_nil in E. contradiction. }
  exists pdus. unfold new_count. fold (count_opts nli) in *.
  assert (EO : (if negb (nli =? 0) then [EoCharset (OptCharset [nli])] else []) = count_opts nli).
  { unfold count_opts, language_opts. destruct (nli =? 0); reflexivity. }
  rewrite EO, HE. cbn [bind]. change (idx pdus 0) with (Ok p0). cbn [bind]. rewrite Hidx. cbn [bind].
  rewrite (HAll p0 H0), HA.
  assert (H1 : len pdus = 1 -> UD lst = ud).
  { intros E. assert (front = []) by (apply len_0_nil; lia). subst front.
    rewrite <- HL1, EP. cbn [app map concat]. now rewrite app_nil_r. }
  unfold real_length, encoding_name.
  destruct (choice_tables (choose msg (language_opts nli))) as [[l s]|] eqn:ECT.
  - assert (choice_alpha (choose msg (language_opts nli)) = Alpha7Bit) as ->
      by (destruct (choose _ _); try reflexivity; discriminate).
    change (Alpha7Bit =? Alpha7Bit) with true. cbv iota.
    eexists. split; [reflexivity|]. split; [reflexivity|].
    cbn [k_encoding k_messages k_llen k_pdulen k_remaining k_tlen].
    pose proof (septets_length l s (runes_of msg) ud HC) as HD. rewrite <- HD.
    pose proof (len_nonneg front).
    split; [reflexivity|]. split; [lia|]. split; [lia|]. split; [reflexivity|]. split; [rewrite HLen; lia|].
    split; [reflexivity|]. split.
    { intros E. rewrite (H1 E). lia. }
    unfold has_escapes. rewrite existsb_concat, HL1. now rewrite (septets_escapes l s _ _ HC).
  - assert (choose msg (language_opts nli) = ChUcs2) as ECH by (destruct (choose _ _); try reflexivity; discriminate).
    rewrite ECH. cbn [choice_alpha]. change (2 =? Alpha7Bit) with false. change (2 =? Alpha8Bit) with false.
    change (2 =? AlphaUCS2) with true. cbv iota.
    eexists. split; [reflexivity|]. split; [reflexivity|].
    cbn [k_encoding k_messages k_llen k_pdulen k_remaining k_tlen].
    pose proof (runes_of_scalar _ HB) as HSc. pose proof (units_length _ HSc) as HD. rewrite <- HC in HD.
    rewrite ECH in HA. cbn [choice_alpha] in HA.
    assert (HEv : len (UD lst) mod 2 = 0).
    { assert (utf16_whole (UD lst)) as (rs & Hrs); [|eapply utf16be_len; exact Hrs].
      apply whole_U. change AlphaUCS2 with 2. rewrite <- HA.
      eapply segment_whole; eauto. rewrite HA. apply whole_U. exists (runes_of msg). rewrite HC.
      now apply ucs2_encode_spec. }
    assert (HEb : ud_block_size p0 mod 2 = 0).
    { unfold ud_block_size. rewrite (HAll p0 H0), HA. change (2 =? Alpha7Bit) with false.
      change (2 =? AlphaUCS2) with true. cbv iota zeta. lia. }
    set (real := sum _) in *. rewrite !Z.quot_div_nonneg by lia.
    pose proof (len_nonneg front). rewrite HLen.
    replace (len front + 1 - 1) with (len front) by lia.
    assert (ud_block_size p0 = 2 * (ud_block_size p0 / 2)) by lia.
    assert (len (UD lst) = 2 * (len (UD lst) / 2)) by lia.
    split; [reflexivity|]. split; [lia|]. split; [lia|]. split; [reflexivity|]. split; [nia|].
    split; [reflexivity|]. split; [|reflexivity].
    intros E. assert (len front = 0) as -> by lia. rewrite H1 by lia. lia.
Qed.
