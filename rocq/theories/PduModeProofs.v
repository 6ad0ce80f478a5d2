(** Lemmas about PDU mode (C22). *)
From Verif Require Import GoBase GoLemmas SafeLemmas Semioctet SpecDigits DigitsProofs
  Utf UtfProofs TpduError Address PduMode.

Lemma semi_decode_loop_all ds p : semi_packed ds p ->
  forall dlen out ri, len out + 2 * len p <= dlen ->
  semi_decode_loop dlen p out ri = Ok (out ++ ds, ri + len p).
Proof.
  induction 1 as [|c Hc|c1 c2 ds p H1 H2 HP IH]; intros dlen out ri HL.
  - rewrite app_nil_r. change (len (@nil Z)) with 0. cbn [semi_decode_loop].
    replace (ri + 0) with ri by lia. now destruct (negb _).
  - change (len [Z.of_nat c + 16 * 15]) with 1 in *. cbn [semi_decode_loop].
    replace (len out <? dlen) with true by lia. cbn [negb].
    destruct (nibbles (Z.of_nat c) 15) as (_ & -> & ->); [lia..|].
    destruct (dd_code c Hc) as (-> & E). cbn [bind]. rewrite E. cbn [negb].
    change (idx decode_digits 15) with (Ok 70 : res Z). cbn [bind].
    change (70 =? fillF) with true. cbn [negb]. rewrite andb_false_r. now destruct (negb _).
  - cbn [semi_decode_loop]. rewrite !len_cons in *. pose proof (len_nonneg p).
    replace (len out <? dlen) with true by lia. cbn [negb].
    destruct (nibbles (Z.of_nat c1) (Z.of_nat c2)) as (_ & -> & ->); [lia..|].
    destruct (dd_code c1 H1) as (-> & E1). cbn [bind]. rewrite E1. cbn [negb].
    destruct (dd_code c2 H2) as (-> & E2). cbn [bind]. rewrite E2. cbn [negb].
    rewrite !len_app. change (len [nth c1 semi_alphabet 0]) with 1.
    replace (len out + 1 =? dlen) with false by lia. cbn [andb].
    replace (len out + 1 <? dlen) with true by lia.
    rewrite IH.
    + rewrite <- !app_assoc. cbn [app]. do 2 f_equal. lia.
    + rewrite !len_app. change (len [nth c1 semi_alphabet 0]) with 1.
      change (len [nth c2 semi_alphabet 0]) with 1. lia.
Qed.

(** A destination with room for two digits per octet cannot overflow. *)
Lemma semi_decode_loop_wide src : Forall is_byte src ->
  forall dlen out ri, len out + 2 * len src <= dlen -> Forall is_semi_digit out ->
  exists out', semi_decode_loop dlen src out ri = Ok (out', ri + len src) /\
    Forall is_semi_digit out' /\ len out' <= len out + 2 * len src.
Proof.
  induction 1 as [|o src Ho Hs IH]; intros dlen out ri HL Hd.
  - exists out. change (len (@nil Z)) with 0. cbn [semi_decode_loop].
    replace (ri + 0) with ri by lia. split; [now destruct (negb _)|]. split; [assumption|lia].
  - rewrite len_cons in *. pose proof (len_nonneg src). cbn [semi_decode_loop].
    replace (len out <? dlen) with true by lia. cbn [negb].
    destruct (nib_range o Ho) as [Hlo Hhi].
    assert (HA : forall out d, Forall is_semi_digit out -> is_semi_digit d ->
      Forall is_semi_digit (out ++ [d])).
    { intros o1 d Ho1 Hd'. apply Forall_app. split; [assumption|]. now constructor. }
    assert (HIH : forall out1, len out1 <= len out + 2 -> Forall is_semi_digit out1 ->
      exists out', semi_decode_loop dlen src out1 (ri + 1) = Ok (out', ri + (1 + len src)) /\
        Forall is_semi_digit out' /\ len out' <= len out + 2 * (1 + len src)).
    { intros out1 H1 H2. destruct (IH dlen out1 (ri + 1) ltac:(lia) H2) as (o' & E & F & L).
      exists o'. rewrite E. split; [do 2 f_equal; lia|]. split; [assumption|lia]. }
    destruct (dd_any _ Hlo) as [->|(d & -> & Sd & Fd)]; cbn [bind].
    + change (fillF =? fillF) with true. cbn [negb].
      destruct (dd_any _ Hhi) as [->|(d' & -> & Sd' & Fd')]; cbn [bind].
      * change (fillF =? fillF) with true. cbn [negb]. rewrite andb_false_r. apply HIH; [lia|assumption].
      * rewrite Fd'. replace (len out =? dlen) with false by lia. cbn [negb andb].
        replace (len out <? dlen) with true by lia.
        apply HIH; [rewrite len_app; change (len [d']) with 1; lia|now apply HA].
    + rewrite Fd. cbn [negb].
      assert (L : len (out ++ [d]) = len out + 1) by (rewrite len_app; reflexivity).
      destruct (dd_any _ Hhi) as [->|(d' & -> & Sd' & Fd')]; cbn [bind].
      * change (fillF =? fillF) with true. cbn [negb]. rewrite andb_false_r.
        apply HIH; [lia|now apply HA].
      * rewrite Fd', L. cbn [negb]. replace (len out + 1 =? dlen) with false by lia. cbn [andb].
        replace (len out + 1 <? dlen) with true by lia.
        apply HIH; [rewrite len_app, L; change (len [d']) with 1; lia|].
        apply HA; [now apply HA|assumption].
Qed.

Lemma smsc_roundtrip toa ds :
  ds <> [] -> Forall is_semi_digit ds -> len ds <= 508 ->
  exists p, smsc_marshal {| a_toa := toa; a_addr := ds |} = Ok p /\
    (is_byte toa -> Forall is_byte p) /\
    (exists s, p = (1 + len s) :: toa :: s /\ semi_packed ds s) /\
    forall a rest, smsc_unmarshal a (p ++ rest) = Ok ({| a_toa := toa; a_addr := ds |}, len p).
Proof.
  intros Hne Hd Hl. destruct (semi_roundtrip ds Hd) as (s & E & L & B & P & _).
  assert (Hn : 0 < len ds).
  { pose proof (len_nonneg ds). assert (len ds <> 0) by (intros H0; apply len_0_nil in H0; tauto). lia. }
  assert (Hs : 0 < len s <= 254) by lia.
  exists ((1 + len s) :: toa :: s). unfold smsc_marshal. cbn [a_toa a_addr].
  rewrite E. cbn [on_err bind]. replace (len s =? 0) with false by lia.
  rewrite to_byte_id by lia. replace (len s + 1) with (1 + len s) by lia.
  split; [reflexivity|]. split.
  { intros Hb. constructor; [unfold is_byte; lia|]. now constructor. }
  split; [exists s; auto|]. intros a rest. pose proof (len_nonneg rest) as Hr.
  cbn [app]. unfold smsc_unmarshal. rewrite !len_cons, len_app.
  replace (1 + (1 + (len s + len rest)) <? 1) with false by lia.
  rewrite idx_0. cbn [bind]. replace (1 + len s =? 0) with false by lia.
  replace (1 + (1 + (len s + len rest)) <? 2) with false by lia.
  rewrite idx_succ by lia. change (1 - 1) with 0. rewrite idx_0. cbn [bind].
  replace (1 + (1 + (len s + len rest)) <? 2 + (1 + len s - 1)) with false by lia.
  rewrite (slice_app [1 + len s; toa] s rest) by (change (len [1 + len s; toa]) with 2; lia).
  cbn [bind]. unfold semi_decode. rewrite (semi_decode_loop_all ds s P).
  - cbn [app on_err bind]. do 2 f_equal. lia.
  - change (len (@nil Z)) with 0. lia.
Qed.

Lemma smsc_empty toa : smsc_marshal {| a_toa := toa; a_addr := [] |} = Ok [0].
Proof. reflexivity. Qed.

Lemma smsc_unmarshal_safe a src : Forall is_byte src ->
  (exists a' n, smsc_unmarshal a src = Ok (a', n) /\ 1 <= n <= len src /\
     (a' = a \/ Forall is_semi_digit (a_addr a') /\ is_byte (a_toa a'))) \/
  exists f off, smsc_unmarshal a src = Err (DecodeErr f off ErrUnderflow) /\ 0 <= off <= len src.
Proof.
  intros HB. unfold smsc_unmarshal. pose proof (len_nonneg src).
  destruct (len src <? 1) eqn:E1.
  { right. eexists; eexists; split; [reflexivity|lia]. }
  destruct (idx_ok src 0 ltac:(lia)) as (l & El & _). rewrite El. cbn [bind].
  pose proof (idx_byte _ _ _ HB El) as Hl. unfold is_byte in Hl.
  destruct (l =? 0) eqn:E0.
  { left. exists a, 1. split; [reflexivity|]. split; [lia|]. now left. }
  destruct (len src <? 2) eqn:E2.
  { right. eexists; eexists; split; [reflexivity|lia]. }
  destruct (idx_ok src 1 ltac:(lia)) as (toa & Et & _). rewrite Et. cbn [bind].
  pose proof (idx_byte _ _ _ HB Et) as Htb.
  destruct (len src <? 2 + (l - 1)) eqn:E3.
  { right. eexists; eexists; split; [reflexivity|lia]. }
  destruct (slice src 2 (2 + (l - 1))) as [s|?| |] eqn:Es;
    try (rewrite slice_ok in Es by lia; discriminate).
  cbn [bind]. pose proof (slice_bytes _ _ _ _ HB Es) as HBs. pose proof (slice_len _ _ _ _ Es) as HL.
  destruct (semi_decode_loop_wide s HBs ((l - 1) * 2) [] 0) as (o & E & F & _).
  { change (len (@nil Z)) with 0. lia. }
  { constructor. }
  unfold semi_decode. rewrite E. cbn [on_err bind]. left.
  eexists; eexists; split; [reflexivity|]. split; [lia|]. right. cbn [a_addr a_toa]. auto.
Qed.

Lemma pdu_roundtrip p toa ds tp :
  ds <> [] -> Forall is_semi_digit ds -> len ds <= 508 ->
  exists b, pdu_marshal {| p_smsc := {| a_toa := toa; a_addr := ds |}; p_tpdu := tp |} = Ok b /\
    (is_byte toa -> Forall is_byte tp -> Forall is_byte b) /\
    pdu_unmarshal_into p b = Ok {| p_smsc := {| a_toa := toa; a_addr := ds |}; p_tpdu := tp |}.
Proof.
  intros H1 H2 H3. destruct (smsc_roundtrip toa ds H1 H2 H3) as (m & E & B & _ & D).
  exists (m ++ tp). unfold pdu_marshal. cbn [p_smsc p_tpdu]. rewrite E. cbn [bind].
  split; [reflexivity|]. split; [intros; apply Forall_app; auto|].
  unfold pdu_unmarshal_into. rewrite D. cbn [bind]. rewrite slice_from_app by reflexivity.
  reflexivity.
Qed.

Lemma pdu_roundtrip_hex toa ds tp :
  is_byte toa -> Forall is_byte tp ->
  ds <> [] -> Forall is_semi_digit ds -> len ds <= 508 ->
  exists h, pdu_marshal_hex {| p_smsc := {| a_toa := toa; a_addr := ds |}; p_tpdu := tp |} = Ok h /\
    pdu_unmarshal_hex h = Ok {| p_smsc := {| a_toa := toa; a_addr := ds |}; p_tpdu := tp |}.
Proof.
  intros Ht Htp H1 H2 H3. destruct (pdu_roundtrip zero_pdu toa ds tp H1 H2 H3) as (b & E & B & D).
  exists (hex_encode b). unfold pdu_marshal_hex, pdu_unmarshal_hex. rewrite E. cbn [bind].
  split; [reflexivity|]. rewrite hex_roundtrip by auto. cbn [bind]. exact D.
Qed.

Lemma pdu_unmarshal_safe src : Forall is_byte src ->
  (exists p, pdu_unmarshal src = Ok p /\ exists k, p_tpdu p = skipn k src) \/
  exists f off, pdu_unmarshal src = Err (DecodeErr f off ErrUnderflow) /\ 0 <= off <= len src.
Proof.
  intros HB. unfold pdu_unmarshal, pdu_unmarshal_into.
  destruct (smsc_unmarshal_safe (p_smsc zero_pdu) src HB) as [(a & n & -> & Hn & _)|(f & o & -> & Ho)].
  - left. cbn [bind]. rewrite slice_from_ok by lia. cbn [bind].
    eexists; split; [reflexivity|]. cbn [p_tpdu]. eauto.
  - right. cbn [bind]. eauto.
Qed.

Lemma pdu_unmarshal_hex_safe s :
  (exists p, pdu_unmarshal_hex s = Ok p) \/
  pdu_unmarshal_hex s = Err HexLength \/ (exists c, pdu_unmarshal_hex s = Err (HexInvalidByte c)) \/
  exists f off, pdu_unmarshal_hex s = Err (DecodeErr f off ErrUnderflow).
Proof.
  unfold pdu_unmarshal_hex.
  destruct (hex_decode_safe s) as [(b & -> & HB & _)|[-> |(c & ->)]]; cbn [bind]; eauto.
  destruct (pdu_unmarshal_safe b HB) as [(p & -> & _)|(f & o & -> & _)]; eauto 6.
Qed.
