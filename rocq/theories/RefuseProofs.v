(** Lemmas for C79: how each field fails. *)
From Verif Require Import GoBase GoLemmas PrintProofs SafeLemmas Utf UtfProofs Bcd Semioctet DigitsProofs SevenBit SevenBitProofs Charset Gsm7 CharsetProofs
  Dcs FirstOctet TpduError Address AddressProofs GoTime TimeProofs ValidityPeriod VPProofs UserData UdProofs Tpdu
  SegmentProofs SegmentFitProofs FlagsProofs TpduProofs LeftProofs ShownProofs AlphabetProofs
  SpecText SpecBits SpecDigits SpecTime SpecVP SpecDcs SpecAlphabet SpecShown SpecTpdu SpecSegment SpecLeft SpecWire SpecRefuse Sms
  WireProofs SpecPdu PduExact.

(** ** Text in an address *)
Lemma fault_strange us : forall g, gsm7_fault (assoc default_decoder) (assoc []) us = Some g <-> strange_septet us g.
Proof.
  induction us as [|h us IH1 IH2] using list_pair_ind; intros g; [split; [discriminate|now inversion 1]|].
  cbn [gsm7_fault]. destruct (h =? 27) eqn:E.
  - assert (h = 27) by lia. subst h. destruct us as [|x us].
    { split; [discriminate|]. intros H. inversion H as [? ? N|? ? N|? ? ? N|]; subst; contradiction. }
    destruct (x =? 27) eqn:E2.
    + assert (x = 27) by lia. subst x. rewrite IH2. split; [now constructor|].
      intros H. inversion H as [? ? N|? ? N|? ? ? N|]; subst; try contradiction; assumption.
    + rewrite assoc_nil. split.
      * intros X. injection X as <-. apply ss_escaped. lia.
      * intros H. inversion H as [? ? N|? ? N|? ? ? N|]; subst; try contradiction; try reflexivity. lia.
  - destruct (assoc default_decoder h) as [r|] eqn:A.
    + apply default_listed in A. rewrite IH1. split.
      * intros H. apply ss_behind_char; [lia|eauto|exact H].
      * intros H. inversion H as [? ? N M|? ? N|? ? ? N|]; subst; try lia; [destruct M; eauto|assumption].
    + assert (M : ~ exists r, listed default_alphabet h r) by (intros (r & R); apply default_listed in R; congruence).
      split; [intros X; injection X as <-; apply ss_char; [lia|exact M]|].
      intros H. inversion H as [|? ? N|? ? ? N|]; subst; try lia; [reflexivity|contradiction].
Qed.
Lemma text_fails us e : gsm7_decode addr_gsm7_decoder us = Err e <-> exists g, strange_septet us g /\ e = Gsm7InvalidSeptet g.
Proof.
  rewrite gsm7_decode_strict by reflexivity. cbn [gd_set gd_ext addr_gsm7_decoder].
  destruct (gsm7_fault _ _ us) as [g|] eqn:F.
  - apply fault_strange in F as S. split.
    + intros X. injection X as <-. eauto.
    + intros (g' & S' & ->). apply fault_strange in S'. congruence.
  - split; [discriminate|]. intros (g & S & _). apply fault_strange in S. congruence.
Qed.

(** ** Addresses *)
Lemma address_on n toa p rest : Forall is_byte (n :: toa :: p ++ rest) -> len p = (n + 1) / 2 ->
  addr_unmarshal (n :: toa :: p ++ rest) =
  if toa / 16 mod 8 =? 5 then
    bind (on_err (gsm7_decode addr_gsm7_decoder (septets_of n p)) (new_decode_error "addr" 2)) (fun s => Ok ({| a_toa := toa; a_addr := s |}, 2 + (n + 1) / 2))
  else bind (on_err (semi_decode n p) (new_decode_error "addr" 2)) (fun sn =>
    if negb (snd sn =? (n + 1) / 2) || (len (fst sn) <? n) then Err (new_decode_error "addr" 2 ErrUnderflow)
    else Ok ({| a_toa := toa; a_addr := fst sn |}, 2 + snd sn)).
Proof.
  intros HB LP. unfold addr_unmarshal. rewrite !len_cons. pose proof (len_nonneg p). pose proof (len_nonneg rest). rewrite len_app.
  replace (1 + (1 + (len p + len rest)) <? 2) with false by lia.
  change (idx (n :: toa :: p ++ rest) 0) with (Ok n). change (idx (n :: toa :: p ++ rest) 1) with (Ok toa). cbn [bind].
  rewrite !Forall_cons_iff, Forall_app in HB. destruct HB as (Bl & Bt & Bp & _). rewrite (ton_div toa Bt).
  replace (1 + (1 + (len p + len rest)) <? 2 + (n + 1) / 2) with false by lia.
  rewrite slice_ok by (rewrite ?len_cons, ?len_app; lia). cbn [bind]. change (Z.to_nat 2) with 2%nat. cbn [skipn].
  replace (firstn (Z.to_nat (2 + (n + 1) / 2 - 2)) (p ++ rest)) with p.
  2:{ replace (Z.to_nat (2 + (n + 1) / 2 - 2)) with (length p) by (unfold len in *; lia).
      rewrite firstn_app, firstn_all, Nat.sub_diag. cbn [firstn]. now rewrite app_nil_r. }
  unfold TonAlphanumeric. unfold is_byte in Bl. destruct (toa / 16 mod 8 =? 5).
  - rewrite (address_text_septets n p ltac:(lia) Bp LP). reflexivity.
  - destruct (on_err (semi_decode n p) _) as [[s m]|e| |]; reflexivity.
Qed.
Lemma digits_fewer n p : Forall is_byte p -> len (digits_of p) < n -> semi_decode n p = Ok (digits_of p, len p).
Proof.
  intros HB L. apply semi_read_complete; [exact HB|]. apply sr_digits with (rest := []); [now rewrite app_nil_r|lia|easy|].
  intros p' o ->. pose proof (digits_prefix p' [o]). lia.
Qed.
Lemma digits_more n p : Forall is_byte p -> 0 <= n -> len p = (n + 1) / 2 -> n < len (digits_of p) -> semi_decode n p = Err SemiMissingFill.
Proof.
  intros HB N LP L. apply semi_read_complete; [exact HB|].
  destruct (exists_last (l := p)) as (p' & o & ->). { intros ->. change (len (digits_of [])) with 0 in L. lia. }
  apply sr_fill with p' o []; [reflexivity|]. split; [|exact L]. pose proof (digits_len p'). rewrite len_app in LP. change (len [o]) with 1 in LP. lia.
Qed.
Lemma address_fails_complete b f : Forall is_byte b -> address_fails b f -> addr_unmarshal b = Err (alone f).
Proof.
  intros HB HF. destruct HF as [b0 L|n toa p L|n toa p rest T LP L|n toa p rest T LP L|n toa p rest g T LP S].
  - unfold addr_unmarshal. now replace (len b0 <? 2) with true by lia.
  - unfold addr_unmarshal. rewrite !len_cons. pose proof (len_nonneg p). replace (1 + (1 + len p) <? 2) with false by lia.
    change (idx (n :: toa :: p) 0) with (Ok n). change (idx (n :: toa :: p) 1) with (Ok toa). cbn [bind].
    now replace (1 + (1 + len p) <? 2 + (n + 1) / 2) with true by lia.
  - rewrite address_on by assumption. replace (toa / 16 mod 8 =? 5) with false by lia.
    rewrite !Forall_cons_iff, Forall_app in HB. destruct HB as (_ & _ & Bp & _).
    rewrite digits_fewer by assumption. cbn [on_err bind fst snd]. replace (len (digits_of p) <? n) with true by lia. now rewrite orb_true_r.
  - rewrite address_on by assumption. replace (toa / 16 mod 8 =? 5) with false by lia.
    rewrite !Forall_cons_iff, Forall_app in HB. destruct HB as (Bn & _ & Bp & _). unfold is_byte in Bn.
    rewrite digits_more by (try assumption; lia). reflexivity.
  - rewrite address_on by assumption. replace (toa / 16 mod 8 =? 5) with true by lia.
    rewrite (proj2 (text_fails _ (Gsm7InvalidSeptet g))) by eauto. reflexivity.
Qed.
Lemma split_len {A} (l : list A) n : 0 <= n <= len l -> exists p r, l = p ++ r /\ len p = n.
Proof.
  intros H. exists (firstn (Z.to_nat n) l), (skipn (Z.to_nat n) l). split; [symmetry; apply firstn_skipn|].
  unfold len in *. rewrite firstn_length. lia.
Qed.
Lemma address_fails_exists b e : Forall is_byte b -> addr_unmarshal b = Err e -> exists f, address_fails b f.
Proof.
  intros HB H. destruct b as [|n [|toa b]]; [eexists; now apply af_short|eexists; now apply af_short|].
  pose proof (Forall_inv HB) as Bn. unfold is_byte in Bn.
  destruct (Z_lt_le_dec (len b) ((n + 1) / 2)) as [L|L]; [eexists; now apply af_cut|].
  destruct (split_len b ((n + 1) / 2)) as (p & rest & -> & LP); [lia|].
  rewrite address_on in H by assumption. destruct (toa / 16 mod 8 =? 5) eqn:T.
  - destruct (gsm7_decode addr_gsm7_decoder (septets_of n p)) as [s|e'| |] eqn:D; try discriminate.
    apply text_fails in D as (g & S & ->). eexists. apply af_text; [lia|exact LP|exact S].
  - rewrite !Forall_cons_iff, Forall_app in HB. destruct HB as (_ & _ & Bp & _).
    destruct (Z.lt_trichotomy (len (digits_of p)) n) as [C|[C|C]].
    + eexists. apply af_fewer; [lia|exact LP|exact C].
    + exfalso. unfold semi_decode in H. rewrite (semi_complete p Bp n [] 0) in H; [|change (len (@nil Z)) with 0; lia|lia].
      cbn [on_err bind fst snd app] in H. replace (negb (0 + len p =? (n + 1) / 2) || (len (digits_of p) <? n)) with false in H by lia. discriminate.
    + eexists. apply af_more; [lia|exact LP|exact C].
Qed.
(** ** Times *)
Lemma bcd_any o : is_byte o -> (digits o /\ exists v, bcd_decode o = Ok v) \/ (~ digits o /\ bcd_decode o = Err (BcdInvalidOctet o)).
Proof.
  intros H. destruct (bcd_decode o) as [v|e| |] eqn:E.
  - left. split; [exists v; now apply two_digits_iff|eauto].
  - right. split. { intros (v & D). apply two_digits_iff in D; [congruence|exact H]. }
    unfold bcd_decode in E. cbv zeta in E. destruct ((9 <? Z.land o 15) || (9 <? Z.shiftr o 4)); [now symmetry|discriminate].
  - unfold bcd_decode in E. cbv zeta in E. destruct (_ || _); discriminate.
  - unfold bcd_decode in E. cbv zeta in E. destruct (_ || _); discriminate.
Qed.
Lemma zone_any o : is_byte o -> ((exists n, signed_digits o n) /\ exists v, bcd_decode_signed o = Ok v) \/
  (~ (exists n, signed_digits o n) /\ bcd_decode_signed o = Err (BcdInvalidOctet o)).
Proof.
  intros H. rewrite (bcd_decode_signed_spec o H). destruct (o / 16 <=? 9) eqn:E.
  - left. split; [|eauto]. eexists. apply signed_digits_iff; [exact H|]. rewrite (bcd_decode_signed_spec o H), E. reflexivity.
  - right. split. { intros (v & D). apply signed_digits_iff in D; [|exact H]. rewrite (bcd_decode_signed_spec o H), E in D. discriminate. }
    reflexivity.
Qed.
Lemma first_bad l : Forall is_byte l -> Forall digits l \/ exists p o b, l = p ++ o :: b /\ Forall digits p /\ ~ digits o.
Proof.
  induction 1 as [|o l Ho Hl IH]; [now left|]. destruct (bcd_any o Ho) as [(D & _)|(D & _)].
  - destruct IH as [IH|(p & x & b & -> & P & X)]; [left; now constructor|]. right. exists (o :: p), x, b. split; [reflexivity|]. split; [now constructor|exact X].
  - right. exists [], o, l. now split.
Qed.
(** Seven octets or more, read in turn. *)
Lemma ts_seven b0 b1 b2 b3 b4 b5 b6 rest : ts_unmarshal (b0 :: b1 :: b2 :: b3 :: b4 :: b5 :: b6 :: rest) =
  bind (bcd_decode b0) (fun y => bind (bcd_decode b1) (fun mo => bind (bcd_decode b2) (fun d => bind (bcd_decode b3) (fun h =>
  bind (bcd_decode b4) (fun mi => bind (bcd_decode b5) (fun s => bind (bcd_decode_signed b6) (fun tz =>
    Ok (go_date (if y <? 70 then y + 2000 else y + 1900) mo d h mi s (tz * 15 * 60))))))))).
Proof.
  unfold ts_unmarshal. rewrite !len_cons. pose proof (len_nonneg rest).
  match goal with |- context [?x <? 7] => replace (x <? 7) with false by lia end.
  destruct (idx_seven b0 b1 b2 b3 b4 b5 b6 rest) as (I0 & I1 & I2 & I3 & I4 & I5 & I6). rewrite I0, I1, I2, I3, I4, I5, I6. reflexivity.
Qed.
Ltac digit_step H := let D := fresh in let v := fresh "v" in
  destruct (bcd_any _ H) as [(_ & v & D)|(D & _)]; [rewrite D; cbn [bind]; clear D|exfalso; tauto].
Lemma time_fails_complete b f : Forall is_byte b -> time_fails b f -> ts_unmarshal b = Err (alone f).
Proof.
  intros HB HF. destruct HF as [b0 L|p o b0 L L7 P O|p o b0 L P O].
  - unfold ts_unmarshal. now replace (len b0 <? 7) with true by lia.
  - assert (BAD : bcd_decode o = Err (BcdInvalidOctet o)).
    { apply Forall_app in HB as (_ & HB). apply Forall_inv in HB. destruct (bcd_any o HB) as [(D & _)|(_ & D)]; [contradiction|exact D]. }
    assert (SIX : (length p <= 5)%nat) by (unfold len in L; lia).
    do 6 (destruct p as [|? p]; [
      repeat (destruct b0 as [|? b0]; [exfalso; cbn [app] in L7; unfold len in L7; cbn [length] in L7; lia|]);
      cbn [app] in *; rewrite !Forall_cons_iff in HB; rewrite ?Forall_cons_iff in P; decompose [and] HB; decompose [and] P; rewrite ts_seven;
      repeat match goal with B : is_byte ?x, D : digits ?x |- context [bind (bcd_decode ?x) _] => digit_step B end; rewrite BAD; reflexivity|]).
    cbn [length] in SIX. lia.
  - assert (BAD : bcd_decode_signed o = Err (BcdInvalidOctet o)).
    { apply Forall_app in HB as (_ & HB). apply Forall_inv in HB. destruct (zone_any o HB) as [(D & _)|(_ & D)]; [contradiction|exact D]. }
    do 6 (destruct p as [|? p]; [unfold len in L; cbn [length] in L; lia|]). destruct p; [|unfold len in L; cbn [length] in L; lia].
    cbn [app] in *. rewrite !Forall_cons_iff in HB. rewrite !Forall_cons_iff in P. decompose [and] HB. decompose [and] P. rewrite ts_seven.
    repeat match goal with B : is_byte ?x, D : digits ?x |- context [bind (bcd_decode ?x) _] => digit_step B end. rewrite BAD. reflexivity.
Qed.
Lemma time_fails_exists b e : Forall is_byte b -> ts_unmarshal b = Err e -> exists f, time_fails b f.
Proof.
  intros HB H. destruct (Z_lt_le_dec (len b) 7) as [L|L]; [eexists; now apply tf_short|].
  destruct (split_len b 6) as (p & r & -> & LP); [lia|]. destruct r as [|z r]; [rewrite app_nil_r in L; lia|].
  pose proof HB as HB'. apply Forall_app in HB' as (Bp & Br). apply Forall_cons_iff in Br as (Bz & Br).
  destruct (first_bad p Bp) as [D|(p' & o & b & -> & P & O)].
  - destruct (zone_any z Bz) as [(Z1 & v & Z2)|(Z1 & Z2)]; [|eexists; apply tf_zone; eassumption]. exfalso.
    do 6 (destruct p as [|? p]; [unfold len in LP; cbn [length] in LP; lia|]). destruct p; [|unfold len in LP; cbn [length] in LP; lia].
    cbn [app] in H. rewrite ts_seven in H. rewrite !Forall_cons_iff in Bp. rewrite !Forall_cons_iff in D. decompose [and] Bp. decompose [and] D.
    revert H. repeat match goal with B : is_byte ?x, D : digits ?x |- context [bind (bcd_decode ?x) _] => digit_step B end. rewrite Z2. discriminate.
  - eexists. rewrite <- app_assoc in *. cbn [app] in *. apply tf_digits; try assumption. rewrite len_app, len_cons in LP. pose proof (len_nonneg b). lia.
Qed.
