(** Lemmas for C79: the TPDUs that cannot be read. *)
From Verif Require Import GoBase GoLemmas PrintProofs SafeLemmas Utf UtfProofs Bcd Semioctet DigitsProofs SevenBit SevenBitProofs Charset Gsm7 CharsetProofs
  Dcs FirstOctet TpduError Address AddressProofs GoTime TimeProofs ValidityPeriod VPProofs UserData UdProofs Tpdu
  SegmentProofs SegmentFitProofs FlagsProofs TpduProofs TpduLeft LeftProofs ShownProofs AlphabetProofs
  SpecText SpecBits SpecDigits SpecTime SpecVP SpecDcs SpecAlphabet SpecShown SpecTpdu SpecSegment SpecLeft SpecWire SpecRefuse Sms
  WireProofs RefuseProofs RefuseParts.

(** ** Fields on their own *)
Lemma exact_fails {A} (run : res A) (F : fault -> Prop) : (forall f, F f -> run = Err (alone f)) -> (forall e, run = Err e -> exists f, F f) ->
  forall e, run = Err e <-> exists f, F f /\ e = alone f.
Proof.
  intros C X e. split.
  - intros H. destruct (X e H) as (f & Hf). exists f. split; [exact Hf|]. apply C in Hf. congruence.
  - intros (f & Hf & ->). now apply C.
Qed.
Lemma address_fails_iff b e : Forall is_byte b -> addr_unmarshal b = Err e <-> exists f, address_fails b f /\ e = alone f.
Proof. intros HB. apply exact_fails; [intros f; now apply address_fails_complete|intros e'; now apply address_fails_exists]. Qed.
Lemma time_fails_iff b e : Forall is_byte b -> ts_unmarshal b = Err e <-> exists f, time_fails b f /\ e = alone f.
Proof. intros HB. apply exact_fails; [intros f; now apply time_fails_complete|intros e'; now apply time_fails_exists]. Qed.
Lemma period_fails_iff fm b e : Forall is_byte b -> vp_unmarshal vp_zero b fm = Err e <-> exists f, period_fails fm b f /\ e = alone f.
Proof. intros HB. apply exact_fails; [intros f; now apply period_fails_complete|intros e'; now apply period_fails_exists]. Qed.
Lemma header_fails_iff b e : Forall is_byte b -> udh_unmarshal b = Err e <-> exists f, header_fails b f /\ e = alone f.
Proof. intros HB. apply exact_fails; [intros f; now apply header_fails_complete|intros e'; now apply header_fails_exists]. Qed.
Lemma user_data_fails_iff t b e : Forall is_byte b -> is_byte (DCS t) ->
  decode_ud t b = Err e <-> exists f, user_data_fails (Z.testbit (FO t) 6) (DCS t) b f /\ e = alone f.
Proof. intros HB HD. apply exact_fails; [intros f; now apply user_data_fails_complete|intros e'; now apply user_data_fails_exists]. Qed.

(** ** Faults within a field *)
Definition plain (f : fault) : Prop :=
  let (part, at_, why) := f in
  match why with DecodeErr _ _ _ | EOF => False | _ => True end /\ ((part =? "")%string = true -> at_ = 0).
Definition told (name : string) (off : Z) (f : fault) : gerr := let (part, at_, why) := f in DecodeErr (within name part) (off + at_) why.
Lemma told_alone name off f : plain f -> new_decode_error name off (alone f) = told name off f.
Proof.
  destruct f as [part at_ why]. unfold plain, alone, told, within. intros (W & P). destruct (part =? "")%string.
  - rewrite (P eq_refl), Z.add_0_r. destruct why; try reflexivity; contradiction.
  - cbn [new_decode_error]. now rewrite Z.add_comm.
Qed.
Lemma address_plain b f : address_fails b f -> plain f.
Proof. intros []; (split; [exact I|discriminate]). Qed.
Lemma time_plain b f : time_fails b f -> plain f.
Proof. intros []; (split; [exact I|reflexivity]). Qed.
Lemma period_plain fm b f : period_fails fm b f -> plain f.
Proof. intros H. destruct H as [| |? ? T| | | |]; try (split; [exact I|discriminate || reflexivity]). exact (time_plain _ _ T). Qed.
Lemma user_data_plain u d b f : user_data_fails u d b f -> plain f.
Proof.
  intros [| | | | ? ? ? ? ? ? ? ? ? ? H|? ? ? ? ? ? ? ? ? ? ? ? H|]; try (split; [exact I|discriminate]).
  - apply header_fault_part in H as (P & ->). split; [exact I|]. unfold within. rewrite P. discriminate.
  - destruct H as [? ? ? ? _ _ _ [(-> & _)|(-> & _)]]; (split; [exact I|discriminate]).
Qed.

(** ** Readers in a row *)
Definition ge (rs : list reader) (total : Z) (t : tpdu) (b : bytes) (e : gerr) : Prop := snd (go rs total t b) = Err e.
Definition here (total : Z) (name : string) (F : bytes -> fault -> Prop) (b : bytes) (e : gerr) : Prop :=
  exists f, F b f /\ e = told name (total - len b) f.

Lemma ge_stop r rs total t b e1 : r_run r t b = Err e1 -> forall e, ge (r :: rs) total t b e <-> e = new_decode_error (field_name (r_field r)) (total - len b) e1.
Proof. intros H e. unfold ge. cbn [go]. rewrite H. cbn [snd]. split; [intros X; now injection X|now intros ->]. Qed.
Lemma ge_pass r rs total t b t1 b1 : r_run r t b = Ok (Some (t1, b1)) -> forall e, ge (r :: rs) total t b e <-> ge rs total t1 b1 e.
Proof. intros H e. unfold ge. cbn [go]. now rewrite H. Qed.

Lemma ge_byte f set e0 rs total t b e : e0 = EOF \/ e0 = ErrUnderflow -> ge (rd_byte f set e0 :: rs) total t b e <->
  here total (field_name f) octet_fails b e \/ exists x b1, b = x :: b1 /\ ge rs total (set t x) b1 e.
Proof.
  intros E0. destruct b as [|x b].
  - rewrite (ge_stop _ rs total t [] e0) by reflexivity. cbn [r_field rd_byte]. split.
    + intros ->. left. exists (Fault "" 0 ErrUnderflow). split; [constructor|]. unfold told, within. cbn [String.eqb]. rewrite Z.add_0_r. now destruct E0 as [-> | ->].
    + intros [(f0 & F & ->)|(x & b1 & X & _)]; [|discriminate]. inversion F; subst f0. unfold told, within. cbn [String.eqb]. rewrite Z.add_0_r. now destruct E0 as [-> | ->].
  - rewrite (ge_pass (rd_byte f set e0) rs total t (x :: b) (set t x) b) by reflexivity. split.
    + intros H. right. eauto.
    + intros [(f0 & F & _)|(y & b1 & X & H)]; [inversion F|]. injection X as <- <-. exact H.
Qed.
Lemma ge_into f set rs total t b e : ge (rd_into f set :: rs) total t b e <->
  here total (field_name f) octet_fails b e \/ exists x b1, b = x :: b1 /\ ge rs total (set t x) b1 e.
Proof.
  destruct b as [|x b].
  - rewrite (ge_stop _ rs total t [] EOF) by reflexivity. cbn [r_field rd_into]. split.
    + intros ->. left. exists (Fault "" 0 ErrUnderflow). split; [constructor|]. unfold told, within. cbn [String.eqb]. now rewrite Z.add_0_r.
    + intros [(f0 & F & ->)|(x & b1 & X & _)]; [|discriminate]. inversion F; subst f0. unfold told, within. cbn [String.eqb]. now rewrite Z.add_0_r.
  - rewrite (ge_pass (rd_into f set) rs total t (x :: b) (set t x) b) by reflexivity. split.
    + intros H. right. eauto.
    + intros [(f0 & F & _)|(y & b1 & X & H)]; [inversion F|]. injection X as <- <-. exact H.
Qed.
Lemma ge_addr f set rs total t b e : Forall is_byte b -> (ge (rd_addr f set :: rs) total t b e <->
  here total (field_name f) address_fails b e \/ exists a q b1, b = q ++ b1 /\ address_octets a q /\ ge rs total (set t a) b1 e).
Proof.
  intros HB. destruct (addr_unmarshal b) as [[a n]|e1| |] eqn:E.
  - pose proof E as E2. apply address_iff in E2 as (q & r & -> & A & ->); [|exact HB].
    rewrite (ge_pass (rd_addr f set) rs total t (q ++ r) (set t a) r) by (cbn [r_run rd_addr]; rewrite E; cbn [bind fst snd]; now rewrite skip_pre). split.
    + intros H. right. eauto 6.
    + intros [(f0 & F & _)|(a' & q' & b1 & X & A' & H)].
      * apply address_fails_complete in F; [congruence|exact HB].
      * assert (E3 : addr_unmarshal (q ++ r) = Ok (a', len q')) by (apply address_iff; [exact HB|]; eauto).
        rewrite E3 in E. apply ok_pair in E as (<- & E). assert (b1 = r) by (rewrite <- (skip_pre q' b1), <- X, E; apply skip_pre). now subst b1.
  - rewrite (ge_stop (rd_addr f set) rs total t b e1) by (cbn [r_run rd_addr]; now rewrite E). cbn [r_field rd_addr].
    apply address_fails_iff in E as E2; [|exact HB]. destruct E2 as (f0 & F & ->). rewrite told_alone by (now apply address_plain with b). split.
    + intros ->. left. now exists f0.
    + intros [(f1 & F1 & ->)|(a' & q' & b1 & -> & A' & H)].
      * apply address_fails_complete in F1 as E1; [|exact HB]. rewrite E in E1. injection E1 as E1.
        rewrite <- !told_alone by (eapply address_plain; eassumption). now rewrite E1.
      * assert (E3 : addr_unmarshal (q' ++ b1) = Ok (a', len q')) by (apply address_iff; [exact HB|]; eauto). congruence.
  - exfalso. pose proof (addr_unmarshal_safe b HB) as X. rewrite E in X. exact X.
  - exfalso. pose proof (addr_unmarshal_safe b HB) as X. rewrite E in X. exact X.
Qed.
Lemma skip7 t q r : time_octets t q -> skipn 7 (q ++ r) = r.
Proof. now intros []. Qed.
Lemma ge_ts f set rs total t b e : Forall is_byte b -> (ge (rd_ts f set :: rs) total t b e <->
  here total (field_name f) time_fails b e \/ exists x q b1, b = q ++ b1 /\ time_octets x q /\ ge rs total (set t x) b1 e).
Proof.
  intros HB. destruct (ts_unmarshal b) as [a|e1| |] eqn:E.
  - pose proof E as E2. apply time_iff in E2 as (q & r & -> & A); [|exact HB].
    rewrite (ge_pass (rd_ts f set) rs total t (q ++ r) (set t a) r) by (cbn [r_run rd_ts]; rewrite E; cbn [bind]; now rewrite (skip7 a)). split.
    + intros H. right. eauto 6.
    + intros [(f0 & F & _)|(a' & q' & b1 & X & A' & H)].
      * apply time_fails_complete in F; [congruence|exact HB].
      * assert (E3 : ts_unmarshal (q ++ r) = Ok a') by (apply time_iff; [exact HB|]; eauto).
        rewrite E3 in E. apply ok_inj in E. subst a'. assert (b1 = r) by (rewrite <- (skip7 a q' b1 A'), <- X; now apply (skip7 a)). now subst b1.
  - rewrite (ge_stop (rd_ts f set) rs total t b e1) by (cbn [r_run rd_ts]; now rewrite E). cbn [r_field rd_ts].
    apply time_fails_iff in E as E2; [|exact HB]. destruct E2 as (f0 & F & ->). rewrite told_alone by (now apply time_plain with b). split.
    + intros ->. left. now exists f0.
    + intros [(f1 & F1 & ->)|(a' & q' & b1 & -> & A' & H)].
      * apply time_fails_complete in F1 as E1; [|exact HB]. rewrite E in E1. injection E1 as E1.
        rewrite <- !told_alone by (eapply time_plain; eassumption). now rewrite E1.
      * assert (E3 : ts_unmarshal (q' ++ b1) = Ok a') by (apply time_iff; [exact HB|]; eauto). congruence.
  - exfalso. pose proof (ts_unmarshal_safe b 0 HB) as X. rewrite E in X. exact X.
  - exfalso. pose proof (ts_unmarshal_safe b 0 HB) as X. rewrite E in X. exact X.
Qed.
Lemma ge_vp rs total t b e : Forall is_byte b -> VP t = vp_zero -> (ge (rd_vp :: rs) total t b e <->
  here total "vp" (period_fails (FO t / 8 mod 4)) b e \/ exists v q b1, b = q ++ b1 /\ period_octets (FO t / 8 mod 4) v q /\ ge rs total (set_VPf t v) b1 e).
Proof.
  intros HB HV. assert (R : 0 <= FO t / 8 mod 4 < 4) by lia. set (fm := FO t / 8 mod 4) in *.
  assert (RUN : r_run rd_vp t b = bind (vp_unmarshal vp_zero b fm) (fun vn => Ok (Some (set_VPf t (fst vn), skipn (Z.to_nat (snd vn)) b))))
    by (cbn [r_run rd_vp]; now rewrite HV, vpf_div).
  destruct (vp_unmarshal vp_zero b fm) as [[a n]|e1| |] eqn:E.
  - pose proof E as E2. apply period_iff in E2 as (q & r & -> & A & ->); [|exact HB|exact R].
    rewrite (ge_pass rd_vp rs total t (q ++ r) (set_VPf t a) r) by (rewrite RUN; cbn [bind fst snd]; now rewrite skip_pre). split.
    + intros H. right. eauto 6.
    + intros [(f0 & F & _)|(a' & q' & b1 & X & A' & H)].
      * apply period_fails_complete in F; [congruence|exact HB].
      * assert (E3 : vp_unmarshal vp_zero (q ++ r) fm = Ok (a', len q')) by (apply period_iff; [exact HB|exact R|]; eauto).
        rewrite E3 in E. apply ok_pair in E as (<- & E). assert (b1 = r) by (rewrite <- (skip_pre q' b1), <- X, E; apply skip_pre). now subst b1.
  - rewrite (ge_stop rd_vp rs total t b e1) by (now rewrite RUN). cbn [r_field rd_vp field_name].
    apply period_fails_iff in E as E2; [|exact HB]. destruct E2 as (f0 & F & ->). rewrite told_alone by (now apply period_plain with fm b). split.
    + intros ->. left. now exists f0.
    + intros [(f1 & F1 & ->)|(a' & q' & b1 & -> & A' & H)].
      * apply period_fails_complete in F1 as E1; [|exact HB]. rewrite E in E1. injection E1 as E1.
        rewrite <- !told_alone by (eapply period_plain; eassumption). now rewrite E1.
      * assert (E3 : vp_unmarshal vp_zero (q' ++ b1) fm = Ok (a', len q')) by (apply period_iff; [exact HB|exact R|]; eauto). congruence.
  - exfalso. pose proof (vp_unmarshal_safe vp_zero b fm HB) as X. rewrite E in X. exact X.
  - exfalso. pose proof (vp_unmarshal_safe vp_zero b fm HB) as X. rewrite E in X. exact X.
Qed.
Lemma ge_ud c total t b e : Forall is_byte b -> is_byte (DCS t) ->
  (ge [rd_ud c] total t b e <-> c (PI t) = true /\ here total "ud" (user_data_fails (Z.testbit (FO t) 6) (DCS t)) b e).
Proof.
  intros HB HD. unfold ge. cbn [go r_run rd_ud]. destruct (c (PI t)); [|split; [discriminate|now intros (? & _)]].
  destruct (decode_ud t b) as [t'|e1| |] eqn:E; cbn [bind snd].
  - split; [discriminate|]. intros (_ & f & F & _). apply user_data_fails_complete in F; [congruence|exact HB|exact HD].
  - apply user_data_fails_iff in E as E2; [|exact HB|exact HD]. destruct E2 as (f0 & F & ->). cbn [r_field field_name].
    rewrite told_alone by (eapply user_data_plain; eassumption). split.
    + intros X. injection X as <-. split; [reflexivity|]. now exists f0.
    + intros (_ & f1 & F1 & ->). apply user_data_fails_complete in F1 as E1; [|exact HB|exact HD]. rewrite E in E1. injection E1 as E1.
      rewrite <- !told_alone by (eapply user_data_plain; eassumption). now rewrite E1.
  - split; [discriminate|]. intros (_ & f & F & _). apply user_data_fails_complete in F; [congruence|exact HB|exact HD].
  - split; [discriminate|]. intros (_ & f & F & _). apply user_data_fails_complete in F; [congruence|exact HB|exact HD].
Qed.
Lemma ge_opt f set c rs total t b e : ge (rd_opt f set c :: rs) total t b e <->
  if c (PI t) then here total (field_name f) octet_fails b e \/ exists x b1, b = x :: b1 /\ ge rs total (set t x) b1 e else ge rs total t b e.
Proof.
  destruct (c (PI t)) eqn:C.
  - rewrite <- (ge_byte f set ErrUnderflow rs total t b e) by now right. unfold ge. cbn [go r_run rd_opt rd_byte r_field]. rewrite C. destruct b; reflexivity.
  - apply ge_pass. cbn [r_run rd_opt]. now rewrite C.
Qed.
Lemma octet_here total name b e : here total name octet_fails b e <-> b = [] /\ e = DecodeErr name total ErrUnderflow.
Proof.
  unfold here. split.
  - intros (f & F & ->). inversion F. subst. split; [reflexivity|]. unfold told, within. cbn [String.eqb]. change (len (@nil Z)) with 0. now rewrite Z.sub_0_r, Z.add_0_r.
  - intros (-> & ->). exists (Fault "" 0 ErrUnderflow). split; [constructor|]. unfold told, within. cbn [String.eqb]. change (len (@nil Z)) with 0. now rewrite Z.sub_0_r, Z.add_0_r.
Qed.
Definition from (off : Z) (f : fault) : gerr := let (part, at_, why) := f in DecodeErr part (off + at_) why.
Lemma ge_optionals total t b e : Forall is_byte b -> DCS t = 0 ->
  (ge optionals total t b e <-> exists f, optional_fails (FO t) (PI t) b f /\ e = from (total - len b) f).
Proof.
  intros HB HD. unfold optionals. destruct (pi_bits (PI t)) as (P0 & P1 & P2).
  assert (F : forall x y, PI (set_PIDf t x) = PI t /\ FO (set_PIDf t x) = FO t /\ DCS (set_PIDf t x) = 0 /\
    PI (set_DCSf (set_PIDf t x) y) = PI t /\ FO (set_DCSf (set_PIDf t x) y) = FO t /\ DCS (set_DCSf (set_PIDf t x) y) = y)
    by (intros x y; revert HD; dtpdu t; cbn; now intros ->).
  assert (B0 : is_byte 0) by (unfold is_byte; lia).
  assert (LAST : forall t1 y b1, Forall is_byte b1 -> is_byte y -> PI t1 = PI t -> FO t1 = FO t -> DCS t1 = y ->
    (ge [rd_ud pi_udl] total t1 b1 e <-> Z.testbit (PI t) 2 = true /\ here total "ud" (user_data_fails (Z.testbit (FO t) 6) y) b1 e)).
  { intros t1 y b1 B1 By EP EF ED. rewrite ge_ud by (rewrite ?ED; assumption). rewrite EP, EF, ED, P2. reflexivity. }
  assert (MID : forall t1 b1, Forall is_byte b1 -> PI t1 = PI t -> FO t1 = FO t -> DCS t1 = 0 ->
    (ge [rd_opt F_DCS set_DCSf pi_dcs; rd_ud pi_udl] total t1 b1 e <->
     Z.testbit (PI t) 1 = true /\ b1 = [] /\ e = DecodeErr "dcs" total ErrUnderflow \/
     exists dcs dcs_o b2, b1 = dcs_o ++ b2 /\ announced (Z.testbit (PI t) 1) dcs dcs_o /\
       Z.testbit (PI t) 2 = true /\ here total "ud" (user_data_fails (Z.testbit (FO t) 6) dcs) b2 e)).
  { intros t1 b1 B1 EP EF ED. rewrite ge_opt, EP, P1. unfold announced. destruct (Z.testbit (PI t) 1).
    - rewrite octet_here. cbn [field_name]. split.
      + intros [(-> & ->)|(x & b2 & -> & H)]; [now left|]. right. apply Forall_cons_iff in B1 as (Bx & B1).
        apply (LAST (set_DCSf t1 x) x) in H; try assumption; try (now destruct t1). exists x, [x], b2. now split.
      + intros [(_ & -> & ->)|(x & o & b2 & -> & -> & H)]; [now left|]. right. cbn [app] in *. apply Forall_cons_iff in B1 as (Bx & B1).
        exists x, b2. split; [reflexivity|]. apply (LAST (set_DCSf t1 x) x); try assumption; now destruct t1.
    - rewrite (LAST t1 0) by assumption. split.
      + intros H. right. exists 0, [], b1. now split.
      + intros [(X & _)|(x & o & b2 & -> & (-> & ->) & H)]; [discriminate|]. exact H. }
  rewrite ge_opt, P0. destruct (Z.testbit (PI t) 0) eqn:T0.
  - rewrite octet_here. cbn [field_name]. split.
    + intros [(-> & ->)|(x & b1 & -> & H)].
      * exists (Fault "pid" 0 ErrUnderflow). split; [now constructor|]. unfold from. change (len (@nil Z)) with 0. now rewrite Z.sub_0_r, Z.add_0_r.
      * apply Forall_cons_iff in HB as (Bx & HB). destruct (F x 0) as (F1 & F2 & F3 & _). apply MID in H; try assumption.
        destruct H as [(T1 & -> & ->)|(dcs & o & b2 & -> & AN & T2 & [part at_ why] & U & ->)].
        -- exists (Fault "dcs" (len [x]) ErrUnderflow). split; [apply of_dcs with x; [now rewrite T0|exact T1]|]. unfold from. change (len [x]) with 1. now replace (total - 1 + 1) with total by lia.
        -- exists (Fault (within "ud" part) (len [x] + len o + at_) why). split.
           ++ change (x :: o ++ b2) with ([x] ++ o ++ b2). apply of_ud with x dcs; try assumption. now rewrite T0.
           ++ unfold told, from. f_equal. rewrite len_cons, len_app. change (len [x]) with 1. lia.
    + intros (f & O & ->). inversion O as [T|pid po AN T|pid po dcs do_ b2 part at_ why AN AD T U]; subst.
      * left. split; [reflexivity|]. unfold from. change (len (@nil Z)) with 0. now rewrite Z.sub_0_r, Z.add_0_r.
      * unfold announced in AN. rewrite T0 in AN. subst b. right. exists pid, []. split; [reflexivity|].
        destruct (F pid 0) as (F1 & F2 & F3 & _). apply MID; try assumption; [constructor|]. left. split; [exact T|]. split; [reflexivity|].
        unfold from. change (len [pid]) with 1. f_equal. lia.
      * unfold announced in AN. rewrite T0 in AN. subst po. right. exists pid, (do_ ++ b2). split; [reflexivity|].
        apply Forall_app in HB as (_ & HB).
        destruct (F pid 0) as (F1 & F2 & F3 & _). apply MID; try assumption. right. exists dcs, do_, b2. split; [reflexivity|]. split; [exact AD|]. split; [exact T|].
        eexists. split; [exact U|]. unfold told, from. f_equal. rewrite !len_app. change (len [pid]) with 1. lia.
  - rewrite MID by auto. split.
    + intros [(T1 & -> & ->)|(dcs & o & b2 & -> & AN & T2 & [part at_ why] & U & ->)].
      * exists (Fault "dcs" (len (@nil Z)) ErrUnderflow). split; [apply of_dcs with 0; [rewrite T0; now split|exact T1]|]. unfold from. f_equal. change (len (@nil Z)) with 0. lia.
      * exists (Fault (within "ud" part) (len (@nil Z) + len o + at_) why). split.
        -- change (o ++ b2) with ([] ++ o ++ b2). apply of_ud with 0 dcs; try assumption. rewrite T0. now split.
        -- unfold told, from. f_equal. rewrite len_app. change (len (@nil Z)) with 0. lia.
    + intros (f & O & ->). inversion O as [T|pid po AN T|pid po dcs do_ b2 part at_ why AN AD T U]; subst.
      * congruence.
      * unfold announced in AN. rewrite T0 in AN. destruct AN as (-> & ->). left. split; [exact T|]. split; [reflexivity|].
        unfold from. f_equal. change (len (@nil Z)) with 0. lia.
      * unfold announced in AN. rewrite T0 in AN. destruct AN as (-> & ->). right. exists dcs, do_, b2. split; [reflexivity|]. split; [exact AD|]. split; [exact T|].
        eexists. split; [exact U|]. unfold told, from. f_equal. cbn [app]. rewrite !len_app. change (len (@nil Z)) with 0. lia.
Qed.
Lemma ge_last_pi rs total t b e : ge (rd_last_pi :: rs) total t b e <-> exists x b1, b = x :: b1 /\ ge rs total (set_PI t x) b1 e.
Proof.
  destruct b as [|x b].
  - unfold ge. cbn [go r_run rd_last_pi snd]. split; [discriminate|]. intros (x & b1 & X & _). discriminate.
  - rewrite (ge_pass rd_last_pi rs total t (x :: b) (set_PI t x) b) by reflexivity. split; [eauto|]. intros (y & b1 & X & H). injection X as <- <-. exact H.
Qed.
