(** Lemmas for messages that arrive in each other's midst. *)
From Coq Require Import Permutation.
From Verif Require Import GoBase GoLemmas SafeLemmas Utf SpecText Charset Gsm7 Dcs FirstOctet SpecDigits
  UserData Tpdu Segment Sms SpecSelect SpecDcs SpecSms SpecTime SpecVP SpecTpdu Address GoTime ValidityPeriod
  Collector SpecCollect CollectorProofs CollectorMsgProofs P_Collect SpecFlow SegmentProofs SegmentFitProofs SpecSegTpdu SmsProofs FlowProofs
  P_Flow AcceptProofs CmdProofs Readme SpecReadme ReadmeProofs CollectorOrderProofs CollectorHistProofs SpecAlone AloneProofs SpecStream.

(** ** Places *)
Lemma nth_put way i q x j : nth_error way i = Some x ->
  nth_error (put way i q) j = if Nat.eqb j i then Some q else nth_error way j.
Proof.
  intros H. assert (LI : (i < length way)%nat) by (apply nth_error_Some; congruence). unfold put.
  assert (LF : length (firstn i way) = i) by (rewrite firstn_length; lia).
  destruct (Nat.eqb_spec j i) as [->|N].
  - rewrite nth_error_app2 by lia. now rewrite LF, Nat.sub_diag.
  - destruct (Nat.lt_ge_cases j i) as [L|L].
    + rewrite nth_error_app1 by lia. clear - L. revert way j L. induction i as [|i IH]; intros [|y way] [|j] L; try lia; cbn; auto. apply IH. lia.
    + rewrite nth_error_app2 by lia. rewrite LF. destruct (j - i)%nat as [|k] eqn:E; [lia|]. cbn [nth_error].
      replace j with (S i + k)%nat by lia. clear. revert way. induction i as [|i IH]; intros [|y way]; [now destruct k|reflexivity|now destruct k|exact (IH way)].
Qed.

(** ** References *)
Lemma prepared_plain e msg text t ud : template_posted (e_pdu e) -> meant (DCS (e_pdu e)) (e_eopts e) msg text ->
  encode_prepare e msg = Ok (t, ud) -> no_concat (ies (UDH t)).
Proof.
  assert (V : forall e t ud, template_ok (e_pdu e) -> meant (DCS (e_pdu e)) (e_eopts e) msg text ->
    encode_prepare e msg = Ok (t, ud) -> no_concat (ies (UDH t))).
  { clear. intros e t ud HT HM HP. destruct (prep_flow _ _ _ _ _ HT HM HP) as ((_ & _ & _ & HB & _) & _).
    destruct (UDH t) as [l|]; [apply HB|constructor]. }
  assert (S : forall e t ud, template_sent (e_pdu e) -> meant (DCS (e_pdu e)) (e_eopts e) msg text ->
    encode_prepare e msg = Ok (t, ud) -> no_concat (ies (UDH t))).
  { clear - V. intros e t ud [HT|(w & _ & HT)] HM HP; [now apply (V e t ud)|].
    destruct (vp_fields (e_pdu e) w) as (F1 & _). destruct (vp_fields t w) as (_ & F2 & _). rewrite <- F2.
    apply prepare_vp with (w := w) in HP. eapply V; [| |exact HP]; cbn [e_pdu e_eopts]; [exact HT|now rewrite F1]. }
  intros [HT|(w & _ & HT)] HM HP; [now apply (S e t ud)|].
  destruct (scts_fields (e_pdu e) w) as (F1 & _). destruct (scts_fields t w) as (_ & F2 & _). rewrite <- F2.
  apply prepare_scts with (w := w) in HP. eapply S; [| |exact HP]; cbn [e_pdu e_eopts]; [exact HT|now rewrite F1].
Qed.
Lemma sent_header e msg text pdus e' : template_posted (e_pdu e) -> meant (DCS (e_pdu e)) (e_eopts e) msg text ->
  encoder_encode e msg [] = Ok (pdus, e') -> forall p r, In p pdus -> carried p r -> UDH r = UDH p.
Proof.
  assert (V : forall e pdus e', template_ok (e_pdu e) -> meant (DCS (e_pdu e)) (e_eopts e) msg text ->
    encoder_encode e msg [] = Ok (pdus, e') -> forall p r, In p pdus -> carried p r -> UDH r = UDH p).
  { clear. intros e pdus e' HT HM HE p r Hp HC. destruct (encode_flow _ _ _ _ _ _ HE HT HM) as (HW & _).
    rewrite (carried_fun _ _ _ HC (carried_ok p (HW p Hp))). apply received_ud. }
  assert (S : forall e pdus e', template_sent (e_pdu e) -> meant (DCS (e_pdu e)) (e_eopts e) msg text ->
    encoder_encode e msg [] = Ok (pdus, e') -> forall p r, In p pdus -> carried p r -> UDH r = UDH p).
  { clear - V. intros e pdus e' [HT|(w & (W1 & W2 & W3) & HT)] HM HE p r Hp HC; [now apply (V e pdus e')|].
    destruct (encode_vp _ _ _ _ _ w HE) as (e1 & e2 & HE1 & EP & EO & HV). cbv zeta in *. cbn [with_options fold_left] in *.
    destruct (vp_fields (e_pdu e) w) as (F1 & _). destruct (vp_fields p w) as (_ & <- & _).
    eapply V; [| |exact HE1|now apply (in_map (fun p => set_VPf p w))|]; [now rewrite EP|now rewrite EP, EO, F1|].
    rewrite Forall_forall in HV. specialize (HV p Hp). destruct HC as (b & A & B & C). exists b.
    rewrite marshal_vp by congruence. split; [exact A|]. split; [exact B|]. now destruct p. }
  intros [HT|(w & W & HT)] HM HE p r Hp HC; [now apply (S e pdus e')|].
  destruct (encode_scts _ _ _ _ _ w HE) as (e1 & e2 & HE1 & EP & EO & HV). cbv zeta in *. cbn [with_options fold_left] in *.
  destruct (scts_fields (e_pdu e) w) as (F1 & _). destruct (scts_fields p w) as (_ & <- & _).
  eapply S; [| |exact HE1|now apply (in_map (fun p => set_SCTS p w))|]; [now rewrite EP|now rewrite EP, EO, F1|].
  rewrite Forall_forall in HV. destruct (HV p Hp) as [HV' _]. destruct HC as (b & A & B & C). exists b.
  rewrite marshal_scts by congruence. split; [exact A|]. split; [exact B|]. now destruct p.
Qed.
Lemma sent_reference e msg text pdus e' : template_posted (e_pdu e) -> meant (DCS (e_pdu e)) (e_eopts e) msg text ->
  encoder_encode e msg [] = Ok (pdus, e') -> 1 < len pdus -> forall p r n i ref, In p pdus -> carried p r ->
  tpdu_concat_info r = Some (n, i, ref) -> ref = (e_concat_ref e + 1) mod 256.
Proof.
  intros HT HM HE LN p r n i ref Hp HC HI. pose proof (sent_header e msg text pdus e' HT HM HE p r Hp HC) as HU.
  destruct (encoder_encode_ok _ _ _ _ _ HE) as (t & ud & HP & HS & _). cbn [with_options fold_left] in HP.
  pose proof (prepared_plain e msg text t ud HT HM HP) as NC. apply In_nth_error in Hp as (k & Hk).
  pose proof (segment_concat_wraps _ _ _ _ HS NC LN k p Hk) as HQ.
  unfold tpdu_concat_info in HI, HQ. rewrite HU in HI. rewrite HI in HQ. injection HQ as _ _ ->.
  cbn [encoder_seg_cfg sc_cr sc_wide counter_nth]. unfold counter_count. apply wrap64_mod256.
Qed.

Lemma sent_peer e msg text pdus e' : template_posted (e_pdu e) -> meant (DCS (e_pdu e)) (e_eopts e) msg text ->
  encoder_encode e msg [] = Ok (pdus, e') -> forall p r, In p pdus -> carried p r ->
  (tpdu_type r = SmsSubmit -> DA r = peer (e_pdu e)) /\ (tpdu_type r = SmsDeliver -> OA r = peer (e_pdu e)).
Proof.
  assert (D : forall t, template_ok t -> (Direction t = MO /\ fo_mti (FO t) = 1) \/ (Direction t = MT /\ fo_mti (FO t) = 0)).
  { clear. intros t (_ & _ & _ & _ & [H|H]); [left|right]; split; apply H. }
  assert (K : forall t r, template_sent t -> SpecFlow.keeps t r -> (tpdu_type r = SmsSubmit -> DA r = peer t) /\ (tpdu_type r = SmsDeliver -> OA r = peer t)).
  { clear - D. intros t r HT (K1 & K2 & _ & _ & K5 & K6). rewrite K2.
    assert (DT : (Direction t = MO /\ fo_mti (FO t) = 1) \/ (Direction t = MT /\ fo_mti (FO t) = 0)).
    { destruct HT as [HT|(w & _ & HT)]; [now apply D|]. apply D in HT. now destruct t. }
    unfold peer, tpdu_type in *. split; intros H.
    - destruct (K5 H) as [-> _]. destruct DT as [[-> _]|[A B]]; [reflexivity|]. rewrite A, B in H. discriminate H.
    - destruct (K6 H) as [-> _]. destruct DT as [[A B]|[-> _]]; [|reflexivity]. rewrite A, B in H. discriminate H. }
  intros [HT|(w & W & HT)] HM HE p r Hp HC.
  { apply K; [exact HT|]. now apply (C41_fields_partial e msg [] pdus e' text HT HM HE p). }
  destruct (encode_scts _ _ _ _ _ w HE) as (e1 & e2 & HE1 & EP & EO & HV). cbv zeta in *. cbn [with_options fold_left] in *.
  destruct (scts_fields (e_pdu e) w) as (F1 & _).
  assert (peer (e_pdu e) = peer (set_SCTS (e_pdu e) w)) as -> by (now destruct (e_pdu e)). rewrite <- EP.
  apply K; [now rewrite EP|]. apply (C41_fields_partial e1 msg [] (map (fun p => set_SCTS p w) pdus) e2 text) with (p := set_SCTS p w).
  - cbn [with_options fold_left]. now rewrite EP.
  - cbn [with_options fold_left]. now rewrite EP, EO, F1.
  - exact HE1.
  - now apply (in_map (fun p => set_SCTS p w)).
  - rewrite Forall_forall in HV. destruct (HV p Hp) as [HV' _]. destruct HC as (b & A & B & C). exists b.
    rewrite marshal_scts by congruence. split; [exact A|]. split; [exact B|]. now destruct p.
Qed.

(** ** Messages on their way *)
Record flight := { fl_arr : list bytes; fl_text : bytes; fl_msg : option message }.
Definition rd (mo : bool) (b : bytes) : tpdu := match unmarshal b mo with Ok r => r | _ => zero_tpdu end.
Definition good_flight (mo : bool) (f : flight) : Prop :=
  Forall (fun b => Forall is_byte b /\ unmarshal b mo = Ok (rd mo b)) (fl_arr f) /\
  exists rcvd, Permutation (map (rd mo) (fl_arr f)) rcvd /\ decode (map Some rcvd) [] = Ok (fl_text f) /\
  match fl_msg f with
  | None => len rcvd = 1 /\ forall cfg s g, c_closed s = false -> [sg_pdu g] = rcvd -> collect cfg s g = (s, CReturn (Some [Some g]) None)
  | Some m => m_ok m /\ m_total m = len rcvd /\ forall k g, nth_error rcvd k = Some (sg_pdu g) -> is_segment m (Z.of_nat k + 1) g
  end.
Lemma one_flight e msg text sent e' arr :
  template_posted (e_pdu e) -> meant (DCS (e_pdu e)) (e_eopts e) msg text ->
  readme_send_one e msg = Ok (sent, e') -> 1 <= len sent <= 255 -> Permutation sent arr ->
  let mo := Direction (e_pdu e) =? MO in
  e_pdu e' = e_pdu e /\ e_eopts e' = e_eopts e /\
  exists f, fl_arr f = arr /\ fl_text f = text /\ good_flight mo f /\
    match fl_msg f with
    | None => e_concat_ref e' = e_concat_ref e
    | Some m => (m_ref m = (e_concat_ref e + 1) mod 256 /\ m_toa m = a_toa (peer (e_pdu e)) /\ m_addr m = a_addr (peer (e_pdu e))) /\
        e_concat_ref e' mod 256 = (e_concat_ref e + 1) mod 256
    end.
Proof.
  intros HT HM HS LN PE mo. unfold readme_send_one in HS.
  destruct (encoder_encode e msg []) as [[pdus e1]|er| |] eqn:HE; try discriminate.
  2:{ apply ok_pair in HS as [<- <-]. cbn in LN. lia. }
  apply ok_pair in HS as [<- <-].
  pose proof (encoder_encode_ok _ _ _ _ _ HE) as (t0 & ud0 & _ & _ & EA). subst e1. cbn [with_options fold_left] in *.
  split; [reflexivity|]. split; [reflexivity|].
  destruct (posted_end_to_end e msg [] pdus _ text HT HM HE) as (DI & rcvd & CA & DE & ONE & SEV).
  cbn [with_options fold_left] in DI.
  set (oct := fun p => match tpdu_marshal p with Ok b => b | _ => [] end) in *.
  assert (LR : length rcvd = length pdus) by (clear - CA; induction CA; cbn [length]; congruence).
  assert (RD : Forall (fun b => Forall is_byte b /\ unmarshal b mo = Ok (rd mo b)) (map oct pdus) /\ map (rd mo) (map oct pdus) = rcvd).
  { clear - CA DI. induction CA as [|p r ps rs (b & A & B & C) _ IH]; [split; [constructor|reflexivity]|].
    apply Forall_cons_iff in DI as [DP DI]. destruct (IH DI) as [I1 I2]. rewrite DP in C. fold mo in C. cbn [map].
    assert (oct p = b) as -> by (unfold oct; now rewrite A).
    assert (rd mo b = r) as -> by (unfold rd; now rewrite C). split; [constructor; [split; [exact B|]|exact I1]|now rewrite I2].
    unfold rd. rewrite C. reflexivity. }
  destruct RD as [RD1 RD2].
  assert (PR : Permutation (map (rd mo) arr) rcvd) by (rewrite <- RD2; apply Permutation_map; now apply Permutation_sym).
  assert (AR : Forall (fun b => Forall is_byte b /\ unmarshal b mo = Ok (rd mo b)) arr) by (now apply (Permutation_Forall PE)).
  assert (LM : len (map oct pdus) = len pdus) by (now rewrite len_map). rewrite LM in LN.
  assert (LR' : len rcvd = len pdus) by (unfold len; congruence).
  destruct (Z.eq_dec (len pdus) 1) as [E1|N1].
  - exists {| fl_arr := arr; fl_text := text; fl_msg := None |}. split; [reflexivity|]. split; [reflexivity|].
    split; [|cbn [fl_msg advance e_concat_ref]; now rewrite E1].
    split; [exact AR|]. exists rcvd. split; [exact PR|]. split; [exact DE|]. cbn [fl_msg]. rewrite LR'. split; [exact E1|].
    apply ONE. congruence.
  - destruct (SEV ltac:(lia)) as (m & MT & HSeg & _).
    destruct rcvd as [|r0 rcvd]; [rewrite <- LR' in LN; cbn in LN; lia|]. assert (exists p0, In p0 pdus /\ carried p0 r0) as (p0 & IN0 & CA0) by (inversion CA; subst; eexists; split; [now left|eassumption]).
    set (g0 := {| sg_id := 0%nat; sg_pdu := r0 |}). pose proof (HSeg 0%nat g0 eq_refl) as SG. 
    assert (TY : typed g0).
    { assert (In r0 (map (rd mo) arr)) as IN by (apply (Permutation_in r0 (Permutation_sym PR)); now left).
      apply in_map_iff in IN as (b & EB & IN). rewrite Forall_forall in AR. destruct (AR b IN) as [A B]. rewrite EB in B. now apply (read_typed_any mo b). }
    exists {| fl_arr := arr; fl_text := text; fl_msg := Some m |}. split; [reflexivity|]. split; [reflexivity|]. split.
    + split; [exact AR|]. eexists. split; [exact PR|]. split; [exact DE|]. cbn [fl_msg]. split; [|split; [exact MT|exact HSeg]].
      destruct (part_message g0 (m_total m) 1 (m_ref m)) as (m' & MO' & _ & SG' & _); auto.
      * destruct SG as (_ & [(A & B & _)|(A & B & _)]); [left|right]; congruence.
      * apply SG.
      * lia.
      * destruct (segment_message _ _ _ _ _ SG SG') as [-> _]. exact MO'.
    + cbn [fl_msg advance e_concat_ref]. replace (1 <? len pdus) with true by lia. unfold counter_count. rewrite wrap64_mod256.
      split; [|reflexivity]. split; [eapply sent_reference; [exact HT|exact HM|exact HE|lia|exact IN0|exact CA0|]; apply SG|].
      destruct (sent_peer e msg text pdus _ HT HM HE p0 r0 IN0 CA0) as [PS PD]. cbn [g0 sg_pdu] in SG.
      destruct SG as (_ & [(A & B & C)|(A & B & C)]); cbn [g0 sg_pdu] in *; [rewrite <- PS by congruence|rewrite <- PD by congruence]; rewrite C; split; reflexivity.
Qed.

Definition several (f : flight) : Z := match fl_msg f with Some _ => 1 | None => 0 end.
Fixpoint count_several (fs : list flight) : Z := match fs with [] => 0 | f :: fs' => several f + count_several fs' end.
Lemma all_flights mo : forall msgs texts e sent arrived, (Direction (e_pdu e) =? MO) = mo ->
  template_posted (e_pdu e) -> Forall2 (meant (DCS (e_pdu e)) (e_eopts e)) msgs texts ->
  readme_send e msgs = Ok sent -> Forall (fun bs => 1 <= len bs <= 255) sent -> Forall2 (@Permutation bytes) sent arrived ->
  exists fs, map fl_arr fs = arrived /\ map fl_text fs = texts /\ Forall (good_flight mo) fs /\
    forall j f m, nth_error fs j = Some f -> fl_msg f = Some m -> m_ref m = (e_concat_ref e + 1 + count_several (firstn j fs)) mod 256 /\
      m_toa m = a_toa (peer (e_pdu e)) /\ m_addr m = a_addr (peer (e_pdu e)).
Proof.
  intros msgs texts e sent arrived D HT HM. revert sent arrived.
  assert (Q : exists t0 c0, e_pdu e = t0 /\ e_eopts e = c0) by eauto. destruct Q as (t0 & c0 & Q1 & Q2). rewrite Q1 in *. rewrite Q2 in *.
  revert e Q1 Q2. induction HM as [|x y msgs texts M _ IH]; intros e Q1 Q2 sent arrived H LN P; cbn [readme_send] in H.
  - apply ok_inj in H. subst sent. inversion P; subst. exists []. split; [reflexivity|]. split; [reflexivity|]. split; [constructor|].
    intros [|j] f m Hj; discriminate Hj.
  - apply bind_ok in H as ([bs e'] & H1 & H). apply bind_ok in H as (sent' & H2 & H). apply ok_inj in H. subst sent.
    apply Forall_cons_iff in LN as [L1 LN]. inversion P as [|? arr ? arrived' P1 P2]; subst.
    destruct (one_flight e x y bs e' arr HT M H1 L1 P1) as (E1 & E2 & f & F1 & F2 & F3 & F4).
    destruct (IH e' E1 E2 sent' arrived' H2 LN P2) as (fs & G1 & G2 & G3 & G4).
    exists (f :: fs). cbn [map]. split; [congruence|]. split; [congruence|]. split; [constructor; assumption|].
    intros [|j] f' m Hj Hm; cbn [nth_error firstn count_several] in *.
    + injection Hj as <-. rewrite Hm in F4. rewrite Z.add_0_r. apply F4.
    + destruct (G4 j f' m Hj Hm) as (-> & G5). split; [|exact G5]. unfold several. destruct (fl_msg f) as [m0|].
      * destruct F4 as [_ F4].
        replace (e_concat_ref e' + 1 + count_several (firstn j fs)) with (e_concat_ref e' + (1 + count_several (firstn j fs))) by lia.
        rewrite <- Zplus_mod_idemp_l, F4, Zplus_mod_idemp_l. f_equal; lia.
      * rewrite F4. reflexivity.
Qed.
Lemma count_between fs : forall i j f m, nth_error fs i = Some f -> fl_msg f = Some m -> (i < j)%nat ->
  0 < count_several (firstn j fs) - count_several (firstn i fs) <= Z.of_nat (j - i).
Proof.
  assert (B : forall fs j, 0 <= count_several (firstn j fs) <= Z.of_nat j).
  { clear. induction fs as [|f fs IH]; intros [|j]; cbn [firstn count_several]; try lia. specialize (IH j). unfold several. destruct (fl_msg f); lia. }
  induction fs as [|f0 fs IH]; intros i j f m Hi Hm L; [destruct i; discriminate|]. destruct j as [|j]; [lia|]. destruct i as [|i]; cbn [nth_error firstn count_several] in *.
  - injection Hi as ->. unfold several. rewrite Hm. specialize (B fs j). lia.
  - specialize (IH i j f m Hi Hm ltac:(lia)). replace (S j - S i)%nat with (j - i)%nat by lia. lia.
Qed.
Definition spaced (near : nat -> nat -> Prop) (fs : list flight) : Prop :=
  forall i j f f' m, nth_error fs i = Some f -> nth_error fs j = Some f' -> fl_msg f = Some m -> fl_msg f' = Some m ->
  near i j -> i = j.
Lemma refs_spaced c fs : (forall j f m, nth_error fs j = Some f -> fl_msg f = Some m -> m_ref m = (c + 1 + count_several (firstn j fs)) mod 256) -> spaced within256 fs.
Proof.
  intros R. assert (W : forall i j f f' m, nth_error fs i = Some f -> nth_error fs j = Some f' -> fl_msg f = Some m -> fl_msg f' = Some m ->
    (i < j)%nat -> (j < i + 256)%nat -> False).
  { intros i j f f' m Hi Hj Hm Hm' L1 L2. pose proof (R i f m Hi Hm) as R1. rewrite (R j f' m Hj Hm') in R1.
    pose proof (count_between fs i j f m Hi Hm L1) as C. 
    apply (f_equal (fun x => (x - (c + 1 + count_several (firstn i fs)) mod 256) mod 256)) in R1. rewrite <- Zminus_mod, Z.sub_diag in R1.
    rewrite Z.mod_small in R1 by lia. change (0 mod 256) with 0 in R1. lia. }
  intros i j f f' m Hi Hj Hm Hm' [L1 L2]. destruct (Nat.lt_trichotomy i j) as [L|[L|L]]; [|exact L|]; exfalso; eauto.
Qed.

(** ** One TPDU *)
Definition number (r : tpdu) : Z := match tpdu_concat_info r with Some (_, i, _) => i | None => 0 end.
Lemma segment_number m i g : is_segment m i g -> number (sg_pdu g) = i.
Proof. intros (H & _). unfold number. now rewrite H. Qed.
Lemma numbered_parts m rcvd : (forall k g, nth_error rcvd k = Some (sg_pdu g) -> is_segment m (Z.of_nat k + 1) g) ->
  map number rcvd = map (fun k => Z.of_nat k + 1) (seq 0 (length rcvd)).
Proof.
  intros H. apply nth_error_ext; [now rewrite !map_length, seq_length|]. intros k x Hk. rewrite nth_error_map in *.
  destruct (nth_error rcvd k) as [r|] eqn:E; [|discriminate]. cbn [option_map] in Hk. injection Hk as <-.
  assert (L : (k < length rcvd)%nat) by (apply nth_error_Some; congruence).
  rewrite (nth_error_nth' _ 0%nat) by (now rewrite seq_length). rewrite seq_nth by exact L. cbn [option_map Nat.add]. f_equal.
  symmetry. exact (segment_number m _ {| sg_id := 0%nat; sg_pdu := r |} (H k {| sg_id := 0%nat; sg_pdu := r |} E)).
Qed.
(** The segments of a complete message in their places. *)
Lemma in_order_whole m rcvd got : (forall k g, nth_error rcvd k = Some (sg_pdu g) -> is_segment m (Z.of_nat k + 1) g) ->
  m_total m = len rcvd -> numbered (total m) (rev got) -> Forall (fun p => seg_no m (snd p) = Some (fst p)) got ->
  Permutation (map (fun p => sg_pdu (snd p)) got) rcvd ->
  map (option_map sg_pdu) (in_order (m_total m) got) = map Some rcvd.
Proof.
  intros H T NU SN P. unfold in_order. rewrite map_map. apply nth_error_ext.
  { rewrite !map_length, seq_length, T. unfold len. lia. }
  intros k x Hk. rewrite !nth_error_map in *. destruct (nth_error (seq 1 (Z.to_nat (m_total m))) k) as [q|] eqn:E; [|discriminate].
  cbn [option_map] in Hk. injection Hk as <-.
  assert (L : (k < length rcvd)%nat) by (assert (k < length (seq 1 (Z.to_nat (m_total m))))%nat by (apply nth_error_Some; congruence); rewrite seq_length, T in *; unfold len in *; lia).
  apply nth_error_nth with (d := 0%nat) in E. rewrite seq_nth in E by (rewrite T; unfold len; lia). subst q.
  destruct (nth_error rcvd k) as [r|] eqn:E; [|apply nth_error_None in E; lia]. cbn [option_map]. f_equal.
  assert (IN : In r (map (fun p => sg_pdu (snd p)) got)) by (apply (Permutation_in r (Permutation_sym P)); eapply nth_error_In; eauto).
  apply in_map_iff in IN as ([i g] & EQ & IN). cbn [snd] in EQ.
  rewrite Forall_forall in SN. specialize (SN _ IN). cbn [fst snd] in SN. apply seg_no_iff in SN.
  assert (SG : is_segment m (Z.of_nat k + 1) g) by (apply H; congruence).
  destruct (segment_message _ _ _ _ _ SN SG) as [_ ->].
  replace (Z.of_nat (1 + k)) with (Z.of_nat k + 1) by lia.
  rewrite (proj2 (slot_iff _ _ _ _ NU) IN). cbn [option_map]. congruence.
Qed.

(** ** The loop *)
Section Loop.
Context (mo : bool) (near : nat -> nat -> Prop) (fs : list flight) (GOOD : Forall (good_flight mo) fs) (SPACED : spaced near fs).
Let start := map fl_arr fs.

Record stream_inv (way : list (list bytes)) (s : cstate) : Prop := {
  si_inv : Inv readme_cfg None s;
  si_minv : MInv s;
  si_open : c_closed s = false;
  si_length : length way = length fs;
  si_suffix : forall j f q, nth_error fs j = Some f -> nth_error way j = Some q -> exists pre, fl_arr f = pre ++ q;
  si_msg : forall j f m q pre, nth_error fs j = Some f -> fl_msg f = Some m -> nth_error way j = Some q -> fl_arr f = pre ++ q ->
    exists r, sim m s r /\ r_late r = false /\ Forall (fun p => seg_no m (snd p) = Some (fst p)) (r_got r) /\
      (pre <> [] -> q <> [] -> map (fun p => sg_pdu (snd p)) (rev (r_got r)) = map (rd mo) pre) /\
      ((forall j' f', incomplete start way j' -> nth_error fs j' = Some f' -> fl_msg f' <> Some m) -> r_got r = [])
}.

Lemma split_incomplete way j f pre q : nth_error fs j = Some f -> nth_error way j = Some q -> fl_arr f = pre ++ q ->
  (incomplete start way j <-> pre <> [] /\ q <> []).
Proof.
  intros H1 H2 H3. assert (HS : nth_error start j = Some (pre ++ q)) by (unfold start; now rewrite nth_error_map, H1, <- H3).
  split.
  - intros (q0 & q' & A & B & L). rewrite HS in A. injection A as <-. rewrite H2 in B. injection B as <-. rewrite app_length in L.
    split; intros ->; cbn in L; lia.
  - intros [A B]. exists (pre ++ q), q. split; [exact HS|]. split; [exact H2|]. rewrite app_length. destruct pre, q; try congruence. cbn. lia.
Qed.
Lemma incomplete_put way i b q j : nth_error way i = Some (b :: q) -> j <> i -> (incomplete start (put way i q) j <-> incomplete start way j).
Proof.
  intros H N. unfold incomplete. rewrite (nth_put way i q _ j H). apply Nat.eqb_neq in N. rewrite N. reflexivity.
Qed.

Lemma stream_start : stream_inv start new_collector.
Proof.
  constructor.
  - apply inv_new.
  - apply minv_new.
  - reflexivity.
  - unfold start. now rewrite map_length.
  - intros j f q H1 H2. unfold start in H2. rewrite nth_error_map, H1 in H2. injection H2 as <-. now exists [].
  - intros j f m q pre H1 H2 H3 H4. unfold start in H3. rewrite nth_error_map, H1 in H3. injection H3 as <-.
    assert (pre = []) as -> by (destruct pre; [reflexivity|]; apply (f_equal (@length bytes)) in H4; rewrite app_length in H4; cbn in H4; lia).
    exists m_start. split; [|split; [reflexivity|split; [constructor|split; [congruence|reflexivity]]]].
    rewrite Forall_forall in GOOD. destruct (GOOD f (nth_error_In _ _ H1)) as (_ & rcvd & _ & _ & G). rewrite H2 in G. apply sim_start. apply G.
Qed.

Lemma stream_step way s n i b q f : stream_inv way s -> nth_error way i = Some (b :: q) -> nth_error fs i = Some f ->
  (forall j, incomplete start way j -> near i j) ->
  unmarshal b mo = Ok (rd mo b) /\
  exists s' c, collect readme_cfg s {| sg_id := n; sg_pdu := rd mo b |} = (s', CReturn c None) /\ stream_inv (put way i q) s' /\
    match q with
    | [] => exists segs, c = Some segs /\ segs <> [] /\ decode (map (option_map sg_pdu) segs) [] = Ok (fl_text f)
    | _ => c = None
    end.
Proof.
  intros SI HW HF WIN. destruct (si_suffix way s SI i f _ HF HW) as (pre & EA).
  pose proof (proj1 (Forall_forall _ _) GOOD f (nth_error_In _ _ HF)) as (RD & rcvd & PR & DE & KIND).
  assert (RB : Forall is_byte b /\ unmarshal b mo = Ok (rd mo b)).
  { rewrite Forall_forall in RD. apply RD. rewrite EA. apply in_or_app. right. now left. }
  split; [apply RB|]. set (g := {| sg_id := n; sg_pdu := rd mo b |}).
  assert (TY : typed_event (EvCollect g)) by (apply (read_typed_any mo b); apply RB).
  assert (SUF : forall j f' q', nth_error fs j = Some f' -> nth_error (put way i q) j = Some q' -> exists pre', fl_arr f' = pre' ++ q').
  { intros j f' q' H1 H2. rewrite (nth_put way i q _ j HW) in H2. destruct (Nat.eqb_spec j i) as [->|N].
    - injection H2 as <-. rewrite HF in H1. injection H1 as <-. exists (pre ++ [b]). now rewrite <- app_assoc.
    - exact (si_suffix way s SI j f' q' H1 H2). }
  assert (LEN : length (put way i q) = length fs).
  { rewrite <- (si_length way s SI). assert (i < length way)%nat by (apply nth_error_Some; congruence).
    unfold put. rewrite app_length, firstn_length. cbn [length]. rewrite skipn_length. lia. }
  destruct (fl_msg f) as [m|] eqn:EM.
  - (* one of several *)
    destruct KIND as (MO & MT & HSeg).
    destruct (si_msg way s SI i f m _ pre HF EM HW EA) as (r & SIM & LT & SN & G1 & G2).
    assert (GOT : map (fun p => sg_pdu (snd p)) (rev (r_got r)) = map (rd mo) pre).
    { destruct pre as [|b0 pre]; [|apply G1; discriminate]. rewrite G2; [reflexivity|].
      intros j' f' IC Hj Em. pose proof (WIN j' IC) as W1.
      assert (i = j') as <- by (eapply SPACED; eauto). apply (split_incomplete way i f [] (b :: q) HF HW EA) in IC. tauto. }
    assert (IN : exists k, nth_error rcvd k = Some (rd mo b)).
    { apply In_nth_error. apply (Permutation_in _ PR). rewrite EA, map_app. apply in_or_app. right. now left. }
    destruct IN as (k & Hk). pose proof (HSeg k g Hk) as SG. pose proof (proj2 (seg_no_iff m _ g) SG) as HS.
    assert (RK : 1 <= Z.of_nat k + 1 <= m_total m).
    { assert (k < length rcvd)%nat by (apply nth_error_Some; congruence). rewrite MT. unfold len. lia. }
    assert (ND : NoDup (map number (map (rd mo) (fl_arr f)))).
    { apply (Permutation_NoDup (l := map number rcvd)); [apply Permutation_map; now apply Permutation_sym|]. rewrite (numbered_parts m rcvd HSeg).
      apply FinFun.Injective_map_NoDup; [intros x y; lia|apply seq_NoDup]. }
    assert (NEW : existsb (fun ig => fst ig =? Z.of_nat k + 1) (r_got r) = false).
    { apply not_true_iff_false. intros E. apply existsb_exists in E as ([i0 g0] & I0 & E). cbn [fst] in E. apply Z.eqb_eq in E. subst i0.
      rewrite Forall_forall in SN. pose proof (SN _ I0) as S0. cbn [fst snd] in S0. apply seg_no_iff, segment_number in S0.
      assert (IP : In (sg_pdu g0) (map (rd mo) pre)) by (rewrite <- GOT; apply (in_map (fun p => sg_pdu (snd p)) _ (Z.of_nat k + 1, g0)); now apply -> in_rev).
      rewrite EA, !map_app in ND. cbn [map] in ND. apply NoDup_remove_2 in ND. apply ND. apply in_or_app. left.
      apply segment_number in SG. cbn [g sg_pdu] in SG. rewrite SG, <- S0. now apply in_map. }
    assert (LG : length (r_got r) = length pre).
    { apply (f_equal (@length tpdu)) in GOT. now rewrite !map_length, rev_length in GOT. }
    assert (LT2 : m_total m = Z.of_nat (length pre + 1 + length q)).
    { rewrite MT. apply Permutation_length in PR. rewrite map_length, EA, app_length in PR. cbn [length] in PR. unfold len. lia. }
    destruct (step readme_cfg s (EvCollect g)) as [s1 o] eqn:ST.
    destruct (sim_part readme_cfg m MO s _ g s1 o r (si_inv _ _ SI) (si_minv _ _ SI) HS ST SIM) as [SIM1 OUT].
    destruct (inv_step readme_cfg s _ s1 o (si_inv _ _ SI) ST) as (I1 & _).
    pose proof (minv_step readme_cfg s _ s1 o (si_inv _ _ SI) (si_minv _ _ SI) TY ST) as M1.
    pose proof SIM as (CL & NU & _). rewrite (si_open _ _ SI) in CL.
    cbn [react] in SIM1, OUT. rewrite <- CL, NEW, LT in SIM1, OUT.
    replace (negb ((1 <=? Z.of_nat k + 1) && (Z.of_nat k + 1 <=? m_total m))) with false in SIM1, OUT by lia.
    (* the message of [i] after the step *)
    assert (AFTER : exists r1 c, o = OCollect (CReturn c None) /\ sim m s1 r1 /\ r_late r1 = false /\ r_closed r1 = false /\
      Forall (fun p => seg_no m (snd p) = Some (fst p)) (r_got r1) /\
      match q with
      | [] => r_got r1 = [] /\ exists segs, c = Some segs /\ segs <> [] /\ decode (map (option_map sg_pdu) segs) [] = Ok (fl_text f)
      | _ => c = None /\ map (fun p => sg_pdu (snd p)) (rev (r_got r1)) = map (rd mo) (pre ++ [b])
      end).
    { assert (NU1 : numbered (total m) (rev ((Z.of_nat k + 1, g) :: r_got r))).
      { apply numbered_rev_cons. split; [exact NU|]. split; [unfold total; lia|exact NEW]. }
      assert (SN1 : Forall (fun p => seg_no m (snd p) = Some (fst p)) ((Z.of_nat k + 1, g) :: r_got r)) by (constructor; auto).
      assert (GOT1 : map (fun p => sg_pdu (snd p)) (rev ((Z.of_nat k + 1, g) :: r_got r)) = map (rd mo) (pre ++ [b])).
      { cbn [rev]. rewrite !map_app, GOT. reflexivity. }
      destruct q as [|b' q].
      - replace (len (r_got r) + 1 =? m_total m) with true in SIM1, OUT by (unfold len; cbn [length] in LT2; lia).
        cbn [fst snd] in SIM1, OUT. injection OUT as <-. eexists _, _. split; [reflexivity|]. split; [exact SIM1|].
        split; [reflexivity|]. split; [reflexivity|]. split; [constructor|]. split; [reflexivity|]. eexists. split; [reflexivity|]. split.
        + intros E. apply (f_equal (@length (option seg))) in E. unfold in_order in E. rewrite map_length, seq_length in E. cbn in E.
          destruct MO as (_ & _ & _ & T2). lia.
        + rewrite (in_order_whole m rcvd); auto. rewrite <- PR, EA, <- GOT1. apply Permutation_map, Permutation_rev.
      - replace (len (r_got r) + 1 =? m_total m) with false in SIM1, OUT by (unfold len; cbn [length] in LT2; lia).
        cbn [fst snd] in SIM1, OUT. injection OUT as <-. eexists _, _. split; [reflexivity|]. split; [exact SIM1|].
        split; [reflexivity|]. split; [reflexivity|]. split; [exact SN1|]. split; [reflexivity|exact GOT1]. }
    destruct AFTER as (r1 & c & -> & SIM1' & LT1 & CL1 & SN1 & END). clear SIM1 OUT.
    exists s1, c. split; [cbn [step] in ST; destruct (collect readme_cfg s g); congruence|].
    split; [|destruct q; tauto].
    constructor; auto; [destruct SIM1' as (X & _); congruence|].
    intros j f' m' q' pre' Hj Em Hq Ep. destruct (Nat.eq_dec j i) as [->|NJ].
    + rewrite HF in Hj. injection Hj as <-. rewrite EM in Em. injection Em as <-.
      rewrite (nth_put way i q _ i HW), Nat.eqb_refl in Hq. injection Hq as <-.
      assert (pre' = pre ++ [b]) as ->.
      { apply (app_inv_tail q). rewrite <- Ep, EA, <- app_assoc. reflexivity. }
      exists r1. split; [exact SIM1'|]. split; [exact LT1|]. split; [exact SN1|]. split.
      * intros _ NQ. destruct q; [congruence|]. apply END.
      * intros NO. destruct q as [|b' q]; [apply END|]. exfalso. apply (NO i f); auto.
        apply (split_incomplete (put way i (b' :: q)) i f (pre ++ [b]) (b' :: q)); auto.
        -- now rewrite (nth_put way i _ _ i HW), Nat.eqb_refl.
        -- split; [now destruct pre|discriminate].
    + pose proof Hq as Hq'. rewrite (nth_put way i q _ j HW), (proj2 (Nat.eqb_neq j i) NJ) in Hq.
      assert (MO' : m_ok m').
      { pose proof (proj1 (Forall_forall _ _) GOOD f' (nth_error_In _ _ Hj)) as (_ & rc & _ & _ & K). rewrite Em in K. apply K. }
      destruct (seg_no m' g) as [i'|] eqn:ES.
      * apply seg_no_iff in ES. destruct (segment_message _ _ _ _ _ SG ES) as [<- _].
        assert (NI : ~ incomplete start way j).
        { intros IC. pose proof (WIN j IC) as W1. apply NJ. symmetry. eapply SPACED; eauto. }
        exists r1. split; [exact SIM1'|]. split; [exact LT1|]. split; [exact SN1|]. split.
        -- intros A B. exfalso. apply NI. apply (split_incomplete way j f' pre' q'); auto.
        -- intros NO. destruct q as [|b' q]; [apply END|]. exfalso. apply (NO i f); auto.
           apply (split_incomplete (put way i (b' :: q)) i f (pre ++ [b]) (b' :: q)); auto.
           ++ now rewrite (nth_put way i _ _ i HW), Nat.eqb_refl.
           ++ now rewrite <- app_assoc.
           ++ split; [now destruct pre|discriminate].
      * destruct (si_msg way s SI j f' m' q' pre' Hj Em Hq Ep) as (r' & S' & L' & N' & A' & B').
        exists r'. split; [|split; [exact L'|split; [exact N'|split; [exact A'|]]]].
        -- apply (sim_other readme_cfg m' MO' s (EvCollect g) s1 _ r' (si_inv _ _ SI) (si_minv _ _ SI) TY) in ST; auto. cbn [concerns]. now rewrite ES.
        -- intros NO. apply B'. intros j' f'' IC Hj' Em'. destruct (Nat.eq_dec j' i) as [->|NJ'].
           ++ rewrite HF in Hj'. injection Hj' as <-. rewrite EM in Em'. injection Em' as <-. congruence.
           ++ apply (NO j' f''); auto. now apply (incomplete_put way i b q j' HW NJ').
  - (* alone *)
    destruct KIND as (L1 & ONE).
    assert (pre = [] /\ q = []) as [-> ->].
    { apply Permutation_length in PR. rewrite map_length, EA, app_length in PR. cbn [length] in PR. unfold len in L1.
      split; apply length_zero_iff_nil; lia. }
    assert (rcvd = [rd mo b]) as ->.
    { rewrite EA in PR. cbn [app map] in PR. now apply Permutation_length_1_inv in PR. }
    exists s. eexists. split; [exact (ONE readme_cfg s g (si_open _ _ SI) eq_refl)|].
    split; [|eexists; split; [reflexivity|split; [discriminate|exact DE]]].
    destruct SI as [I1 I2 I3 I4 I5 I6]. constructor; auto.
    intros j f' m' q' pre' Hj Em Hq Ep.
    assert (NJ : j <> i) by (intros ->; congruence).
    rewrite (nth_put way i _ _ j HW), (proj2 (Nat.eqb_neq j i) NJ) in Hq.
    destruct (I6 j f' m' q' pre' Hj Em Hq Ep) as (r' & S' & L' & N' & A' & B').
    exists r'. split; [exact S'|]. split; [exact L'|]. split; [exact N'|]. split; [exact A'|].
    intros NO. apply B'. intros j' f'' IC Hj' Em'. assert (NJ' : j' <> i) by (intros ->; congruence).
    apply (NO j' f''); auto. now apply (incomplete_put way i b [] j' HW NJ').
Qed.

Lemma stream_loop : forall sched way s n, stream_inv way s -> in_window near start way sched ->
  readme_receive mo s n (arrival way sched) = (completed way (map fl_text fs) sched, Waits).
Proof.
  induction sched as [|i sched IH]; intros way s n SI W; [reflexivity|]. cbn [arrival completed in_window] in *.
  destruct (nth_error way i) as [[|b q]|] eqn:HW; [now apply IH| |now apply IH]. destruct W as [WIN W].
  destruct (nth_error fs i) as [f|] eqn:HF.
  2:{ apply nth_error_None in HF. assert (i < length way)%nat by (apply nth_error_Some; congruence). rewrite (si_length _ _ SI) in *. lia. }
  destruct (stream_step way s n i b q f SI HW HF WIN) as (U & s' & c & E & SI' & R). specialize (IH _ s' (S n) SI' W).
  cbn [readme_receive]. rewrite U, E, IH. destruct q as [|b' q].
  - destruct R as (segs & -> & NE & D). rewrite nth_error_map, HF. cbn [option_map]. rewrite D. destruct segs; [congruence|reflexivity].
  - rewrite R. reflexivity.
Qed.
End Loop.

(** ** Several senders *)
Lemma concat_place {A} (ls : list (list A)) : forall i x, nth_error (concat ls) i = Some x ->
  exists l, nth_error ls (sender (map (@length A) ls) i) = Some l /\ exists i', nth_error l i' = Some x /\
    i = (length (concat (firstn (sender (map (@length A) ls) i) ls)) + i')%nat.
Proof.
  induction ls as [|l ls IH]; intros i x H; [destruct i; discriminate|]. cbn [concat map sender] in *.
  destruct (Nat.ltb_spec i (length l)) as [L|L].
  - rewrite nth_error_app1 in H by exact L. exists l. split; [reflexivity|]. exists i. split; [exact H|reflexivity].
  - rewrite nth_error_app2 in H by exact L. destruct (IH _ _ H) as (l' & H1 & i' & H2 & H3). exists l'. split; [exact H1|]. exists i'. split; [exact H2|].
    cbn [firstn concat]. rewrite app_length. lia.
Qed.
Lemma senders_spaced (fss : list (list flight)) (peers : list address) : Forall (spaced within256) fss ->
  Forall2 (fun fs a => forall f m, In f fs -> fl_msg f = Some m -> m_toa m = a_toa a /\ m_addr m = a_addr a) fss peers ->
  NoDup peers -> spaced (within256_of (map (@length flight) fss)) (concat fss).
Proof.
  intros FS FP ND i j f f' m Hi Hj Hm Hm' W.
  destruct (concat_place fss i f Hi) as (l & L1 & i' & L2 & L3). destruct (concat_place fss j f' Hj) as (l' & L1' & j' & L2' & L3').
  unfold within256_of in W. set (a := sender (map (@length flight) fss) i) in *. set (a' := sender (map (@length flight) fss) j) in *.
  assert (NP : forall k l, nth_error fss k = Some l -> exists p, nth_error peers k = Some p /\ forall f m, In f l -> fl_msg f = Some m -> m_toa m = a_toa p /\ m_addr m = a_addr p).
  { clear - FP. induction FP as [|x p fss peers H _ IH]; intros [|k] l E; try discriminate; cbn [nth_error] in *; [|now apply IH]. injection E as <-. eauto. }
  assert (EQ : a = a').
  { destruct (NP _ _ L1) as (p & P1 & P2). destruct (NP _ _ L1') as (p' & P1' & P2').
    destruct (P2 f m (nth_error_In _ _ L2) Hm) as [A B]. destruct (P2' f' m (nth_error_In _ _ L2') Hm') as [A' B'].
    assert (p = p') by (destruct p, p'; cbn in *; congruence). subst p'.
    apply (proj1 (NoDup_nth_error peers) ND); [apply nth_error_Some; congruence|congruence]. }
  rewrite <- EQ in *. specialize (W eq_refl). assert (l' = l) by congruence. subst l'.
  rewrite Forall_forall in FS. specialize (FS l (nth_error_In _ _ L1)).
  assert (i' = j') by (apply (FS i' j' f f' m L2 L2' Hm Hm'); unfold within256 in *; lia). lia.
Qed.
