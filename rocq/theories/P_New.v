(** C75: a TPDU or an Encoder made with options has what the options ask. *)
From Verif Require Import GoBase GoLemmas SafeLemmas Dcs SpecDcs FirstOctet Address UserData Tpdu Segment
  SegmentProofs SpecSegTpdu FlagsProofs SpecOptions Gsm7OptionsProofs Sms SpecSms SmsProofs EncodeProofs SegmentFitProofs SpecNew.

Lemma chosen_nil {A B} (f : A -> option B) d : chosen f [] d d.
Proof. exists None. split; [constructor|reflexivity]. Qed.
Lemma chosen_snoc {A B} (f : A -> option B) l x d v : chosen f l d v ->
  chosen f (l ++ [x]) d (match f x with Some b => b | None => v end).
Proof.
  intros (o & H & ->). destruct (f x) as [b|] eqn:E.
  - exists (Some b). split; [|reflexivity]. exists l, x, []. repeat split; [exact E|constructor].
  - exists o. split; [|reflexivity]. destruct o as [b|].
    + destruct H as (p & y & q & -> & Hy & Hq). exists p, y, (q ++ [x]).
      rewrite <- app_assoc. cbn [app]. split; [reflexivity|]. split; [exact Hy|].
      apply Forall_app. split; [exact Hq|]. constructor; [exact E|constructor].
    + cbn [last_such] in *. apply Forall_app. split; [exact H|]. constructor; [exact E|constructor].
Qed.
Lemma chosen_cons_none {A B} (f : A -> option B) x l d v : chosen f (x :: l) d v ->
  Forall (fun y => f y = None) l -> v = match f x with Some b => b | None => d end.
Proof.
  intros (o & H & ->) HN. destruct o as [b|].
  - destruct H as (p & y & q & E & Hy & Hq). destruct p as [|z p]; cbn [app] in E; injection E as E1 E2; subst.
    + now rewrite Hy.
    + apply Forall_app in HN as (_ & HN). pose proof (Forall_inv HN) as K. cbn in K. congruence.
  - cbn [last_such] in H. pose proof (Forall_inv H) as K. cbn in K. now rewrite K.
Qed.
Lemma has_asked_nil T : has_asked T [] T.
Proof.
  unfold has_asked. repeat (split; [first [apply chosen_nil | intros n _; reflexivity | reflexivity
    | split; [intros H; left; exact H|intros [H|(d & [])]; exact H]]|]). reflexivity.
Qed.
Lemma same_bits_trans l x y z : same_bits_except l x y -> same_bits_except l y z -> same_bits_except l x z.
Proof. intros A B n H. rewrite B, A by exact H. reflexivity. Qed.
Lemma same_bits_more l l' x y : (forall n, In n l -> In n l') -> same_bits_except l x y -> same_bits_except l' x y.
Proof. intros S A n H. apply A. intros I. apply H, S, I. Qed.
Lemma testbit_lor2 x : Z.testbit (Z.lor x PiDCS) 1 = true.
Proof. exact (proj2 (lor_bit x 1 ltac:(lia))). Qed.
Lemma in_dcs_snoc opts x : (forall d, x <> OptDCS d) ->
  (exists d, In (OptDCS d) (opts ++ [x])) <-> (exists d, In (OptDCS d) opts).
Proof.
  intros N. split; intros (d & H); exists d; [|apply in_or_app; now left].
  apply in_app_or in H as [H|[H|[]]]; [exact H|]. destruct (N d H).
Qed.

(** Applying an option, or failing to. *)
Lemma has_asked_step T opts t x : has_asked T opts t -> is_byte (FO t) -> proper_opt x ->
  match apply_tpdu_opt t x with
  | Ok t' => has_asked T (opts ++ [x]) t' /\ is_byte (FO t') /\ ~ bad_opt x
  | Err e => e = ErrInvalid /\ bad_opt x /\ has_asked T (opts ++ [x]) t
  | _ => False
  end.
Proof.
  intros (D & M & F & C & P1 & P & A & O & U & R) HB HP.
  pose proof (chosen_snoc _ _ x _ _ D) as D'. pose proof (chosen_snoc _ _ x _ _ M) as M'.
  pose proof (chosen_snoc _ _ x _ _ C) as C'. pose proof (chosen_snoc _ _ x _ _ A) as A'.
  pose proof (chosen_snoc _ _ x _ _ O) as O'. pose proof (chosen_snoc _ _ x _ _ U) as U'.
  clear D M C A O U.
  assert (MM : forall m, 0 <= m <= 3 -> is_byte (fo_with_mti (FO t) m) /\ fo_with_mti (FO t) m mod 4 = m /\
    same_bits_except [0; 1] (FO T) (fo_with_mti (FO t) m)).
  { intros m Hm. destruct (with_mti_spec _ _ HB Hm) as (B1 & B2 & B3). split; [exact B1|]. split.
    - rewrite <- B2 at 2. unfold fo_mti, FoMTIMask. change 3 with (Z.ones 2). rewrite Z.land_ones by lia. reflexivity.
    - eapply same_bits_trans; eassumption. }
  unfold is_byte in *. dtpdu t.
  destruct x as [m|d|st|d|a|a|u]; cbn [apply_tpdu_opt]; unfold has_asked;
    cbn [Direction FO OA FCS MR CT MN DA RA PI SCTS DT ST PID DCS VP UDH UD set_Direction set_FO set_DA set_OA
         set_UDHf set_dcs set_DCSf set_PI bad_opt asks_direction asks_mti asks_dcs asks_da asks_oa asks_udh
         proper_opt] in *.
  all: try rewrite in_dcs_snoc by discriminate.
  - destruct (MM m HP) as (B1 & B2 & B3). rewrite B2. repeat split; try tauto; assumption.
  - repeat split; try tauto; assumption.
  - unfold set_sms_type. unfold known_type, SmsCommand in *.
    cbn [FO Direction set_FO set_Direction] in *.
    destruct ((st <? 0) || (5 <? st)) eqn:E.
    + replace ((0 <=? st) && (st <=? 5)) with false in * by lia.
      cbn [Direction FO OA FCS MR CT MN DA RA PI SCTS DT ST PID DCS VP UDH UD].
      rewrite in_dcs_snoc by discriminate. split; [reflexivity|]. split; [reflexivity|].
      repeat split; try tauto; assumption.
    + replace ((0 <=? st) && (st <=? 5)) with true in * by lia.
      assert (Hs : Z.shiftr st 1 = st / 2) by (rewrite Z.shiftr_div_pow2 by lia; reflexivity).
      rewrite Hs. assert (Hl : Z.land st 1 = st mod 2) by (change 1 with (Z.ones 1); rewrite Z.land_ones by lia; reflexivity).
      rewrite Hl. destruct (MM (st / 2) ltac:(lia)) as (B1 & B2 & B3).
      cbn [Direction FO OA FCS MR CT MN DA RA PI SCTS DT ST PID DCS VP UDH UD set_FO set_Direction].
      rewrite in_dcs_snoc by discriminate. rewrite B2. repeat split; try tauto; try assumption. discriminate.
  - rewrite testbit_lor2. repeat split; try tauto; try assumption.
    + intros _. right. exists d. apply in_or_app. right. now left.
    + eapply same_bits_trans; [exact P|]. exact (proj1 (lor_bit _ 1 ltac:(lia))).
  - repeat split; try tauto; assumption.
  - repeat split; try tauto; assumption.
  - repeat split; try tauto; assumption.
Qed.

Lemma apply_tpdu_opts_snoc l x : forall t,
  apply_tpdu_opts t (l ++ [x]) = bind (apply_tpdu_opts t l) (fun t' => apply_tpdu_opt t' x).
Proof.
  induction l as [|y l IH]; intros t; cbn [app apply_tpdu_opts].
  - cbn [bind]. destruct (apply_tpdu_opt t x); reflexivity.
  - destruct (apply_tpdu_opt t y) as [t1|e| |]; cbn [bind]; [apply IH|reflexivity|reflexivity|reflexivity].
Qed.
Lemma apply_opts_asked T : is_byte (FO T) -> forall opts, Forall proper_opt opts ->
  match apply_tpdu_opts T opts with
  | Ok t => has_asked T opts t /\ is_byte (FO t) /\ Forall (fun o => ~ bad_opt o) opts
  | Err e => e = ErrInvalid /\ Exists bad_opt opts
  | _ => False
  end.
Proof.
  intros HT. induction opts as [|x l IH] using rev_ind; intros HP.
  { cbn [apply_tpdu_opts]. split; [apply has_asked_nil|]. split; [exact HT|constructor]. }
  apply Forall_app in HP as (HP & HX). pose proof (Forall_inv HX) as Hx. rewrite apply_tpdu_opts_snoc.
  specialize (IH HP). destruct (apply_tpdu_opts T l) as [t|e| |]; cbn [bind]; try contradiction.
  - destruct IH as (HA & HB & HG). pose proof (has_asked_step _ _ _ _ HA HB Hx) as S.
    destruct (apply_tpdu_opt t x) as [t'|e| |]; try contradiction.
    + destruct S as (S1 & S2 & S3). split; [exact S1|]. split; [exact S2|].
      apply Forall_app. split; [exact HG|]. constructor; [exact S3|constructor].
    + destruct S as (S1 & S2 & _). split; [exact S1|]. apply Exists_app. right. now constructor.
  - destruct IH as (-> & HE). split; [reflexivity|]. apply Exists_app. now left.
Qed.

(** New fails exactly if an option is a message type there is not; else the TPDU
    has, of each kind, what the last option asks, and is otherwise empty. *)
Theorem C75_new : forall opts, Forall proper_opt opts ->
  match tpdu_new opts with
  | Ok t => has_asked new_tpdu opts t /\ Forall (fun o => ~ bad_opt o) opts
  | Err e => e = ErrInvalid /\ Exists bad_opt opts
  | _ => False
  end.
Proof.
  intros opts HP. pose proof (apply_opts_asked new_tpdu ltac:(unfold is_byte; cbn; lia) opts HP) as H.
  unfold tpdu_new. destruct (apply_tpdu_opts new_tpdu opts) as [t|e| |]; try exact H. tauto.
Qed.
Print Assumptions C75_new.
(** NewDeliver and NewSubmit make a TPDU of that type unless an option asks for
    another. *)
Theorem C75_new_typed : forall opts t,
  Forall proper_opt opts ->
  Forall (fun o => asks_direction o = None) opts -> Forall (fun o => asks_mti o = None) opts ->
  (tpdu_new_deliver opts = Ok t -> Direction t = 0 /\ FO t = 0) /\
  (tpdu_new_submit opts = Ok t -> Direction t = 1 /\ FO t = 1).
Proof.
  intros opts t HP HD HM.
  assert (G : forall st, 0 <= st <= 3 -> tpdu_new (OptSmsType st :: opts) = Ok t ->
            Direction t = st mod 2 /\ FO t = st / 2).
  { intros st Hs H. pose proof (C75_new (OptSmsType st :: opts) (@Forall_cons _ proper_opt (OptSmsType st) opts I HP)) as K. rewrite H in K.
    destruct K as ((D & M & F & _) & _).
    apply chosen_cons_none in D; [|exact HD]. apply chosen_cons_none in M; [|exact HM].
    cbn [asks_direction asks_mti] in D, M. replace (known_type st) with true in * by (unfold known_type; lia).
    split; [exact D|]. apply Z.bits_inj'. intros n Hn.
    destruct (Z_lt_dec n 2) as [L|L].
    - rewrite <- M. change 4 with (2 ^ 2). rewrite Z.mod_pow2_bits_low by lia. reflexivity.
    - rewrite F by (cbn; lia). cbn [FO new_tpdu set_RA set_DA set_OA zero_tpdu].
      rewrite Z.bits_0. symmetry. rewrite <- (Z.mod_small (st / 2) 4) by lia. change 4 with (2 ^ 2).
      apply Z.mod_pow2_bits_high. lia. }
  split; intros H.
  - exact (G 0 ltac:(lia) H).
  - exact (G 3 ltac:(lia) H).
Qed.
Print Assumptions C75_new_typed.

(** The template of an Encoder after all the options it is given, at NewEncoder
    and at Encode: an option that cannot be applied is passed over. *)
Definition proper_encoder_opt (o : encoder_opt) : Prop :=
  match o with
  | EoTemplate T => is_byte (FO T) /\ is_byte (DCS T)
  | EoTemplateOption o => proper_opt o
  | EoCharset _ => True
  end.
Lemma encoder_state : forall opts, Forall proper_encoder_opt opts ->
  exists T rest, starts_from opts T rest /\ has_asked T rest (e_pdu (sms_new_encoder opts)) /\
    is_byte (FO (e_pdu (sms_new_encoder opts))) /\ is_byte (DCS (e_pdu (sms_new_encoder opts))) /\
    e_eopts (sms_new_encoder opts) = flat_map charset_option opts.
Proof.
  induction opts as [|x l IH] using rev_ind; intros HP.
  { exists zero_tpdu, []. split; [exists []; split; [constructor|split; [reflexivity|left; split; reflexivity]]|].
    split; [apply has_asked_nil|]. unfold is_byte. cbn. repeat split; lia. }
  apply Forall_app in HP as (HP & HX). pose proof (Forall_inv HX) as Hx.
  destruct (IH HP) as (T & rest & (after & HN & HR & HS) & HA & HF & HD & HC).
  unfold sms_new_encoder in *. rewrite fold_left_app. cbn [fold_left].
  set (e := fold_left apply_encoder_opt l zero_encoder) in *.
  rewrite flat_map_app. cbn [flat_map]. rewrite app_nil_r.
  destruct x as [T'|o|c]; cbn [apply_encoder_opt e_pdu e_eopts charset_option proper_encoder_opt] in *.
  - exists T', []. split.
    { exists []. split; [constructor|]. split; [reflexivity|]. right. exists l. reflexivity. }
    split; [apply has_asked_nil|]. split; [exact (proj1 Hx)|]. split; [exact (proj2 Hx)|].
    rewrite app_nil_r. exact HC.
  - exists T, (rest ++ [o]). split.
    { exists (after ++ [EoTemplateOption o]). split; [apply Forall_app; split; [exact HN|repeat constructor]|].
      split; [rewrite flat_map_app, HR; reflexivity|].
      destruct HS as [[HT ->]|(b & ->)]; [left; split; [exact HT|reflexivity]|right].
      exists b. rewrite <- app_assoc. reflexivity. }
    pose proof (has_asked_step _ _ _ _ HA HF Hx) as S.
    assert (HD' : forall t', apply_tpdu_opt (e_pdu e) o = Ok t' -> is_byte (DCS t')).
    { intros t' H. revert HD H. clear. destruct (e_pdu e) as [dir0 fo0 oa0 fcs0 mr0 ct0 mn0 da0 ra0 pi0 scts0 dt0 st0 pid0 dcs0 vp0 udh0 ud0].
      destruct o; cbn [apply_tpdu_opt set_sms_type]; unfold set_sms_type;
        try destruct ((st <? 0) || (SmsCommand <? st)); intros HD H; try discriminate; apply ok_inj in H; subst t';
        cbn [DCS set_FO set_Direction set_dcs set_DCSf set_PI set_DA set_OA set_UDHf] in *; try exact HD.
      unfold to_byte, is_byte. pose proof (Z.mod_pos_bound d 256 ltac:(lia)). lia. }
    rewrite app_nil_r. destruct (apply_tpdu_opt (e_pdu e) o) as [t'|er| |]; try contradiction.
    + destruct S as (S1 & S2 & _). split; [exact S1|]. split; [exact S2|]. split; [now apply HD'|exact HC].
    + destruct S as (_ & _ & S1). split; [exact S1|]. split; [exact HF|]. split; [exact HD|exact HC].
  - exists T, rest. split.
    { exists (after ++ [EoCharset c]). split; [apply Forall_app; split; [exact HN|repeat constructor]|].
      split; [rewrite flat_map_app, HR; cbn; now rewrite app_nil_r|].
      destruct HS as [[HT ->]|(b & ->)]; [left; split; [exact HT|reflexivity]|right].
      exists b. rewrite <- app_assoc. reflexivity. }
    split; [exact HA|]. split; [exact HF|]. split; [exact HD|]. now rewrite HC.
Qed.
Lemma with_options_app opts1 opts2 :
  with_options (sms_new_encoder opts1) opts2 = sms_new_encoder (opts1 ++ opts2).
Proof. unfold with_options, sms_new_encoder. now rewrite fold_left_app. Qed.

Theorem C75_template : forall opts1 opts2, Forall proper_encoder_opt (opts1 ++ opts2) ->
  let e := with_options (sms_new_encoder opts1) opts2 in
  (exists T rest, starts_from (opts1 ++ opts2) T rest /\ has_asked T rest (e_pdu e)) /\
  e_eopts e = flat_map charset_option (opts1 ++ opts2).
Proof.
  intros opts1 opts2 HP. cbv zeta. rewrite with_options_app.
  destruct (encoder_state _ HP) as (T & rest & HS & HA & _ & _ & HC).
  split; [exists T, rest; split; assumption|exact HC].
Qed.
Print Assumptions C75_template.

(** Which template and options those are is not left open. *)
Theorem C75_starts_from_one : forall opts T rest T' rest',
  starts_from opts T rest -> starts_from opts T' rest' -> T = T' /\ rest = rest'.
Proof.
  assert (G : forall b T a b' T' a', Forall not_template a -> Forall not_template a' ->
    b ++ EoTemplate T :: a = b' ++ EoTemplate T' :: a' -> T = T' /\ a = a').
  { intros b. induction b as [|x b IH]; intros T a b' T' a' HA HA' E; destruct b' as [|y b']; cbn [app] in E.
    - injection E as E1 E2. now subst.
    - injection E as E1 E2. subst a. apply Forall_app in HA as (_ & HA). destruct (Forall_inv HA).
    - injection E as E1 E2. subst a'. apply Forall_app in HA' as (_ & HA'). destruct (Forall_inv HA').
    - injection E as E1 E2. exact (IH _ _ _ _ _ HA HA' E2). }
  intros opts T rest T' rest' (a & HA & -> & HS) (a' & HA' & -> & HS').
  destruct HS as [[-> ->]|(b & ->)], HS' as [[-> E]|(b' & E)].
  - subst. split; reflexivity.
  - subst a. apply Forall_app in HA as (_ & HA). destruct (Forall_inv HA).
  - subst a'. apply Forall_app in HA' as (_ & HA'). destruct (Forall_inv HA').
  - destruct (G _ _ _ _ _ _ HA HA' E) as [-> ->]. split; reflexivity.
Qed.
Print Assumptions C75_starts_from_one.

Lemma lor64_mod4 x : Z.lor x 64 mod 4 = x mod 4.
Proof.
  apply Z.bits_inj'. intros n Hn. change 4 with (2 ^ 2). destruct (Z_lt_dec n 2) as [L|L].
  - rewrite !Z.mod_pow2_bits_low by lia. rewrite Z.lor_spec. change 64 with (2 ^ 6).
    rewrite Z.pow2_bits_eqb by lia. replace (6 =? n) with false by lia. apply orb_false_r.
  - rewrite !Z.mod_pow2_bits_high by lia. reflexivity.
Qed.
Lemma lor_bit_in x k l : 0 <= k -> In k l -> same_bits_except l x (Z.lor x (2 ^ k)).
Proof.
  intros Hk HI. eapply same_bits_more; [|exact (proj1 (lor_bit x k Hk))].
  intros n [<- |[]]. exact HI.
Qed.
Lemma prepare_pi e msg t ud : encode_prepare e msg = Ok (t, ud) -> same_bits_except [1; 2] (PI (e_pdu e)) (PI t).
Proof.
  assert (R : forall x, same_bits_except [1; 2] x x) by (intros x n _; reflexivity).
  assert (S1 : forall x, same_bits_except [1; 2] x (Z.lor x PiDCS)).
  { intros x. change PiDCS with (2 ^ 1). apply lor_bit_in; [lia|cbn; tauto]. }
  assert (S2 : forall x, same_bits_except [1; 2] x (Z.lor x PiUDL)).
  { intros x. change PiUDL with (2 ^ 2). apply lor_bit_in; [lia|cbn; tauto]. }
  unfold encode_prepare. destruct ((dcs_alpha (DCS (e_pdu e)) =? Alpha8Bit) || (dcs_alpha (DCS (e_pdu e)) =? AlphaUCS2)).
  { intros H. apply ok_pair in H as [<- _]. apply R. }
  destruct (encode_user_data msg (e_eopts e)) as [[d h] a].
  destruct (dcs_with_alphabet (DCS (e_pdu e)) a) as [dcs| | |]; try discriminate.
  intros H. apply ok_pair in H as [<- _]. dtpdu (e_pdu e). cbn [DCS].
  destruct h as [l|], (negb (dcs =? dcs0));
    cbn [set_udh set_dcs set_FO set_PI set_UDHf set_DCSf FO PI]; auto.
  eapply same_bits_trans; [apply S1|apply S2].
Qed.

(** Every TPDU that Encode returns has what the options ask: the destination of
    the last To, the source of the last From, the type of the last AsSubmit or
    AsDeliver, and for the rest the fields of the template. *)
Theorem C75_encoded : forall opts1 msg opts2 segs e',
  Forall proper_encoder_opt (opts1 ++ opts2) ->
  encoder_encode (sms_new_encoder opts1) msg opts2 = Ok (segs, e') ->
  exists T rest, starts_from (opts1 ++ opts2) T rest /\
    forall s, In s segs -> made_as_asked T rest s.
Proof.
  intros opts1 msg opts2 segs e' HP H.
  apply encoder_encode_ok in H as (t & ud & HPr & HSeg & _). rewrite with_options_app in HPr.
  destruct (encoder_state _ HP) as (T & rest & HS & HA & HF & HD & _).
  set (e := sms_new_encoder (opts1 ++ opts2)) in *.
  exists T, rest. split; [exact HS|]. intros s HI.
  apply In_nth_error in HI as (k & Hk). pose proof (segment_inherits _ _ _ _ HSeg k s Hk) as HIn.
  assert (Ht : same_bits_except [2; 3] (DCS (e_pdu e)) (DCS t) /\
    (FO t = FO (e_pdu e) \/ FO t = Z.lor (FO (e_pdu e)) 64) /\
    Direction t = Direction (e_pdu e) /\ OA t = OA (e_pdu e) /\ FCS t = FCS (e_pdu e) /\ CT t = CT (e_pdu e) /\
    MN t = MN (e_pdu e) /\ DA t = DA (e_pdu e) /\ RA t = RA (e_pdu e) /\ SCTS t = SCTS (e_pdu e) /\
    DT t = DT (e_pdu e) /\ ST t = ST (e_pdu e) /\ PID t = PID (e_pdu e) /\ VP t = VP (e_pdu e)).
  { pose proof (prepare_cases e msg HD) as PC. destruct (given_encoded (DCS (e_pdu e))).
    - rewrite HPr in PC. apply ok_pair in PC as [-> _]. split; [intros n _; reflexivity|].
      split; [now left|]. repeat split.
    - destruct (encode_user_data msg (e_eopts e)) as [[ud0 h] a]. destruct PC as (_ & PC).
      destruct (alphabet_expressible _ _); [|rewrite HPr in PC; discriminate].
      destruct PC as (t1 & E & _ & _ & B & _ & F & _ & R). rewrite HPr in E. apply ok_pair in E as [<- _].
      split; [exact B|]. split; [destruct h; [now right|now left]|].
      rewrite R. cbn [Direction OA FCS CT MN DA RA SCTS DT ST PID VP]. repeat split. }
  pose proof (prepare_pi _ _ _ _ HPr) as HPI.
  destruct HA as (A1 & A2 & A3 & A4 & A5 & A6 & A7 & A8 & A9 & B1 & B2 & B3 & B4 & B5 & B6 & B7 & B8 & B9 & C1 & C2).
  destruct Ht as (T1 & T2 & U1 & U2 & U3 & U4 & U5 & U6 & U7 & U8 & U9 & V1 & V2 & V3).
  destruct HIn as (I1 & I2 & I3 & I4 & I5 & I6 & I7 & I8 & I9 & J1 & J2 & J3 & J4 & J5 & J6).
  assert (HFO : FO s mod 4 = FO (e_pdu e) mod 4 /\ same_bits_except [0; 1; 6] (FO T) (FO s)).
  { assert (X : FO s = FO t \/ FO s = Z.lor (FO t) 64) by (destruct (_ <=? _) in J6; [left|right]; exact (proj1 J6)).
    assert (Y : forall x y, same_bits_except [0; 1; 6] x y -> same_bits_except [0; 1; 6] x (Z.lor y 64)).
    { intros x y Hxy. eapply same_bits_trans; [exact Hxy|]. change 64 with (2 ^ 6). apply lor_bit_in; [lia|cbn; tauto]. }
    assert (Z0 : same_bits_except [0; 1; 6] (FO T) (FO (e_pdu e))).
    { eapply same_bits_more; [|exact A3]. cbn. tauto. }
    destruct X as [-> | ->], T2 as [-> | ->]; rewrite ?lor64_mod4; split; auto. }
  assert (HPI' : same_bits_except [1; 2] (PI T) (PI s)).
  { assert (Z0 : same_bits_except [1; 2] (PI T) (PI t)).
    { eapply same_bits_trans; [|exact HPI]. eapply same_bits_more; [|exact A6]. cbn. tauto. }
    destruct (_ <=? _) in J6.
    - destruct J6 as (_ & -> & _). exact Z0.
    - destruct J6 as (_ & -> & _). eapply same_bits_trans; [exact Z0|]. change 4 with (2 ^ 2).
      apply lor_bit_in; [lia|cbn; tauto]. }
  destruct HFO as (HF1 & HF2). unfold made_as_asked. rewrite HF1.
  rewrite I1, I2, I3, I4, I5, I6, I7, I8, I9, J1, J2, J3, J4, U1, U2, U3, U4, U5, U6, U7, U8, U9, V1, V2, V3.
  repeat (split; [first [assumption | exists (DCS (e_pdu e)); split; assumption]|]). assumption.
Qed.
Print Assumptions C75_encoded.

(** sms.Encode makes SMS-SUBMIT TPDUs for the number of the last To, if no
    option says otherwise. *)
Theorem C75_encode_to : forall msg number before after segs,
  let quiet o := match o with
                 | EoTemplateOption (OptDCS _) | EoTemplateOption (OptOA _) | EoTemplateOption (OptUDH _)
                 | EoCharset _ => True
                 | _ => False
                 end in
  Forall quiet before -> Forall quiet after ->
  encode msg (before ++ To number :: after) = Ok segs ->
  forall s, In s segs -> tpdu_type s = SmsSubmit /\ DA s = new_address_number number.
Proof.
  intros msg number before after segs quiet HB HA H s HI. unfold encode in H.
  apply bind_ok in H as ([pdus e'] & H & K). apply ok_inj in K. subst pdus.
  set (all := AsSubmit :: before ++ To number :: after) in *.
  assert (QP : forall o, quiet o -> proper_encoder_opt o /\ not_template o).
  { intros [T|[]|]; cbn; tauto. }
  assert (HP : Forall proper_encoder_opt (all ++ [])).
  { rewrite app_nil_r. constructor; [exact I|]. apply Forall_app.
    split; [|constructor; [exact I|]]; eapply Forall_impl; try eassumption; intros o Q; exact (proj1 (QP o Q)). }
  assert (HN : Forall not_template all).
  { constructor; [exact I|]. apply Forall_app.
    split; [|constructor; [exact I|]]; eapply Forall_impl; try eassumption; intros o Q; exact (proj2 (QP o Q)). }
  destruct (C75_encoded _ _ _ _ _ HP H) as (T & rest & HS & HM). rewrite app_nil_r in HS.
  destruct (C75_starts_from_one all T rest zero_tpdu (flat_map template_option all) HS) as [-> ->].
  { exists all. split; [exact HN|]. split; [reflexivity|]. left. split; reflexivity. }
  destruct (HM s HI) as (D & M & _ & _ & _ & A & _). clear HM HS.
  assert (E : flat_map template_option all = OptSmsType SmsSubmit :: flat_map template_option before ++
                OptDA (new_address_number number) :: flat_map template_option after).
  { unfold all. cbn [flat_map template_option AsSubmit app]. f_equal. rewrite flat_map_app. reflexivity. }
  rewrite E in *.
  assert (Q : forall l, Forall quiet l -> Forall (fun o => asks_direction o = None /\ asks_mti o = None /\ asks_da o = None)
                (flat_map template_option l)).
  { intros l HQ. induction HQ as [|o l Ho HQ IH]; cbn [flat_map]; [constructor|]. apply Forall_app. split; [|exact IH].
    destruct o as [?|[]|?]; cbn in *; try contradiction; repeat constructor. }
  pose proof (Q _ HB) as QB. pose proof (Q _ HA) as QA.
  assert (W : forall P : tpdu_opt -> Prop, (forall o, asks_direction o = None /\ asks_mti o = None /\ asks_da o = None -> P o) ->
     P (OptDA (new_address_number number)) -> Forall P (flat_map template_option before ++
                OptDA (new_address_number number) :: flat_map template_option after)).
  { intros P HPq HPa. apply Forall_app. split; [exact (Forall_impl _ HPq QB)|].
    constructor; [exact HPa|]. exact (Forall_impl _ HPq QA). }
  apply chosen_cons_none in D; [|apply W; [intros o Q0; apply Q0|reflexivity]].
  apply chosen_cons_none in M; [|apply W; [intros o Q0; apply Q0|reflexivity]].
  split.
  - unfold tpdu_type. rewrite D. unfold fo_mti, FoMTIMask. change 3 with (Z.ones 2).
    rewrite Z.land_ones by lia. change (2 ^ 2) with 4. rewrite M. reflexivity.
  - destruct A as (o & HL & ->).
    assert (L : last_such asks_da (OptSmsType SmsSubmit :: flat_map template_option before ++
                OptDA (new_address_number number) :: flat_map template_option after) (Some (new_address_number number))).
    { exists (OptSmsType SmsSubmit :: flat_map template_option before), (OptDA (new_address_number number)),
        (flat_map template_option after). split; [reflexivity|]. split; [reflexivity|].
      eapply Forall_impl; [|exact QA]. intros o1 Q0. apply Q0. }
    rewrite (last_such_fun _ _ _ _ HL L). reflexivity.
Qed.
Print Assumptions C75_encode_to.

(** Empty, for New, means no number but a type octet with its top bit set, as the
    standard wants, in all three addresses, and zero everywhere else. *)
Theorem C75_empty :
  (forall t, tpdu_new [] = Ok t -> OA t = {| a_toa := 128; a_addr := [] |} /\
     DA t = {| a_toa := 128; a_addr := [] |} /\ RA t = {| a_toa := 128; a_addr := [] |} /\
     Direction t = 0 /\ FO t = 0 /\ FCS t = 0 /\ MR t = 0 /\ CT t = 0 /\ MN t = 0 /\ PI t = 0 /\ ST t = 0 /\
     PID t = 0 /\ DCS t = 0 /\ UDH t = None /\ UD t = []) /\
  (forall opts t, tpdu_new opts = Ok t -> Forall proper_opt opts ->
     (Forall (fun o => asks_da o = None) opts -> DA t = {| a_toa := 128; a_addr := [] |}) /\
     (Forall (fun o => asks_oa o = None) opts -> OA t = {| a_toa := 128; a_addr := [] |}) /\
     RA t = {| a_toa := 128; a_addr := [] |}).
Proof.
  split.
  - intros t H. assert (t = new_tpdu) as -> by now injection H as <-. now repeat split.
  - intros opts t H HP. pose proof (C75_new opts HP) as K. rewrite H in K.
    destruct K as ((_ & _ & _ & _ & _ & _ & KD & KO & _ & _ & _ & _ & _ & KR & _) & _).
    assert (N : forall {B} (f : tpdu_opt -> option B) d v,
              chosen f opts d v -> Forall (fun o => f o = None) opts -> v = d).
    { intros B f d v C F. destruct C as (o & L & ->). destruct o as [b|]; [|reflexivity].
      destruct L as (q & y & r & -> & Hy & _). apply Forall_app in F as (_ & F).
      pose proof (Forall_inv F) as F1. cbn beta in F1. congruence. }
    split; [intros F; exact (N _ _ _ _ KD F)|]. split; [intros F; exact (N _ _ _ _ KO F)|]. exact KR.
Qed.
Print Assumptions C75_empty.

(** Instances: repeated and unknown options; an Encoder whose template comes
    late; Encode to a number, and with the number replaced for one call. *)
Example C75_instance :
  (exists t, tpdu_new_submit [OptDCS 8; OptDA (new_address_number [49]); OptDA (new_address_number [50]); OptDCS 4] = Ok t /\
    DCS t = 4 /\ PI t = 2 /\ DA t = new_address_number [50] /\ tpdu_type t = SmsSubmit) /\
  tpdu_new [OptDCS 8; OptSmsType 6] = Err ErrInvalid.
Proof. split; [|reflexivity]. eexists. split; [vm_compute; reflexivity|]. repeat split. Qed.
Definition late_template : tpdu := set_PIDf (set_FO zero_tpdu 36) 7.
Example C75_encoder_instance :
  let opts1 := [To [49]; EoTemplate late_template; AsSubmit] in
  let opts2 := [EoTemplateOption (OptSmsType 9); To [50]] in
  Forall proper_encoder_opt (opts1 ++ opts2) /\
  exists s e', encoder_encode (sms_new_encoder opts1) [104; 105] opts2 = Ok ([s], e') /\
    DA s = new_address_number [50] /\ FO s = 37 /\ PID s = 7 /\ tpdu_type s = SmsSubmit.
Proof.
  cbv zeta. split; [repeat constructor; unfold is_byte; cbn; lia|].
  eexists. eexists. split; [vm_compute; reflexivity|]. repeat split.
Qed.
Example C75_encode_instance : exists s,
  encode [104; 105] ([From [51]] ++ To [49; 50] :: []) = Ok [s] /\ OA s = new_address_number [51].
Proof. eexists. split; [vm_compute; reflexivity|]. reflexivity. Qed.
