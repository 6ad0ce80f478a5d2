(** Lemmas for the loops of the README. *)
From Coq Require Import Permutation.
From Verif Require Import GoBase GoLemmas SafeLemmas Utf SpecText Charset Gsm7 Dcs FirstOctet SpecDigits
  UserData Tpdu Segment Sms SpecSelect SpecDcs SpecSms SpecTime SpecVP SpecTpdu Address GoTime ValidityPeriod
  Collector SpecCollect CollectorProofs CollectorMsgProofs P_Collect SpecFlow SegmentProofs SegmentFitProofs SpecSegTpdu SmsProofs FlowProofs P_Flow AcceptProofs CmdProofs Readme SpecReadme.

(** ** The same encoder with another time stamp *)
Lemma scts_fields t w : DCS (set_SCTS t w) = DCS t /\ UDH (set_SCTS t w) = UDH t /\ SCTS (set_SCTS t w) = w. Proof. now destruct t. Qed.
Lemma prepare_scts e w msg t d :
  let e1 := {| e_eopts := e_eopts e; e_pdu := set_SCTS (e_pdu e) w; e_msg_count := e_msg_count e; e_concat_ref := e_concat_ref e |} in
  encode_prepare e msg = Ok (t, d) -> encode_prepare e1 msg = Ok (set_SCTS t w, d).
Proof.
  intros e1 H. unfold encode_prepare in *. unfold e1. cbn [e_pdu e_eopts]. destruct (scts_fields (e_pdu e) w) as (-> & _).
  destruct ((dcs_alpha (DCS (e_pdu e)) =? Alpha8Bit) || (dcs_alpha (DCS (e_pdu e)) =? AlphaUCS2)); [now injection H as <- <-|].
  destruct (encode_user_data msg (e_eopts e)) as [[ud h] a]. cbv zeta in *.
  destruct (dcs_with_alphabet (DCS (e_pdu e)) a) as [dcs| | |]; try discriminate. injection H as <- <-.
  do 2 f_equal. destruct e as [eo t0 mc cr]. cbn [e_pdu]. dtpdu t0. destruct (negb (dcs =? _)), h; reflexivity.
Qed.
Lemma block_size_scts t w : ud_block_size (set_SCTS t w) = ud_block_size t.
Proof. now destruct t. Qed.
Lemma make_segments_scts t w cfg ref count : forall cs i,
  make_segments (set_SCTS t w) cfg ref count i cs = map (fun p => set_SCTS p w) (make_segments t cfg ref count i cs).
Proof.
  induction cs as [|c cs IH]; intros i; cbn [make_segments map]; [reflexivity|]. rewrite IH. f_equal.
  unfold make_segment, with_mr. dtpdu t. destruct (sc_mr cfg); reflexivity.
Qed.
Lemma segment_scts t w msg cfg pdus : segment t msg cfg = Ok pdus ->
  segment (set_SCTS t w) msg cfg = Ok (map (fun p => set_SCTS p w) pdus).
Proof.
  intros H. unfold segment in *. destruct (len msg =? 0); [now injection H as <-|]. cbv zeta in *.
  rewrite block_size_scts. destruct (len msg <=? ud_block_size t).
  { injection H as <-. cbn [map]. do 2 f_equal. dtpdu t. unfold with_mr. destruct (sc_mr cfg); reflexivity. }
  destruct (scts_fields t w) as (_ & -> & _).
  set (ph := new_ie (sc_wide cfg) 0 0 0) in *.
  replace (set_udh (set_SCTS t w) (Some (ies (UDH t) ++ [ph]))) with (set_SCTS (set_udh t (Some (ies (UDH t) ++ [ph]))) w) by (now destruct t).
  set (t1 := set_udh t (Some (ies (UDH t) ++ [ph]))) in *.
  rewrite block_size_scts.
  replace (set_UDHf (set_SCTS t1 w) (Some (ies (UDH t)))) with (set_SCTS (set_UDHf t1 (Some (ies (UDH t)))) w) by (now destruct t1).
  destruct (scts_fields (set_UDHf t1 (Some (ies (UDH t)))) w) as (-> & _).
  destruct (chunk _ _ _) as [cs| | |]; try discriminate. cbn [bind] in *. injection H as <-. f_equal.
  apply make_segments_scts.
Qed.
Lemma marshal_scts t w : ts_marshal w = ts_marshal (SCTS t) -> tpdu_marshal (set_SCTS t w) = tpdu_marshal t.
Proof.
  intros H.
  assert (H1 : marshal_deliver (set_SCTS t w) = marshal_deliver t).
  { dtpdu t. cbn [SCTS] in H. unfold marshal_deliver. cbn [set_SCTS DA VP FO MR PID DCS Direction OA FCS CT MN RA PI SCTS DT ST UDH UD]. now rewrite H. }
  assert (H2 : marshal_status_report (set_SCTS t w) = marshal_status_report t).
  { dtpdu t. cbn [SCTS] in H. unfold marshal_status_report. cbn [set_SCTS DA VP FO MR PID DCS Direction OA FCS CT MN RA PI SCTS DT ST UDH UD]. now rewrite H. }
  assert (H3 : marshal_submit_report (set_SCTS t w) = marshal_submit_report t).
  { dtpdu t. cbn [SCTS] in H. unfold marshal_submit_report. cbn [set_SCTS DA VP FO MR PID DCS Direction OA FCS CT MN RA PI SCTS DT ST UDH UD]. now rewrite H. }
  unfold tpdu_marshal. rewrite H1, H2, H3. now destruct t.
Qed.
Lemma carried_scts t w r : ts_marshal w = ts_marshal (SCTS t) -> carried (set_SCTS t w) r -> carried t r.
Proof.
  intros H (b & A & B & C). rewrite marshal_scts in A by assumption. exists b. split; [exact A|]. split; [exact B|]. now destruct t.
Qed.
Lemma encode_scts e msg opts pdus e' w : encoder_encode e msg opts = Ok (pdus, e') ->
  let e0 := with_options e opts in
  exists e1 e2, encoder_encode e1 msg [] = Ok (map (fun p => set_SCTS p w) pdus, e2) /\
    e_pdu (with_options e1 []) = set_SCTS (e_pdu e0) w /\ e_eopts (with_options e1 []) = e_eopts e0 /\
    Forall (fun p => SCTS p = SCTS (e_pdu e0) /\ Direction p = Direction (e_pdu e0)) pdus.
Proof.
  intros H e0. destruct (encoder_encode_ok _ _ _ _ _ H) as (t & ud & HP & HS & _). fold e0 in HP, HS.
  pose proof (prepare_keeps _ _ _ _ HP) as (D & _ & _ & T & _).
  set (e1 := {| e_eopts := e_eopts e0; e_pdu := set_SCTS (e_pdu e0) w; e_msg_count := e_msg_count e0; e_concat_ref := e_concat_ref e0 |}).
  exists e1, (advance e1 (map (fun p => set_SCTS p w) pdus)). split; [|split; [reflexivity|split; [reflexivity|]]].
  - pose proof (prepare_scts _ w _ _ _ HP) as HP1. cbv zeta in HP1. fold e1 in HP1.
    pose proof (segment_scts _ w _ _ _ HS) as HS1.
    assert (encoder_seg_cfg e1 = encoder_seg_cfg e) as EC.
    { unfold encoder_seg_cfg, e1, e0. cbn [e_msg_count e_concat_ref]. destruct (with_options_counters opts e) as [-> ->]. reflexivity. }
    unfold encoder_encode. change (fold_left apply_encoder_opt [] e1) with e1. rewrite HP1. cbn [bind]. rewrite EC, HS1. reflexivity.
  - rewrite Forall_forall. intros p Hp. apply In_nth_error in Hp as (k & Hk).
    pose proof (segment_inherits _ _ _ _ HS k p Hk) as HI. unfold inherits in HI.
    destruct HI as (ID & _ & _ & _ & _ & _ & _ & IS & _). split; congruence.
Qed.

(** C41 for such templates. *)
Lemma posted_end_to_end e msg opts pdus e' text :
  let e0 := with_options e opts in
  template_posted (e_pdu e0) -> meant (DCS (e_pdu e0)) (e_eopts e0) msg text ->
  encoder_encode e msg opts = Ok (pdus, e') ->
  Forall (fun p => Direction p = Direction (e_pdu e0)) pdus /\
  exists rcvd, Forall2 carried pdus rcvd /\
    decode (map Some rcvd) [] = Ok text /\
    (len rcvd = 1 -> forall cfg s g, c_closed s = false -> [sg_pdu g] = rcvd ->
       collect cfg s g = (s, CReturn (Some [Some g]) None)) /\
    (1 < len rcvd <= 255 -> exists m, m_total m = len rcvd /\
       (forall k g, nth_error rcvd k = Some (sg_pdu g) -> is_segment m (Z.of_nat k + 1) g) /\
       forall cfg s es, reachable cfg typed_event s -> c_closed s = false ->
       (forall g, In g (held s) -> seg_no m g = None) ->
       Forall (fun ev => typed_event ev \/ exists g, ev = EvCollect g /\ In (sg_pdu g) rcvd) es ->
       Forall (fun ev => ev <> EvClose) es -> no_timeout cfg m s es ->
       Permutation (map (fun p => sg_pdu (snd p)) (parts m es)) rcvd ->
       exists gs,
         replies m es (snd (run cfg s es)) =
           repeat (OCollect (CReturn None None)) (length rcvd - 1) ++
           [OCollect (CReturn (Some (map Some gs)) None)] /\
         map sg_pdu gs = rcvd).
Proof.
  intros e0 HT HM HE. pose proof (encode_scts e msg opts pdus e') as X.
  split. { destruct (X zero_time HE) as (_ & _ & _ & _ & _ & HV). eapply Forall_impl; [|exact HV]. now intros p [_ D]. }
  destruct HT as [HT|(w & W & HT)].
  { now apply (C41_end_to_end_partial e msg opts pdus e' text []); auto. }
  destruct (X w HE) as (e1 & e2 & HE1 & EP & EO & HV). fold e0 in EP, EO, HV. clear X. cbv zeta in *.
  destruct (C41_end_to_end_partial e1 msg [] (map (fun p => set_SCTS p w) pdus) e2 text []) as (rcvd & HC & R); auto.
  - now rewrite EP.
  - rewrite EP, EO. now destruct (scts_fields (e_pdu e0) w) as (-> & _).
  - exists rcvd. split; [|exact R]. clear - HC HV W.
    revert rcvd HC. induction pdus as [|p pdus IH]; intros rcvd HC; cbn [map] in HC; inversion HC; subst; constructor.
    + apply Forall_inv in HV as [HV _]. apply (carried_scts p w); congruence.
    + apply IH; [now apply Forall_inv_tail in HV|assumption].
Qed.

(** ** The receiving loop *)
Lemma read_typed_any mo tb n t : Forall is_byte tb -> unmarshal tb mo = Ok t -> typed {| sg_id := n; sg_pdu := t |}.
Proof.
  intros HB H. apply unmarshal_sound in H as ((_ & HA) & (HU & _) & _); [|exact HB].
  unfold typed. cbn [sg_pdu]. split; [apply HA|]. split; [apply HA|].
  destruct (UDH t) as [l|]; [|constructor]. destruct HU as (_ & _ & HU). cbn [ies].
  eapply Forall_impl; [|exact HU]. intros i Hi. apply Hi.
Qed.

(** The calls of Collect for the TPDUs [rs], from the [n]-th. *)
Fixpoint calls (n : nat) (rs : list tpdu) : list event :=
  match rs with [] => [] | r :: rs' => EvCollect {| sg_id := n; sg_pdu := r |} :: calls (S n) rs' end.
Definition nothing : output := OCollect (CReturn None None).
Definition whole (gs : list seg) : output := OCollect (CReturn (Some (map Some gs)) None).

Lemma receive_calls mo rest gs text : gs <> [] -> decode (map Some (map sg_pdu gs)) [] = Ok text ->
  forall k arr rs n s, Forall2 (fun b r => unmarshal b mo = Ok r) arr rs ->
  snd (run readme_cfg s (calls n rs)) = repeat nothing k ++ [whole gs] ->
  let go := readme_receive mo (fst (run readme_cfg s (calls n rs))) (n + length rs) rest in
  readme_receive mo s n (arr ++ rest) = (text :: fst go, snd go).
Proof.
  intros NE D. induction k as [|k IH]; intros arr rs n s F O; (destruct F as [|b r arr rs U F]; [discriminate O|]).
  - cbn [calls run] in *. cbn [step] in *. cbn [app readme_receive]. rewrite U.
    destruct (collect readme_cfg s {| sg_id := n; sg_pdu := r |}) as [s1 c].
    destruct F as [|b' r' arr rs _ _].
    2:{ cbn [calls run] in O. destruct (step readme_cfg s1 _). destruct (run readme_cfg _ _). discriminate O. }
    cbn [calls run fst snd length app] in *. cbn in O. injection O as ->. rewrite Nat.add_1_r.
    destruct gs as [|g gs]; [congruence|]. cbn [map] in *. rewrite map_map. cbn [option_map] in *. rewrite map_map in D. rewrite D. reflexivity.
  - cbn [calls run] in *. cbn [step] in *. cbn [app readme_receive]. rewrite U.
    destruct (collect readme_cfg s {| sg_id := n; sg_pdu := r |}) as [s1 c].
    specialize (IH arr rs (S n) s1 F). destruct (run readme_cfg s1 (calls (S n) rs)) as [s2 os]. cbn [fst snd repeat app] in *.
    injection O as -> O. cbn [length]. rewrite Nat.add_succ_r. exact (IH O).
Qed.

(** The states of the loop between messages. *)
Definition between (s : cstate) : Prop :=
  c_closed s = false /\ exists es, Forall typed_event es /\ fst (run readme_cfg new_collector es) = s /\
    (length (all_taken es (snd (run readme_cfg new_collector es))) <= length (flat_map returned (snd (run readme_cfg new_collector es))))%nat.
Lemma between_new : between new_collector.
Proof. split; [reflexivity|]. exists []. split; [constructor|]. split; [reflexivity|]. cbn. lia. Qed.
Lemma between_held s : between s -> held s = [].
Proof.
  intros (_ & es & _ & E & L). pose proof (C36_no_handler readme_cfg es eq_refl) as C.
  destruct (run readme_cfg new_collector es) as [s0 os]. cbn [fst snd] in *. subst s0.
  destruct (run _ new_collector es) as [s1 os1]. destruct C as [_ C]. apply Permutation_length in C. rewrite !app_length in C.
  apply length_zero_iff_nil. lia.
Qed.
Lemma run_split cfg es1 es2 : forall s,
  run cfg s (es1 ++ es2) = (fst (run cfg (fst (run cfg s es1)) es2), snd (run cfg s es1) ++ snd (run cfg (fst (run cfg s es1)) es2)).
Proof.
  induction es1 as [|e es1 IH]; intros s; cbn [run app]; [cbn [fst snd app]; now destruct (run cfg s es2)|].
  destruct (step cfg s e) as [s1 o]. rewrite IH. destruct (run cfg s1 es1) as [s2 os]. reflexivity.
Qed.
Lemma all_taken_split es1 es2 os1 os2 : length es1 = length os1 -> all_taken (es1 ++ es2) (os1 ++ os2) = all_taken es1 os1 ++ all_taken es2 os2.
Proof.
  revert os1. induction es1 as [|e es1 IH]; intros [|o os1] L; try discriminate; cbn [app all_taken]; [reflexivity|].
  rewrite IH by (now injection L). now rewrite app_assoc.
Qed.
Lemma run_outputs cfg es : forall s, length (snd (run cfg s es)) = length es.
Proof.
  induction es as [|e es IH]; intros s; cbn [run]; [reflexivity|]. destruct (step cfg s e) as [s1 o]. specialize (IH s1).
  destruct (run cfg s1 es). cbn in *. congruence.
Qed.
Lemma calls_closed cfg rs : forall n s, c_closed s = false -> c_closed (fst (run cfg s (calls n rs))) = false.
Proof.
  induction rs as [|r rs IH]; intros n s O; [exact O|]. cbn [calls run step]. pose proof (collect_closed cfg s {| sg_id := n; sg_pdu := r |}) as C.
  destruct (collect cfg s _) as [s1 c]. cbn [fst] in C. specialize (IH (S n) s1 ltac:(congruence)). destruct (run cfg s1 _). exact IH.
Qed.
Lemma taken_calls os : forall rs n, Forall (fun o => exists d, o = OCollect (CReturn d None)) os -> length os = length rs ->
  length (all_taken (calls n rs) os) = length rs.
Proof.
  induction os as [|o os IH]; intros [|r rs] n F L; try discriminate; [reflexivity|]. apply Forall_cons_iff in F as [[d ->] F].
  cbn [calls all_taken taken length app]. f_equal. apply IH; auto.
Qed.
Lemma calls_length rs : forall n, length (calls n rs) = length rs.
Proof. induction rs; intros n; cbn [calls length]; auto. Qed.

(** What the loop does with the TPDUs of one message. *)
Lemma between_calls s n rs gs k : between s -> Forall (fun r => forall i, typed {| sg_id := i; sg_pdu := r |}) rs ->
  snd (run readme_cfg s (calls n rs)) = repeat nothing k ++ [whole gs] -> length gs = length rs ->
  between (fst (run readme_cfg s (calls n rs))).
Proof.
  intros (O & es & T & E & L) TY R LG. split; [now apply calls_closed|].
  exists (es ++ calls n rs). rewrite run_split, E. cbn [fst snd]. split; [|split; [reflexivity|]].
  - apply Forall_app. split; [exact T|]. clear - TY. revert n. induction TY as [|r rs H _ IH]; intros n; cbn [calls]; constructor; auto. apply H.
  - rewrite all_taken_split by (symmetry; apply run_outputs). rewrite flat_map_app, !app_length.
    assert (LR : length (repeat nothing k ++ [whole gs]) = length rs) by (now rewrite <- R, run_outputs, calls_length).
    rewrite R, taken_calls; [|apply Forall_app; split; [apply Forall_forall; intros o Ho; apply repeat_spec in Ho as ->; now exists None|]|exact LR].
    2:{ constructor; [now exists (Some (map Some gs))|constructor]. }
    rewrite flat_map_app, app_length. cbn [flat_map returned whole]. rewrite app_nil_r.
    assert (length (somes (map Some gs)) = length gs) as -> by (clear; induction gs; cbn; auto). lia.
Qed.
