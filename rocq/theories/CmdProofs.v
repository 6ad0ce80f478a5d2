(** Lemmas about the commands (C51 - C54). *)
From Coq Require Import Permutation.
From Verif Require Import GoBase GoLemmas SafeLemmas Utf UtfProofs PduMode PduModeProofs Dcs FirstOctet Address UserData Tpdu
  SpecTpdu TpduSafeProofs SpecAccept AcceptProofs Segment SegmentProofs SegmentOptProofs SegmentFitProofs SpecSegTpdu Sms SpecSms SmsProofs EncodeProofs SpecFlow FlowProofs
  Collector SpecCollect CollectorProofs CollectorMsgProofs P_Collect P_Flow Cmd SpecCmd.

Lemma payload_octets pm a tb : payload pm a tb <-> sd_octets pm a = Ok tb.
Proof.
  unfold payload, sd_octets. split.
  - intros (b & -> & H). cbn [bind]. destruct pm; [|now subst]. destruct H as (smsc & ->). reflexivity.
  - intros H. apply bind_ok in H as (b & E & H). exists b. split; [exact E|]. destruct pm; [|now apply ok_inj in H].
    apply bind_ok in H as (p & Ep & H). apply ok_inj in H. exists (p_smsc p). rewrite Ep. subst. now destruct p.
Qed.
Lemma payload_bytes pm a tb : payload pm a tb -> Forall is_byte tb.
Proof.
  intros (b & E & H). assert (HB : Forall is_byte b).
  { destruct (hex_decode_safe a) as [(b' & E' & HB & _)|[E'|(c & E')]]; rewrite E' in E; try discriminate.
    apply ok_inj in E. now subst. }
  destruct pm; [|now subst]. destruct H as (smsc & H).
  destruct (pdu_unmarshal_safe b HB) as [(p & E' & k & HK)|(f & o & E' & _)]; rewrite E' in H; [|discriminate].
  apply ok_inj in H. subst p. cbn [p_tpdu] in HK. subst tb. now apply Forall_skipn.
Qed.

(** ** smsdecode *)
Lemma dump_ok t : ud_sound t -> (exists p rest mo, tpdu_unmarshal (set_Direction zero_tpdu (if mo : bool then MO else MT)) (p :: rest) = Ok t) ->
  dump_tpdu t = Ok tt.
Proof.
  intros HU (p & rest & mo & H). unfold dump_tpdu. cbv zeta.
  assert (HT : 0 <= tpdu_type t <= SmsCommand).
  { destruct (tpdu_unmarshal_type _ _ _ H) as (HD & HF). rewrite idx_0 in HF. apply ok_inj in HF.
    unfold tpdu_unmarshal in H. destruct (len _ <? 1); [discriminate|]. rewrite idx_0 in H. cbn [bind] in H. cbv zeta in H.
    apply bind_ok in H as (s & _ & H).
    assert (tpdu_type t = tpdu_type (set_FO (set_Direction zero_tpdu (if mo then MO else MT)) p)) as ->.
    { unfold tpdu_type. rewrite HD, <- HF. reflexivity. }
    set (st := tpdu_type _) in *. clearbody st.
    cbv [SmsDeliver SmsDeliverReport SmsSubmitReport SmsSubmit SmsStatusReport SmsCommand] in *.
    destruct (st =? 0) eqn:?; [lia|]. destruct (st =? 1) eqn:?; [lia|]. destruct (st =? 2) eqn:?; [lia|].
    destruct (st =? 3) eqn:?; [lia|]. destruct (st =? 4) eqn:?; [lia|]. destruct (st =? 5) eqn:?; [lia|discriminate]. }
  btrue ((0 <=? tpdu_type t) && (tpdu_type t <=? SmsCommand)).
  destruct (_ =? SmsCommand); [reflexivity|]. destruct HU as [HU _]. destruct (UDH t) as [[|i l]|]; [|reflexivity|reflexivity].
  destruct HU as (_ & HU & _). congruence.
Qed.

Lemma smsdecode_safe s pm mo :
  match smsdecode s pm mo with Ok (t, _) => dump_tpdu t = Ok tt | Err _ => True | _ => False end.
Proof.
  unfold smsdecode. destruct (hex_decode_safe s) as [(b & E & HB & _)|[-> |(c & ->)]]; [|exact I|exact I].
  rewrite E. cbn [bind].
  assert (HU : forall tb a, Forall is_byte tb -> match (t <- unmarshal tb mo ;; Ok (t, a : option address)) with
     Ok (t, _) => dump_tpdu t = Ok tt | Err _ => True | _ => False end).
  { intros tb a HT. pose proof (tpdu_unmarshal_safe (set_Direction zero_tpdu (if mo then MO else MT)) tb HT) as S.
    unfold unmarshal. destruct (tpdu_unmarshal _ tb) as [t|e| |] eqn:EU; cbn [bind]; cbn in S; try contradiction; [|exact I].
    pose proof (unmarshal_sound tb mo t HT EU) as (_ & HS & _). apply dump_ok; [exact HS|].
    destruct tb as [|p rest]; [discriminate|]. exists p, rest, mo. exact EU. }
  destruct pm.
  - unfold pdu_unmarshal_hex. rewrite E. cbn [bind].
    destruct (pdu_unmarshal_safe b HB) as [(p & Ep & k & HK)|(f & o & Ep & _)]; rewrite Ep; cbn [bind]; [|exact I].
    apply HU. rewrite HK. now apply Forall_skipn.
  - cbn [bind]. now apply HU.
Qed.

(** ** smsdeliver *)
Lemma decode_loop_total opts : forall l d, match decode_loop (map Some l) d opts with Ok _ | Err _ => True | _ => False end.
Proof.
  induction l as [|t l IH]; intros d; cbn [map decode_loop]; [destruct d; exact I|].
  destruct (dd_err _) as [e|].
  - destruct e; try exact I. match goal with |- context [decode_loop _ (Some ?b) _] => specialize (IH (Some b)) end.
    destruct (decode_loop _ _ _); cbn [bind]; auto.
  - specialize (IH None). destruct (decode_loop _ _ _); cbn [bind]; auto.
Qed.
Lemma decode_total l opts : match decode (map Some l) opts with Ok _ | Err _ => True | _ => False end.
Proof. apply decode_loop_total. Qed.

Lemma sd_report_some gs err : gs <> [] -> exists l, sd_report (Some (map Some gs)) err = Some l.
Proof.
  intros NE. unfold sd_report. rewrite map_map. cbn [option_map]. rewrite <- map_map.
  pose proof (decode_total (map sg_pdu gs) []) as D. destruct (decode _ _); try contradiction; [|eauto].
  destruct gs as [|g gs]; [congruence|]. cbn [map]. eauto.
Qed.

(** A collected TPDU read from octets has the types of Go. *)
Lemma read_typed tb n t : Forall is_byte tb -> unmarshal tb false = Ok t -> typed {| sg_id := n; sg_pdu := t |}.
Proof.
  intros HB H. apply unmarshal_sound in H as ((_ & HA) & (HU & _) & _); [|exact HB].
  unfold typed. cbn [sg_pdu]. split; [apply HA|]. split; [apply HA|].
  destruct (UDH t) as [l|]; [|constructor]. destruct HU as (_ & _ & HU). cbn [ies].
  eapply Forall_impl; [|exact HU]. intros i Hi. apply Hi.
Qed.

Definition no_crash (z : sd_end) : Prop := (exists s, z = SdDone s) \/ exists e, z = SdFatal e.

Lemma collect_closed cfg s g : c_closed (fst (collect cfg s g)) = c_closed s.
Proof.
  assert (ST : forall s id key n q err, c_closed (fst (store cfg s id key n q g err)) = c_closed s).
  { intros. unfold store. destruct (nth_error _ _); [|reflexivity]. cbv zeta. destruct (_ =? _); [reflexivity|].
    destruct (cf_timeout cfg); reflexivity. }
  unfold collect. destruct (c_closed s) eqn:O; [exact O|].
  destruct (tpdu_concat_info _) as [[[n q] ref]|]; [|exact O]. destruct (n <? 2); [exact O|].
  destruct (_ || _); [exact O|]. destruct (pdu_key _ _ _) as [key err]. cbv zeta.
  assert (FR : c_closed (fst (let '(s, id) := new_pipe s key n in store cfg s id key n q g err)) = false).
  { cbn [new_pipe]. rewrite ST. exact O. }
  destruct (klookup _ _) as [id|]; [|exact FR]. destruct (nth_error _ _) as [p|]; [|exact O].
  destruct (idx _ _) as [[old|]| | |]; try exact O. destruct (p_cleanup p) as [tid|]; [|rewrite ST; exact O].
  unfold stop_timer. destruct (nth_error _ _) as [tm|]; [|exact FR].
  destruct (tm_state tm); try exact FR. rewrite ST. exact O.
Qed.

Lemma supported_collect s g : reachable sd_cfg supported_event s -> c_closed s = false -> supported_event (EvCollect g) ->
  exists s' d err, collect sd_cfg s g = (s', CReturn d err) /\ reachable sd_cfg supported_event s' /\ c_closed s' = false /\
    (d = None \/ exists gs, gs <> [] /\ d = Some (map Some gs)).
Proof.
  intros RE OP SE. pose proof (reach_inv _ _ _ RE) as IV. pose proof (reach_minv _ _ (reach_typed _ _ RE)) as M.
  pose proof (reach_step _ _ _ _ RE SE) as RE'. cbn [step] in RE'. pose proof (collect_closed sd_cfg s g) as OP'.
  rewrite OP in OP'. destruct (collect sd_cfg s g) as [s1 r] eqn:E. cbn [fst] in RE', OP'.
  assert (exists d err, r = CReturn d err /\ (d = None \/ exists gs, gs <> [] /\ d = Some (map Some gs))) as (d & err & -> & HD).
  2:{ exists s1, d, err. auto. }
  destruct SE as (TY & SU). unfold is_part in SU.
  assert (ONE : exists gs : list seg, gs <> [] /\ Some [Some g] = Some (map Some gs)).
  { exists [g]. split; [discriminate|reflexivity]. }
  destruct (tpdu_concat_info (sg_pdu g)) as [[[n q] ref]|] eqn:EC.
  2:{ unfold collect in E; rewrite OP, EC in E; injection E as <- <-. eauto. }
  destruct (n <? 2) eqn:E2; [unfold collect in E; rewrite OP, EC, E2 in E; injection E as <- <-; eauto|].
  destruct ((q <? 1) || (n <? q)) eqn:EQ; [unfold collect in E; rewrite OP, EC, E2, EQ in E; injection E as <- <-; eauto|].
  destruct (part_message g n q ref TY (SU ltac:(lia)) EC ltac:(lia)) as (m & MO & <- & HS & _).
  destruct (collect_msg sd_cfg s m q g s1 _ IV M OP MO ltac:(lia) HS E) as (_ & [(_ & F)|[F|(gs & F & L & _)]]); rewrite F; eauto.
  eexists _, _. split; [reflexivity|]. right. exists gs. split; [|reflexivity]. intros ->. cbn in L. lia.
Qed.

Lemma sd_octets_safe pm a : match sd_octets pm a with Ok _ | Err _ => True | _ => False end.
Proof.
  unfold sd_octets. destruct (hex_decode_safe a) as [(b & -> & HB & _)|[-> |(c & ->)]]; [|exact I|exact I]. cbn [bind].
  destruct pm; [|exact I]. destruct (pdu_unmarshal_safe b HB) as [(p & -> & _)|(f & o & -> & _)]; exact I.
Qed.

Lemma loop_no_crash pm : forall args n s, reachable sd_cfg supported_event s -> c_closed s = false ->
  Forall (fun a => ~ report_part pm a) args -> no_crash (snd (smsdeliver_loop pm args n s)).
Proof.
  induction args as [|a args IH]; intros n s RE OP HF; cbn [smsdeliver_loop]; [left; now exists s|].
  apply Forall_cons_iff in HF as [HA HF].
  pose proof (sd_octets_safe pm a) as HO. destruct (sd_octets pm a) as [tb|e| |] eqn:EO; try contradiction; [|right; now exists e].
  apply payload_octets in EO. pose proof (payload_bytes _ _ _ EO) as HB.
  pose proof (tpdu_unmarshal_safe (set_Direction zero_tpdu MT) tb HB) as HS.
  change (tpdu_unmarshal (set_Direction zero_tpdu MT) tb) with (unmarshal tb false) in HS.
  destruct (unmarshal tb false) as [t|e| |] eqn:EU; try contradiction.
  2:{ specialize (IH n s RE OP HF). destruct (smsdeliver_loop pm args n s). exact IH. }
  destruct (supported_collect s {| sg_id := n; sg_pdu := t |} RE OP) as (s' & d & err & -> & RE' & OP' & HD).
  { split; [now apply (read_typed tb)|]. unfold is_part, supported. cbn [sg_pdu]. intros HP. right.
    destruct (tpdu_concat_info t) as [[[k i] r]|] eqn:EC; [|discriminate].
    destruct (Z.eq_dec (tpdu_type t) SmsDeliver) as [E|NE]; [exact E|]. exfalso. apply HA. exists t. split.
    - exists tb. now split.
    - split; [exact NE|]. exists k, i, r. split; [exact EC|lia]. }
  assert (exists l, sd_report d err = Some l) as (l & ->).
  { destruct HD as [-> |(gs & NE & ->)]; [cbn; eauto|now apply sd_report_some]. }
  specialize (IH (S n) s' RE' OP' HF). destruct (smsdeliver_loop pm args (S n) s'). exact IH.
Qed.

(** The TPDUs [ts] as the calls of Collect made by the loop. *)
Fixpoint arrivals (n : nat) (ts : list tpdu) : list seg :=
  match ts with [] => [] | t :: ts' => {| sg_id := n; sg_pdu := t |} :: arrivals (S n) ts' end.
Lemma arrivals_pdus : forall ts n, map sg_pdu (arrivals n ts) = ts.
Proof. induction ts as [|t ts IH]; intros n; cbn [arrivals map]; [reflexivity|]. now rewrite IH. Qed.

Definition lines (o : output) : option (list sd_line) :=
  match o with OCollect (CReturn d err) => sd_report d err | _ => None end.

Lemma loop_run pm : forall args ts n s ls, Forall2 (shows pm) args ts ->
  map lines (snd (run sd_cfg s (map EvCollect (arrivals n ts)))) = map Some ls ->
  smsdeliver_loop pm args n s = (concat ls, SdDone (fst (run sd_cfg s (map EvCollect (arrivals n ts))))).
Proof.
  intros args ts n s ls H. revert n s ls.
  induction H as [|a t args ts (tb & HP & HU) _ IH]; intros n s ls HL.
  - cbn [arrivals map run snd fst smsdeliver_loop] in *. destruct ls; [reflexivity|discriminate].
  - cbn [arrivals map] in *. rewrite run_cons in *. cbn [step] in *. cbn [smsdeliver_loop].
    apply payload_octets in HP. rewrite HP, HU.
    destruct (collect sd_cfg s {| sg_id := n; sg_pdu := t |}) as [s' r]. cbn [fst snd map] in HL.
    destruct ls as [|l ls]; [discriminate|]. cbn [map] in HL. injection HL as HL1 HL2. cbn [lines] in HL1.
    destruct r as [d err|]; [|discriminate]. rewrite HL1. cbn [fst snd].
    rewrite (IH (S n) s' ls HL2). reflexivity.
Qed.

Lemma replies_all m : forall gs os, length os = length gs -> (forall g, In g gs -> exists i, seg_no m g = Some i) ->
  replies m (map EvCollect gs) os = os.
Proof.
  induction gs as [|g gs IH]; intros [|o os] HL HA; try discriminate; [reflexivity|]. cbn [map replies].
  destruct (HA g (or_introl eq_refl)) as (i & ->). f_equal. apply IH; [now injection HL|]. intros x Hx. apply HA. now right.
Qed.
Lemma parts_all m : forall gs, (forall g, In g gs -> exists i, seg_no m g = Some i) ->
  map snd (parts m (map EvCollect gs)) = gs.
Proof.
  induction gs as [|g gs IH]; intros HA; [reflexivity|]. cbn [map]. unfold parts. cbn [flat_map].
  destruct (HA g (or_introl eq_refl)) as (i & ->). cbn [app map snd]. f_equal. apply IH. intros x Hx. apply HA. now right.
Qed.
Lemma run_length cfg : forall es s, length (snd (run cfg s es)) = length es.
Proof. induction es as [|e es IH]; intros s; [reflexivity|]. rewrite run_cons. cbn [snd length]. now rewrite IH. Qed.
Lemma no_timers cfg m : forall gs s, no_timeout cfg m s (map EvCollect gs).
Proof. induction gs as [|g gs IH]; intros s; cbn [map no_timeout]; auto. Qed.

(** Without timers the expiry handler makes no difference. *)
Lemma run_handler tmo h h' : forall gs s,
  run {| cf_timeout := tmo; cf_handler := h |} s (map EvCollect gs) =
  run {| cf_timeout := tmo; cf_handler := h' |} s (map EvCollect gs).
Proof. induction gs as [|g gs IH]; intros s; [reflexivity|]. cbn [map]. rewrite !run_cons. cbn [step].
  change (collect {| cf_timeout := tmo; cf_handler := h |} s g) with (collect {| cf_timeout := tmo; cf_handler := h' |} s g).
  destruct (collect _ s g). cbn [fst]. now rewrite IH.
Qed.

(** Nothing is left in a Collector that returned as many segments as it took. *)
Lemma run_drained gs : let '(s', os) := run sd_cfg new_collector (map EvCollect gs) in
  Forall typed_event (map EvCollect gs) ->
  length (all_taken (map EvCollect gs) os) = length (flat_map returned os) -> c_pipes s' = [].
Proof.
  pose proof (balance_run {| cf_timeout := false; cf_handler := true |} (map EvCollect gs) eq_refl new_collector (inv_new _)) as B.
  rewrite <- (run_handler false false true) in B. change {| cf_timeout := false; cf_handler := false |} with sd_cfg in B.
  destruct (run sd_cfg new_collector (map EvCollect gs)) as [s' os] eqn:ER. intros SE HL.
  apply Permutation_length in B. change (held new_collector ++ pending new_collector) with (@nil seg) in B.
  rewrite !app_length in B. cbn [length] in B. assert (HH : length (held s') = 0%nat) by lia.
  assert (RE : reachable sd_cfg typed_event s') by (exists (map EvCollect gs); now rewrite ER).
  pose proof (reach_minv _ _ RE) as M. destruct (c_pipes s') as [|[k id] l] eqn:EP; [reflexivity|].
  exfalso. assert (exists p, nth_error (c_heap s') id = Some p /\ p_frags p = Z.of_nat (length (somes (p_segs p))) /\ 1 <= p_frags p)
    as (p & HP & HF & HR).
  { assert (IN : In (k, id) (c_pipes s')) by (rewrite EP; now left). destruct (list_eq_dec Z.eq_dec k []) as [NK|NK].
    - destruct (proj2 (M k id IN) NK) as (p & HP & HF & HR & _). eauto.
    - destruct (proj1 (M k id IN) NK) as (m & p & _ & _ & HP & (_ & HF & _) & HR). exists p. repeat split; tauto || lia. }
  unfold held in HH. rewrite EP in HH. cbn [flat_map snd] in HH. rewrite app_length in HH.
  rewrite (pipe_segs_nth _ _ _ HP) in HH. lia.
Qed.

Lemma encode_oa e msg opts pdus e' : encoder_encode e msg opts = Ok (pdus, e') ->
  forall s, In s pdus -> OA s = OA (e_pdu (with_options e opts)) /\ Direction s = Direction (e_pdu (with_options e opts)).
Proof.
  intros HE s Hs. destruct (encoder_encode_ok _ _ _ _ _ HE) as (t & ud & HP & HS & _).
  assert (HT : OA t = OA (e_pdu (with_options e opts)) /\ Direction t = Direction (e_pdu (with_options e opts))).
  { set (x := with_options e opts) in *. clearbody x. clear - HP. unfold encode_prepare in HP.
    destruct (_ || _); [apply ok_pair in HP as [<- _]; auto|].
    destruct (encode_user_data msg (e_eopts x)) as [[d u] a]. cbv zeta in HP.
    destruct (dcs_with_alphabet _ _) as [dcs| | |]; try discriminate. apply ok_pair in HP as [<- _].
    destruct (negb _), u; destruct (e_pdu x); cbn; auto. }
  apply In_nth_error in Hs as (k & Hk). pose proof (segment_inherits _ _ _ _ HS k s Hk) as HI. unfold inherits in HI.
  destruct HI as (-> & -> & _). exact HT.
Qed.
