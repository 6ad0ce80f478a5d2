(** C34-C40, C48: reassembly.

    [step] and [run] are the model of the Collector (Collector.v): a history is
    any sequence of Collect, Close and Pipes calls, timers firing, and the two
    parts of a timer's callback. *)
From Coq Require Import Permutation.
From Verif Require Import GoBase GoLemmas Address UserData Tpdu Collector SpecCollect CollectorProofs CollectorMsgProofs
  CollectorOrderProofs CollectorHistProofs P_Tpdu.

(** ** Examples: segments of messages *)

Definition ex_udh (ref total i : Z) : udh := Some [{| ie_id := 0; ie_data := [ref; total; i] |}].
Definition ex_seg (id : nat) (ref total i : Z) : seg :=
  {| sg_id := id; sg_pdu := set_UDHf ex_deliver (ex_udh ref total i) |}.
(** A segment of a type the Collector does not support: SUBMIT-REPORT. *)
Definition ex_other (id : nat) (ref total i : Z) : seg :=
  {| sg_id := id; sg_pdu := set_UDHf (set_FO ex_deliver 1) (ex_udh ref total i) |}.
Definition ex_msg : message :=
  {| m_type := SmsDeliver; m_toa := a_toa ex_addr; m_addr := a_addr ex_addr; m_ref := 7; m_total := 3 |}.
Definition with_timeout : ccfg := {| cf_timeout := true; cf_handler := true |}.

Lemma ex_supported id ref total i : is_byte ref -> is_byte total -> is_byte i ->
  supported_event (EvCollect (ex_seg id ref total i)).
Proof.
  intros A B C. split; [|right; reflexivity]. repeat split; try (cbn; lia).
  constructor; [cbn; auto|constructor].
Qed.

(** ** C34 *)

(** From any reachable state in which no segment of message [m] is held, a
    history without Close in which the segments of [m] are collected once each,
    in any order and among any other events, and in which no timer of [m] fires:
    the calls with those segments return nothing, except the last, which returns
    all of them in sequence order. *)
Theorem C34_any_order : forall cfg m s es,
  reachable cfg typed_event s -> c_closed s = false ->
  (forall g, In g (held s) -> seg_no m g = None) ->
  Forall typed_event es -> Forall (fun e => e <> EvClose) es -> no_timeout cfg m s es ->
  2 <= m_total m ->
  Permutation (map fst (parts m es)) (map Z.of_nat (seq 1 (Z.to_nat (m_total m)))) ->
  exists gs,
    replies m es (snd (run cfg s es)) =
      repeat (OCollect (CReturn None None)) (Z.to_nat (m_total m) - 1) ++
      [OCollect (CReturn (Some (map Some gs)) None)] /\
    length gs = Z.to_nat (m_total m) /\
    forall i g, In (i, g) (parts m es) -> nth_error gs (Z.to_nat (i - 1)) = Some g.
Proof.
  intros cfg m s es RE OP HH SE NC NT T2 PE.
  assert (LP : length (parts m es) = Z.to_nat (m_total m)).
  { rewrite <- (map_length fst), (Permutation_length PE), map_length, seq_length. reflexivity. }
  assert (MO : m_ok m).
  { destruct (parts m es) as [|[i g] l] eqn:EP; [cbn in LP; lia|].
    assert (HI : In (i, g) (parts m es)) by (rewrite EP; now left).
    unfold parts in HI. apply in_flat_map in HI as (e & HE & HI). destruct e as [g'| | |?|?|?]; try contradiction.
    destruct (seg_no m g') as [i'|] eqn:EN; [|contradiction]. destruct HI as [HI|[]]. injection HI as -> ->.
    rewrite Forall_forall in SE. apply SE in HE as (TD & TO & TB). apply seg_no_iff in EN as (HC & HT).
    destruct (concat_bytes _ _ _ _ TB HC) as (_ & _ & BR). unfold m_ok.
    destruct HT as [(A & _ & C)|(A & _ & C)]; rewrite C in *; cbn in *; auto. }
  assert (NU : numbered (total m) ([] ++ parts m es)).
  { cbn [app]. split.
    - apply (Permutation_NoDup (Permutation_sym PE)). apply FinFun.Injective_map_NoDup; [|apply seq_NoDup].
      intros a b. lia.
    - apply Forall_forall. intros x Hx. apply (in_map fst) in Hx. apply (Permutation_in _ PE) in Hx.
      apply in_map_iff in Hx as (k & <- & Hk). apply in_seq in Hk. unfold total. lia. }
  assert (AB : absent m s).
  { unfold absent. destruct (klookup (c_pipes s) (key_of m)) as [id|] eqn:LK; [|reflexivity].
    destruct (entry_seg m MO s id (reach_minv cfg s RE) LK) as (g & i & HG & HS).
    assert (HI : In g (held s)).
    { unfold held. apply in_flat_map. exists (key_of m, id). split; [now apply klookup_in|]. cbn [snd].
      unfold somes. apply in_flat_map. exists (Some g). split; [assumption|now left]. }
    apply HH in HI. congruence. }
  pose proof (follow cfg m MO es s [] (reach_inv _ _ _ RE) (reach_minv _ _ RE) OP (or_introl (conj eq_refl AB)) SE NC NT NU) as F.
  cbn [length app] in F. specialize (F ltac:(unfold total; lia) LP). rewrite LP in F.
  set (pl := place (total m) (parts m es)) in *.
  assert (EL : pl = map Some (somes pl)).
  { apply all_somes. unfold pl. rewrite place_somes, place_length by assumption. exact LP. }
  exists (somes pl). rewrite F. split; [now rewrite EL at 1|]. split.
  - unfold pl. now rewrite place_somes.
  - intros i g HI. assert (RI : 1 <= i <= Z.of_nat (total m)).
    { destruct NU as (_ & FA). rewrite Forall_forall in FA. now apply FA in HI. }
    destruct (place_nth (total m) (parts m es) NU (Z.to_nat (i - 1)) ltac:(lia)) as (PN & _).
    specialize (PN g). replace (Z.of_nat (Z.to_nat (i - 1)) + 1) with i in PN by lia. apply PN in HI. fold pl in HI.
    rewrite EL, nth_error_map in HI. destruct (nth_error (somes pl) (Z.to_nat (i - 1))); [|discriminate].
    cbn in HI. congruence.
Qed.
Print Assumptions C34_any_order.

Definition ex_history : list event :=
  [EvCollect (ex_seg 0 7 3 3); EvCollect (ex_seg 1 9 2 1); EvCollect (ex_seg 2 7 3 1); EvFire 1; EvPipes;
   EvExpire 1; EvCollect (ex_seg 3 7 3 2)].
(** The same with a part of another type in between. *)
Definition ex_mixed : list event := firstn 6 ex_history ++ [EvCollect (ex_other 9 7 3 2); EvCollect (ex_seg 3 7 3 2)].
Example C34_instance :
  Forall typed_event ex_mixed /\ no_timeout with_timeout ex_msg new_collector ex_mixed /\
  Permutation (map fst (parts ex_msg ex_mixed)) (map Z.of_nat (seq 1 3)) /\
  replies ex_msg ex_mixed (snd (run with_timeout new_collector ex_mixed)) =
    [OCollect (CReturn None None); OCollect (CReturn None None);
     OCollect (CReturn (Some [Some (ex_seg 2 7 3 1); Some (ex_seg 3 7 3 2); Some (ex_seg 0 7 3 3)]) None)].
Proof.
  split; [|split; [|split]].
  - repeat (constructor; [try exact I; repeat split; cbn; try lia; repeat constructor; unfold is_byte; lia|]). constructor.
  - repeat split; try exact I. cbn. intros tm g HT _ HI. injection HT as <-. cbn in HI.
    destruct HI as [HI|[HI|[]]]; [|discriminate]. injection HI as <-. reflexivity.
  - vm_compute. change [3; 1; 2] with ([3] ++ [1; 2]). apply (Permutation_app_comm [3] [1; 2]).
  - vm_compute. reflexivity.
Qed.

(** ** C35 *)

(** Whatever Collect returns in any history is either the segment just given,
    alone, or a complete message in order. *)
Definition whole_message (m : message) (d : list (option seg)) : Prop :=
  exists gs, d = map Some gs /\ 2 <= m_total m /\ length gs = Z.to_nat (m_total m) /\
    forall i g, nth_error gs i = Some g -> is_segment m (Z.of_nat i + 1) g.

Theorem C35_result : forall cfg s g s' d err,
  reachable cfg typed_event s -> supported_event (EvCollect g) ->
  step cfg s (EvCollect g) = (s', OCollect (CReturn (Some d) err)) ->
  err = None /\ ((is_part g = false /\ d = [Some g]) \/ (is_part g = true /\ exists m, whole_message m d /\ In (Some g) d)).
Proof.
  intros cfg s g s' d err RE SE H. cbn [step] in H. destruct (collect cfg s g) as [s1 r] eqn:E. injection H as <- ->.
  pose proof (reach_inv _ _ _ RE) as I. pose proof (reach_minv _ _ RE) as M.
  destruct (c_closed s) eqn:O; [unfold collect in E; rewrite O in E; discriminate|].
  unfold is_part. destruct SE as (TY & SU). unfold is_part in SU.
  destruct (tpdu_concat_info (sg_pdu g)) as [[[n q] ref]|] eqn:EC.
  2:{ unfold collect in E; rewrite O, EC in E; injection E as <- <- <-. auto. }
  destruct (n <? 2) eqn:E2.
  { unfold collect in E; rewrite O, EC, E2 in E; injection E as <- <- <-. split; [reflexivity|]. left. split; [lia|reflexivity]. }
  destruct ((q <? 1) || (n <? q)) eqn:EQ; [unfold collect in E; rewrite O, EC, E2, EQ in E; discriminate|].
  destruct (part_message g n q ref TY (SU ltac:(lia)) EC ltac:(lia)) as (m & MO & <- & HS & _).
  destruct (collect_msg cfg s m q g s1 _ I M O MO ltac:(lia) HS E) as (_ & [(_ & F)|[F|(gs & F & L & HI & HG)]]); try discriminate.
  injection F as -> ->. split; [reflexivity|]. right. split; [lia|]. exists m. split; [|now apply in_map].
  exists gs. split; [reflexivity|]. split; [lia|]. split; assumption.
Qed.
Print Assumptions C35_result.

(** The list given to the expiry handler holds segments of one message, each in
    its place, with nil for those that did not arrive. *)
Theorem C35_expired : forall cfg s tid s' d,
  reachable cfg supported_event s -> step cfg s (EvHandler tid) = (s', OHandled d) ->
  exists m, length d = Z.to_nat (m_total m) /\
    forall i g, nth_error d i = Some (Some g) -> is_segment m (Z.of_nat i + 1) g.
Proof.
  intros cfg s tid s' d RE H. cbn [step] in H.
  destruct (nth_error (c_timers s) tid) as [tm|] eqn:HT; [|discriminate].
  destruct (tm_state tm); try discriminate. destruct (cf_handler cfg); [|discriminate]. injection H as _ <-.
  pose proof (i_tpipe _ _ _ (reach_inv _ _ _ RE) _ _ HT) as LT.
  destruct (nth_error (c_heap s) (tm_pipe tm)) as [p|] eqn:HP; [|apply nth_error_None in HP; lia].
  destruct (reach_hinv cfg s RE _ _ HP) as (m & _ & W). exists m. rewrite (pipe_segs_nth _ _ _ HP).
  split; [apply W|]. apply W.
Qed.
Print Assumptions C35_expired.

(** If parts of other types are collected too, the handler is still never given
    parts of a message together with anything else. *)
Theorem C35_expired_apart : forall cfg s tid s' d,
  reachable cfg typed_event s -> step cfg s (EvHandler tid) = (s', OHandled d) ->
  (exists m, length d = Z.to_nat (m_total m) /\
     forall i g, nth_error d i = Some (Some g) -> is_segment m (Z.of_nat i + 1) g) \/
  (forall g, In (Some g) d -> tpdu_type (sg_pdu g) <> SmsSubmit /\ tpdu_type (sg_pdu g) <> SmsDeliver).
Proof.
  intros cfg s tid s' d RE H. cbn [step] in H.
  destruct (nth_error (c_timers s) tid) as [tm|] eqn:HT; [|discriminate].
  destruct (tm_state tm); try discriminate. destruct (cf_handler cfg); [|discriminate]. injection H as _ <-.
  pose proof (i_tpipe _ _ _ (reach_inv _ _ _ RE) _ _ HT) as LT.
  destruct (nth_error (c_heap s) (tm_pipe tm)) as [p|] eqn:HP; [|apply nth_error_None in HP; lia].
  rewrite (pipe_segs_nth _ _ _ HP). destruct (reach_ginv cfg s RE _ _ HP) as [(m & _ & W)|U].
  - left. exists m. split; apply W.
  - right. intros g HG. apply U in HG. unfold supported in HG. tauto.
Qed.
Print Assumptions C35_expired_apart.

(** The messages that are kept apart differ in something the TPDUs carry; two
    messages with all of it equal cannot be told apart. *)
Theorem C35_one_message : forall m m' i i' g, is_segment m i g -> is_segment m' i' g -> m = m' /\ i = i'.
Proof. exact segment_message. Qed.
Print Assumptions C35_one_message.

Example C35_instance : exists s s',
  reachable with_timeout supported_event s /\
  step with_timeout s (EvCollect (ex_seg 3 7 3 2)) =
    (s', OCollect (CReturn (Some [Some (ex_seg 2 7 3 1); Some (ex_seg 3 7 3 2); Some (ex_seg 0 7 3 3)]) None)).
Proof.
  exists (fst (run with_timeout new_collector (firstn 6 ex_history))). eexists. split.
  - exists (firstn 6 ex_history). split; [|reflexivity].
    repeat (constructor; [try exact I; apply ex_supported; unfold is_byte; lia|]). constructor.
  - vm_compute. reflexivity.
Qed.

(** ** C36 *)

(** At the end of any history (of TPDUs of any type, with any timing, closed or
    not) the segments taken over by Collect are, each exactly once, those
    returned, those held in the pipes shown by Pipes, those of pipes whose timer
    has fired and whose handler has yet to be called, and those handed to the
    handler. *)
Theorem C36_conservation : forall cfg es, cf_handler cfg = true ->
  let '(s, os) := run cfg new_collector es in
  Permutation (all_taken es os) (flat_map returned os ++ held s ++ pending s ++ flat_map handled os).
Proof.
  intros cfg es HC. pose proof (balance_run cfg es HC new_collector (inv_new cfg)) as B.
  destruct (run cfg new_collector es) as [s os]. cbn [held pending new_collector c_pipes c_timers flat_map app] in B.
  now rewrite app_nil_r in B.
Qed.
Print Assumptions C36_conservation.

(** Without a handler the expired segments are dropped, and nothing else is. *)
Lemma step_handler t e : forall s h,
  fst (step {| cf_timeout := t; cf_handler := h |} s e) = fst (step {| cf_timeout := t; cf_handler := true |} s e) /\
  returned (snd (step {| cf_timeout := t; cf_handler := h |} s e)) = returned (snd (step {| cf_timeout := t; cf_handler := true |} s e)) /\
  taken e (snd (step {| cf_timeout := t; cf_handler := h |} s e)) = taken e (snd (step {| cf_timeout := t; cf_handler := true |} s e)) /\
  (h = false -> handled (snd (step {| cf_timeout := t; cf_handler := h |} s e)) = []).
Proof.
  intros s h.
  assert (CE : forall g, collect {| cf_timeout := t; cf_handler := h |} s g = collect {| cf_timeout := t; cf_handler := true |} s g)
    by reflexivity.
  destruct e as [g| | |tid|tid|tid]; cbn [step].
  - rewrite CE. destruct (collect _ s g). auto.
  - auto.
  - auto.
  - destruct (nth_error _ _) as [tm|]; [destruct (tm_state tm)|]; auto.
  - destruct (nth_error _ _) as [tm|]; [destruct (tm_state tm)|]; auto.
  - destruct (nth_error _ _) as [tm|]; [destruct (tm_state tm)|]; auto. cbn [cf_handler]. destruct h; cbn; auto.
    repeat split; auto. discriminate.
Qed.
Theorem C36_no_handler : forall cfg es, cf_handler cfg = false ->
  let '(s, os) := run cfg new_collector es in
  let '(_, os') := run {| cf_timeout := cf_timeout cfg; cf_handler := true |} new_collector es in
  flat_map handled os = [] /\
  Permutation (all_taken es os) (flat_map returned os ++ held s ++ pending s ++ flat_map handled os').
Proof.
  intros [t h] es HC. cbn [cf_handler] in HC. subst h. cbn [cf_timeout].
  assert (G : forall s, let r := run {| cf_timeout := t; cf_handler := false |} s es in
     let r' := run {| cf_timeout := t; cf_handler := true |} s es in
     fst r = fst r' /\ flat_map returned (snd r) = flat_map returned (snd r') /\ all_taken es (snd r) = all_taken es (snd r') /\
     flat_map handled (snd r) = []).
  { induction es as [|e es IH]; intros s; cbv zeta; [cbn; auto|]. rewrite !run_cons. cbn [fst snd flat_map all_taken].
    destruct (step_handler t e s false) as (A & B & C & D). rewrite <- A, B, C, (D eq_refl).
    destruct (IH (fst (step {| cf_timeout := t; cf_handler := false |} s e))) as (A1 & B1 & C1 & D1).
    rewrite A1, B1, C1, D1. auto. }
  specialize (G new_collector). cbv zeta in G.
  pose proof (C36_conservation {| cf_timeout := t; cf_handler := true |} es eq_refl) as CO.
  destruct (run {| cf_timeout := t; cf_handler := false |} new_collector es) as [s os].
  destruct (run {| cf_timeout := t; cf_handler := true |} new_collector es) as [s' os']. cbn [fst snd] in G.
  destruct G as (-> & -> & -> & D). auto.
Qed.
Print Assumptions C36_no_handler.

(** If no segment is given twice, none comes out twice. *)
Theorem C36_once : forall cfg es, cf_handler cfg = true ->
  let '(s, os) := run cfg new_collector es in
  NoDup (all_taken es os) -> NoDup (flat_map returned os ++ held s ++ pending s ++ flat_map handled os).
Proof.
  intros cfg es HC. pose proof (C36_conservation cfg es HC) as P. destruct (run cfg new_collector es) as [s os].
  intros ND. exact (Permutation_NoDup P ND).
Qed.
Print Assumptions C36_once.

(** What is taken over: every segment for which Collect returned without error. *)
Example C36_instance :
  let '(s, os) := run with_timeout new_collector ex_history in
  map sg_id (all_taken ex_history os) = [0; 1; 2; 3]%nat /\ map sg_id (flat_map returned os) = [2; 3; 0]%nat /\
  held s = [] /\ map sg_id (pending s) = [1%nat].
Proof. vm_compute. auto. Qed.

(** ** C37 *)

(** False for TPDUs of other types: the error for the type is returned, and the
    segment is nevertheless stored. *)
Theorem C37_refuted : exists g s' err,
  step with_timeout new_collector (EvCollect g) = (s', OCollect (CReturn None (Some err))) /\
  s' <> new_collector /\ In g (held s').
Proof.
  exists (ex_other 0 7 3 1). eexists. eexists. split; [vm_compute; reflexivity|]. split; [discriminate|].
  left. reflexivity.
Qed.
Print Assumptions C37_refuted.

(** In every state, reachable or not, and for every TPDU: a call that returns any
    other error changes nothing and returns nothing.  Missing for the full claim:
    the error for unsupported types. *)
Theorem C37_rejected_partial : forall cfg s g s' d err,
  step cfg s (EvCollect g) = (s', OCollect (CReturn d (Some err))) ->
  (forall st, err <> ErrUnsupportedSmsType st) -> s' = s /\ d = None.
Proof.
  intros cfg s g s' d err H NE. cbn [step] in H. destruct (collect cfg s g) as [s1 r] eqn:E. injection H as <- ->.
  destruct (collect_effect cfg s g s1 _ E) as [(-> & F)|(n & q & ref & key & er & s0 & id & p0 & HC & R2 & RQ & HK & TG & HP0 & HN & ST)].
  - split; [reflexivity|]. destruct d as [d|]; [|reflexivity]. exfalso. unfold collect in E.
    destruct (c_closed s); [discriminate|]. destruct (tpdu_concat_info (sg_pdu g)) as [[[n q] ref]|]; [|discriminate].
    destruct (n <? 2); [discriminate|]. destruct ((q <? 1) || (n <? q)); [discriminate|].
    destruct (pdu_key (sg_pdu g) n ref) as [key er].
    unfold new_pipe, store, stop_timer in E.
    repeat match type of E with
      | context [match ?x with _ => _ end] =>
          match x with context [match _ with _ => _ end] => fail 1 | _ => destruct x end
      end; discriminate.
  - exfalso. unfold store in ST. rewrite HP0 in ST. destruct (p_frags p0 + 1 =? n); [discriminate|].
    assert (er = Some err) by (destruct (cf_timeout cfg); injection ST; auto). subst er.
    destruct (pdu_key_err _ _ _ _ _ HK) as [F|(st & F)]; [discriminate|]. injection F as ->. now apply (NE st).
Qed.
Print Assumptions C37_rejected_partial.

(** SUBMIT and DELIVER TPDUs, and TPDUs that are not part of a concatenation,
    never get that error. *)
Theorem C37_supported : forall cfg s g s' d err,
  (is_part g = true -> supported g) ->
  step cfg s (EvCollect g) = (s', OCollect (CReturn d (Some err))) -> s' = s /\ d = None.
Proof.
  intros cfg s g s' d err SU H. pose proof H as H0. cbn [step] in H. destruct (collect cfg s g) as [s1 r] eqn:E. injection H as <- ->.
  apply (C37_rejected_partial cfg s g s1 d err H0). intros st ->.
  assert (NK : forall n ref, is_part g = true -> snd (pdu_key (sg_pdu g) n ref) = None).
  { intros n ref HP. unfold pdu_key. destruct (SU HP) as [-> | ->]; reflexivity. }
  unfold collect in E. destruct (c_closed s); [discriminate|].
  destruct (tpdu_concat_info (sg_pdu g)) as [[[n q] ref]|] eqn:EC; [|discriminate].
  destruct (n <? 2) eqn:E2; [discriminate|]. destruct ((q <? 1) || (n <? q)); [discriminate|].
  specialize (NK n ref). unfold is_part in NK. rewrite EC in NK. specialize (NK ltac:(lia)).
  destruct (pdu_key (sg_pdu g) n ref) as [key er]. cbn [snd] in NK. subst er.
  unfold new_pipe, store, stop_timer in E.
  repeat match type of E with
    | context [match ?x with _ => _ end] =>
        match x with context [match _ with _ => _ end] => fail 1 | _ => destruct x end
    end; discriminate.
Qed.
Print Assumptions C37_supported.

(** When a part of a SUBMIT or DELIVER message is rejected: exactly
    when the Collector is closed, the number is not in 1..total, or a segment
    with that number of the same message is held. *)
Theorem C37_exactly : forall cfg s m i g,
  reachable cfg typed_event s -> typed_event (EvCollect g) -> is_segment m i g -> 2 <= m_total m ->
  ((exists d err, snd (step cfg s (EvCollect g)) = OCollect (CReturn d (Some err))) <->
   (c_closed s = true \/ ~ (1 <= i <= m_total m) \/ exists g', In g' (held s) /\ is_segment m i g')).
Proof.
  intros cfg s m i g RE SE HS T2. pose proof (reach_inv _ _ _ RE) as IV. pose proof (reach_minv _ _ RE) as M.
  cbn [step]. destruct (collect cfg s g) as [s' r] eqn:E. cbn [snd].
  assert (HC : tpdu_concat_info (sg_pdu g) = Some (m_total m, i, m_ref m)) by apply HS.
  destruct (c_closed s) eqn:O.
  { unfold collect in E. rewrite O in E. injection E as <- <-. split; [auto|]. intros _. eauto. }
  destruct ((i <? 1) || (m_total m <? i)) eqn:EQ.
  { unfold collect in E. rewrite O, HC, EQ in E. replace (m_total m <? 2) with false in E by lia. injection E as <- <-.
    split; [|eauto]. intros _. right. left. lia. }
  assert (RI : 1 <= i <= m_total m) by lia.
  assert (SU : supported g) by (destruct HS as (_ & [(_ & A & _)|(_ & A & _)]); unfold supported; auto).
  destruct (part_message g _ _ _ SE SU HC T2) as (m' & MO & _ & HS' & _).
  destruct (segment_message _ _ _ _ _ HS HS') as (<- & _).
  pose proof (segment_key m i g HS) as HK.
  assert (HELD : (exists g', In g' (held s) /\ is_segment m i g') <->
    exists id p old, klookup (c_pipes s) (key_of m) = Some id /\ nth_error (c_heap s) id = Some p /\
      nth_error (p_segs p) (Z.to_nat (i - 1)) = Some (Some old)).
  { split.
    - intros (g' & HI & HG). unfold held in HI. apply in_flat_map in HI as ((k & id) & HI & HG'). cbn [snd] in HG'.
      apply somes_in in HG'. destruct (list_eq_dec Z.eq_dec k []) as [NK|NK].
      { destruct (proj2 (M k id HI) NK) as (p & HP & _ & _ & U). rewrite (pipe_segs_nth _ _ _ HP) in HG'. destruct (U g' HG').
        destruct HG as (_ & [(_ & A & _)|(_ & A & _)]); unfold supported; auto. }
      destruct (proj1 (M k id HI) NK) as (m2 & p & MO2 & -> & HP & (_ & _ & W) & _).
      rewrite (pipe_segs_nth _ _ _ HP) in HG'. destruct (In_nth_error _ _ HG') as (j & HJ).
      destruct (segment_message _ _ _ _ _ HG (W _ _ HJ)) as (-> & ->).
      exists id, p, g'. split; [apply klookup_nodup; [apply IV|assumption]|]. split; [assumption|].
      now replace (Z.to_nat (Z.of_nat j + 1 - 1)) with j by lia.
    - intros (id & p & old & LK & HP & HN). apply klookup_in in LK. destruct (proj1 (M _ _ LK) (key_nonempty _)) as (m2 & p2 & MO2 & EK & HP2 & (_ & _ & W) & _).
      apply key_inj in EK; [|assumption..]. subst m2. assert (p2 = p) by congruence. subst p2.
      exists old. split.
      + unfold held. apply in_flat_map. exists (key_of m, id). split; [assumption|]. cbn [snd]. rewrite (pipe_segs_nth _ _ _ HP).
        unfold somes. apply in_flat_map. exists (Some old). split; [now apply nth_error_In in HN|now left].
      + apply W in HN. now replace (Z.of_nat (Z.to_nat (i - 1)) + 1) with i in HN by lia. }
  split.
  - intros (d & err & HR). injection HR as ->. right. right. apply HELD.
    assert (EF : err = ErrDuplicateSegment).
    { destruct (collect_msg cfg s m i g s' _ IV M O MO RI HS E) as (_ & [(_ & F)|[F|(gs & F & _)]]); congruence. }
    subst err.
    destruct (collect_cases cfg s g _ _ _ _ _ O HC T2 RI HK) as [(_ & EC)|[(id & p & LK & HP & CA)|(id & LK & HP & EC)]].
    + rewrite EC in E. destruct (fresh_msg cfg s m i g s' _ IV M MO RI HS E) as (_ & F & _). discriminate.
    + destruct CA as [(old & EI & _)|[(EI & CA)|(EI & EC)]].
      * apply idx_nth in EI as (_ & EI). eauto 7.
      * exfalso.
        assert (NS : forall s0, store cfg s0 id (key_of m) (m_total m) i g None <> (s', CReturn d (Some ErrDuplicateSegment))).
        { intros s0 F. unfold store in F. destruct (nth_error (c_heap s0) id); [|discriminate].
          destruct (_ =? _); [discriminate|]. destruct (cf_timeout cfg); discriminate. }
        destruct CA as [(_ & EC)|[(tid & tm & _ & _ & [(_ & EC)|(_ & EC)])|(tid & _ & _ & EC)]]; rewrite EC in E;
          try (now apply NS in E); destruct (fresh_msg cfg s m i g s' _ IV M MO RI HS E) as (_ & F & _); discriminate.
      * rewrite EC in E. discriminate.
    + rewrite EC in E. discriminate.
  - intros [F|[F|HH]]; [discriminate|contradiction|]. apply HELD in HH as (id & p & old & LK & HP & HN).
    exists None, ErrDuplicateSegment. f_equal. unfold collect in E. rewrite O, HC, HK, EQ, LK, HP in E.
    replace (m_total m <? 2) with false in E by lia. unfold idx in E. replace (i - 1 <? 0) with false in E by lia.
    rewrite HN in E. now injection E as _ <-.
Qed.
Print Assumptions C37_exactly.

Example C37_instance : exists s,
  reachable with_timeout supported_event s /\
  step with_timeout s (EvCollect (ex_seg 5 7 3 3)) = (s, OCollect (CReturn None (Some ErrDuplicateSegment))) /\
  step with_timeout s (EvCollect (ex_seg 5 7 3 4)) = (s, OCollect (CReturn None (Some ErrReassemblyInconsistency))).
Proof.
  exists (fst (run with_timeout new_collector (firstn 6 ex_history))). split.
  - exists (firstn 6 ex_history). split; [|reflexivity].
    repeat (constructor; [try exact I; apply ex_supported; unfold is_byte; lia|]). constructor.
  - vm_compute. auto.
Qed.

(** ** C38 *)

(** From any reachable state in which timer [tid] has fired, whatever happens
    then (Collect of anything, Close, other timers): the handler is called for it
    exactly once if its callback runs, and not otherwise, with the segments its
    pipe held when it fired. *)
Theorem C38_handler_once : forall cfg s tid tm es,
  reachable cfg any_event s -> cf_handler cfg = true ->
  nth_error (c_timers s) tid = Some tm -> tm_state tm = TFired ->
  calls tid es (snd (run cfg s es)) = if expires tid es then [pipe_segs s (tm_pipe tm)] else [].
Proof. intros cfg s tid tm es RE HC HT ES. apply handler_fired; auto. now apply (reach_inv cfg any_event). Qed.
Print Assumptions C38_handler_once.

(** The critical section of the callback removes the pipe for good: it is shown
    by no later Pipes call. *)
Theorem C38_pipe_removed : forall cfg s tid tm es,
  reachable cfg any_event s -> nth_error (c_timers s) tid = Some tm -> tm_state tm = TFired ->
  let s1 := fst (step cfg s (EvExpire tid)) in
  forall k, ~ In (k, tm_pipe tm) (pipes (fst (run cfg s1 es))).
Proof.
  intros cfg s tid tm es RE HT ES s1 k HI. pose proof (reach_inv _ _ _ RE) as IV.
  assert (I1 : Inv cfg None s1).
  { unfold s1. destruct (step cfg s (EvExpire tid)) eqn:E. now apply (inv_step cfg s _ _ _ IV E). }
  assert (T1 : nth_error (c_timers s1) tid = Some {| tm_pipe := tm_pipe tm; tm_key := tm_key tm; tm_state := TExpired |}).
  { unfold s1. cbn [step]. rewrite HT, ES. cbn [fst set_timer c_timers].
    destruct (inv_expire cfg s tid tm IV HT ES) as (_ & _ & _ & -> & _). now apply nth_upd_same with (x := tm). }
  assert (G : forall es s t, Inv cfg None s -> nth_error (c_timers s) tid = Some t -> tm_pipe t = tm_pipe tm ->
     tm_state t = TExpired \/ tm_state t = TDone -> ~ In (tm_pipe tm) (map snd (c_pipes (fst (run cfg s es))))).
  { clear. induction es as [|e es IH]; intros s t IV HT HP HS; [cbn [run fst]; rewrite <- HP; now apply (i_expired _ _ _ IV tid)|].
    rewrite run_cons. cbn [fst]. destruct (step cfg s e) as [s1 o] eqn:E.
    pose proof (proj1 (inv_step cfg s e s1 o IV E)) as I1. cbn [fst].
    destruct (late_step cfg s e s1 o tid t IV E HT) as [(A & _)|[(_ & F & _)|(_ & _ & A)]].
    - unfold late. tauto.
    - now apply (IH s1 t).
    - destruct HS; congruence.
    - eapply IH; [assumption|exact A|exact HP|right; reflexivity]. }
  apply in_snd in HI. revert HI. eapply G; [exact I1|exact T1|reflexivity|left; reflexivity].
Qed.
Print Assumptions C38_pipe_removed.

(** A segment that arrives after the timer fired and before its callback has run:
    pipe [p], which holds segments of message [m], is shown under [k] and its
    timer has fired.  If the segment's number is already in that pipe it is
    rejected as a duplicate, so the claim that it starts a fresh reassembly is
    false. *)
Definition expiring (s : cstate) (m : message) (k : bytes) (p : pipe) : Prop :=
  exists id tid tm, In (k, id) (pipes s) /\ nth_error (c_heap s) id = Some p /\
    nth_error (c_timers s) tid = Some tm /\ tm_pipe tm = id /\ tm_state tm = TFired /\
    exists g j, In (Some g) (p_segs p) /\ is_segment m j g.

Theorem C38_fresh_refuted : exists s m k p i g,
  reachable with_timeout supported_event s /\ supported_event (EvCollect g) /\ expiring s m k p /\ is_segment m i g /\
  1 <= i <= m_total m /\ step with_timeout s (EvCollect g) = (s, OCollect (CReturn None (Some ErrDuplicateSegment))).
Proof.
  exists (fst (run with_timeout new_collector [EvCollect (ex_seg 0 7 3 1); EvFire 0])), ex_msg.
  eexists. eexists. exists 1, (ex_seg 1 7 3 1). split; [|split; [|split; [|split; [|split]]]].
  - eexists. split; [|reflexivity]. repeat (constructor; [try exact I; apply ex_supported; unfold is_byte; lia|]). constructor.
  - apply ex_supported; unfold is_byte; lia.
  - exists 0%nat, 0%nat. eexists. split; [vm_compute; left; reflexivity|]. do 4 (split; [vm_compute; reflexivity|]).
    exists (ex_seg 0 7 3 1), 1. split; [vm_compute; left; reflexivity|]. split; [reflexivity|]. right. auto.
  - split; [reflexivity|]. right. auto.
  - cbn. lia.
  - vm_compute. reflexivity.
Qed.
Print Assumptions C38_fresh_refuted.

(** Otherwise it is the first segment of a new reassembly.  Missing for the full
    claim: segments whose number the expiring pipe already has. *)
Theorem C38_fresh_partial : forall cfg s m k p i g s' o,
  reachable cfg typed_event s -> c_closed s = false -> expiring s m k p -> is_segment m i g ->
  1 <= i <= m_total m -> nth_error (p_segs p) (Z.to_nat (i - 1)) = Some None ->
  step cfg s (EvCollect g) = (s', o) ->
  o = OCollect (CReturn None None) /\
  exists id, In (k, id) (pipes s') /\ (id >= length (c_heap s))%nat /\
    pipe_segs s' id = upd (repeat None (Z.to_nat (m_total m))) (Z.to_nat (i - 1)) (Some g).
Proof.
  intros cfg s m k p i g s' o RE O (id & tid & tm & IN & HP & HT & TP & ES & g0 & j0 & HG0 & HS0) HS RI HN H.
  pose proof (reach_inv _ _ _ RE) as IV. pose proof (reach_minv _ _ RE) as M. unfold pipes in IN.
  destruct (list_eq_dec Z.eq_dec k []) as [NK|NK].
  { destruct (proj2 (M k id IN) NK) as (p2 & HP2 & _ & _ & U). assert (p2 = p) by congruence. subst p2. destruct (U g0 HG0).
    destruct HS0 as (_ & [(_ & A & _)|(_ & A & _)]); unfold supported; auto. }
  destruct (proj1 (M _ _ IN) NK) as (m2 & p2 & MO & -> & HP2 & (_ & _ & W) & _). assert (p2 = p) by congruence. subst p2.
  destruct (In_nth_error _ _ HG0) as (j & HJ). destruct (segment_message _ _ _ _ _ HS0 (W _ _ HJ)) as (<- & _).
  pose proof (klookup_nodup _ _ _ (i_keys _ _ _ IV) IN) as LK.
  cbn [step] in H. destruct (collect cfg s g) as [s1 r] eqn:E. injection H as <- <-.
  assert (HC : tpdu_concat_info (sg_pdu g) = Some (m_total m, i, m_ref m)) by apply HS.
  pose proof (segment_key m i g HS) as HK.
  assert (CS : p_cleanup p = Some tid).
  { destruct (i_owner _ _ _ IV _ _ _ _ _ IN HP HT TP) as [F|F]; [congruence|assumption]. }
  destruct (collect_cases cfg s g _ _ _ _ _ O HC (proj2 (proj2 (proj2 MO))) RI HK)
    as [(F & _)|[(id' & p' & LK' & HP' & CA)|(id' & LK' & HP' & _)]]; try congruence.
  assert (id' = id) by congruence. subst id'. assert (p' = p) by congruence. subst p'.
  destruct CA as [(old & EI & _)|[(_ & CA)|(EI & _)]].
  - apply idx_nth in EI as (_ & EI). congruence.
  - destruct CA as [(F & _)|[(tid' & tm' & CS' & HT' & [(F & _)|(_ & EC)])|(tid' & CS' & HT' & _)]]; try congruence.
    rewrite EC in E. destruct (fresh_msg cfg s m i g s1 r IV M MO RI HS E) as (_ & -> & LK1 & c & HP1).
    split; [reflexivity|]. exists (length (c_heap s)). split; [now apply klookup_in|]. split; [lia|].
    now rewrite (pipe_segs_nth _ _ _ HP1).
  - exfalso. apply idx_panic in EI. apply EI. unfold len. assert (Z.to_nat (i - 1) < length (p_segs p))%nat; [|lia].
    apply nth_error_Some. congruence.
Qed.
Print Assumptions C38_fresh_partial.
(** Those are always rejected, and change nothing. *)
Theorem C38_duplicate : forall cfg s m k p i g x s' o,
  reachable cfg typed_event s -> c_closed s = false -> expiring s m k p -> is_segment m i g ->
  1 <= i <= m_total m -> nth_error (p_segs p) (Z.to_nat (i - 1)) = Some (Some x) ->
  step cfg s (EvCollect g) = (s', o) ->
  o = OCollect (CReturn None (Some ErrDuplicateSegment)) /\ s' = s.
Proof.
  intros cfg s m k p i g x s' o RE O (id & tid & tm & IN & HP & HT & TP & ES & g0 & j0 & HG0 & HS0) HS RI HN H.
  pose proof (reach_inv _ _ _ RE) as IV. pose proof (reach_minv _ _ RE) as M. unfold pipes in IN.
  destruct (list_eq_dec Z.eq_dec k []) as [NK|NK].
  { destruct (proj2 (M k id IN) NK) as (p2 & HP2 & _ & _ & U). assert (p2 = p) by congruence. subst p2. destruct (U g0 HG0).
    destruct HS0 as (_ & [(_ & A & _)|(_ & A & _)]); unfold supported; auto. }
  destruct (proj1 (M _ _ IN) NK) as (m2 & p2 & MO & -> & HP2 & (_ & _ & W) & _). assert (p2 = p) by congruence. subst p2.
  destruct (In_nth_error _ _ HG0) as (j & HJ). destruct (segment_message _ _ _ _ _ HS0 (W _ _ HJ)) as (<- & _).
  pose proof (klookup_nodup _ _ _ (i_keys _ _ _ IV) IN) as LK.
  cbn [step] in H. destruct (collect cfg s g) as [s1 r] eqn:E. injection H as <- <-.
  assert (HC : tpdu_concat_info (sg_pdu g) = Some (m_total m, i, m_ref m)) by apply HS.
  pose proof (segment_key m i g HS) as HK.
  destruct (collect_cases cfg s g _ _ _ _ _ O HC (proj2 (proj2 (proj2 MO))) RI HK)
    as [(F & _)|[(id' & p' & LK' & HP' & CA)|(id' & LK' & HP' & _)]]; try congruence.
  assert (id' = id) by congruence. subst id'. assert (p' = p) by congruence. subst p'.
  destruct CA as [(old & EI & EC)|[(EI & _)|(EI & _)]].
  - rewrite EC in E. injection E as <- <-. now split.
  - apply idx_nth in EI as (_ & EI). congruence.
  - exfalso. apply idx_panic in EI. apply EI. unfold len. assert (Z.to_nat (i - 1) < length (p_segs p))%nat; [|lia].
    apply nth_error_Some. congruence.
Qed.
Print Assumptions C38_duplicate.

Example C38_instance : exists s k p,
  reachable with_timeout supported_event s /\ c_closed s = false /\ expiring s ex_msg k p /\
  nth_error (p_segs p) 1 = Some None.
Proof.
  exists (fst (run with_timeout new_collector [EvCollect (ex_seg 0 7 3 1); EvFire 0])). eexists. eexists.
  split; [|split; [|split]].
  - eexists. split; [|reflexivity]. repeat (constructor; [try exact I; apply ex_supported; unfold is_byte; lia|]). constructor.
  - reflexivity.
  - exists 0%nat, 0%nat. eexists. split; [vm_compute; left; reflexivity|]. do 4 (split; [vm_compute; reflexivity|]).
    exists (ex_seg 0 7 3 1), 1. split; [vm_compute; left; reflexivity|]. split; [reflexivity|]. right. auto.
  - vm_compute. reflexivity.
Qed.

(** A completed reassembly never expires: with segments all different, no segment
    returned by Collect is ever handed, or about to be handed, to the handler. *)
Theorem C38_complete_never_expires : forall cfg es, cf_handler cfg = true ->
  let '(s, os) := run cfg new_collector es in
  NoDup (all_taken es os) -> forall g, In g (flat_map returned os) -> ~ In g (pending s ++ flat_map handled os).
Proof.
  intros cfg es HC. pose proof (C36_once cfg es HC) as P. destruct (run cfg new_collector es) as [s os].
  intros ND g H1 H2. specialize (P ND).
  apply in_split in H1 as (l1 & l2 & E). rewrite E, <- app_assoc in P. cbn [app] in P. apply NoDup_remove_2 in P.
  apply P, in_or_app. right. apply in_or_app. right. apply in_or_app. now right.
Qed.
Print Assumptions C38_complete_never_expires.

(** ** C39 *)

(** After Close, whatever happens: the Collector stays closed, every Collect is
    refused and changes nothing, no timer fires, and closing again does nothing. *)
Theorem C39_closed : forall cfg s es, reachable cfg any_event s ->
  let s1 := fst (run cfg (close s) es) in
  c_closed s1 = true /\
  (forall g, step cfg s1 (EvCollect g) = (s1, OCollect (CReturn None (Some ErrClosed)))) /\
  (forall tid, step cfg s1 (EvFire tid) = (s1, ONone)) /\
  step cfg s1 EvClose = (s1, ONone).
Proof.
  intros cfg s es RE s1. pose proof (reach_inv _ _ _ RE) as IV. destruct (inv_close cfg s IV) as (I0 & _ & _ & C0 & _).
  pose proof (closed_run cfg es (close s) I0 C0) as C1. pose proof (inv_run cfg es (close s) I0) as I1. fold s1 in C1, I1.
  split; [assumption|]. split; [|split].
  - intros g. cbn [step]. unfold collect. now rewrite C1.
  - intros tid. cbn [step]. destruct (nth_error (c_timers s1) tid) as [tm|] eqn:HT; [|reflexivity].
    destruct (tm_state tm) eqn:ES; try reflexivity. destruct (i_active _ _ _ I1 _ _ HT ES) as (F & _). congruence.
  - cbn [step]. unfold close. now rewrite C1.
Qed.
Print Assumptions C39_closed.

(** Close keeps what is held. *)
Theorem C39_close_keeps : forall cfg s, reachable cfg any_event s ->
  pipes (close s) = pipes s /\ (forall id, pipe_segs (close s) id = pipe_segs s id) /\ pending (close s) = pending s.
Proof.
  intros cfg s RE. destruct (inv_close cfg s (reach_inv _ _ _ RE)) as (_ & _ & A & _ & B & C). split; [exact B|].
  split; [|assumption]. intros id. unfold pipe_segs. now rewrite C.
Qed.
Print Assumptions C39_close_keeps.

(** Close does not wait for a callback that has been started: its handler can
    still be called afterwards. *)
Example C39_handler_after_close :
  snd (run with_timeout new_collector
         [EvCollect (ex_seg 0 7 3 1); EvFire 0; EvClose; EvExpire 0; EvHandler 0]) =
  [OCollect (CReturn None None); ONone; ONone; ONone; OHandled [Some (ex_seg 0 7 3 1); None; None]].
Proof. vm_compute. reflexivity. Qed.

(** ** C40 *)

(** False for TPDUs of other types: they share one pipe whatever their number of
    segments, and a sequence number beyond the pipe's length panics. *)
Theorem C40_refuted : exists s g,
  reachable with_timeout any_event s /\ snd (step with_timeout s (EvCollect g)) = OCollect CPanic.
Proof.
  exists (fst (run with_timeout new_collector [EvCollect (ex_other 0 7 2 1)])), (ex_other 1 7 3 3). split.
  - eexists. split; [|reflexivity]. repeat constructor.
  - vm_compute. reflexivity.
Qed.
Print Assumptions C40_refuted.

(** Collecting anything but a part of another type never panics, whatever was
    collected before.  Missing for the full claim: the parts of other types. *)
Theorem C40_no_panic_partial : forall cfg s g,
  reachable cfg typed_event s -> supported_event (EvCollect g) ->
  exists d err, snd (step cfg s (EvCollect g)) = OCollect (CReturn d err).
Proof.
  intros cfg s g RE SE. pose proof (reach_inv _ _ _ RE) as IV. pose proof (reach_minv _ _ RE) as M.
  cbn [step]. destruct (collect cfg s g) as [s1 r] eqn:E. cbn [snd].
  destruct (c_closed s) eqn:O; [unfold collect in E; rewrite O in E; injection E as <- <-; eauto|].
  destruct SE as (TY & SU). unfold is_part in SU.
  destruct (tpdu_concat_info (sg_pdu g)) as [[[n q] ref]|] eqn:EC.
  2:{ unfold collect in E; rewrite O, EC in E; injection E as <- <-. eauto. }
  destruct (n <? 2) eqn:E2; [unfold collect in E; rewrite O, EC, E2 in E; injection E as <- <-; eauto|].
  destruct ((q <? 1) || (n <? q)) eqn:EQ; [unfold collect in E; rewrite O, EC, E2, EQ in E; injection E as <- <-; eauto|].
  destruct (part_message g n q ref TY (SU ltac:(lia)) EC ltac:(lia)) as (m & MO & <- & HS & _).
  destruct (collect_msg cfg s m q g s1 _ IV M O MO ltac:(lia) HS E) as (_ & [(_ & F)|[F|(gs & F & _)]]); rewrite F; eauto.
Qed.
Print Assumptions C40_no_panic_partial.

(** ** C48 *)

(** What the value returned by Pipes shows at a later time. *)
Definition shown (s : cstate) (m : list (bytes * nat)) : list (bytes * list (option seg)) :=
  map (fun kv => (fst kv, pipe_segs s (snd kv))) m.

(** It changes: the slices in it are those of the pipes. *)
Theorem C48_refuted : exists s es,
  reachable with_timeout supported_event s /\ Forall supported_event es /\
  shown (fst (run with_timeout s es)) (pipes s) <> shown s (pipes s).
Proof.
  exists (fst (run with_timeout new_collector [EvCollect (ex_seg 0 7 3 1)])), [EvCollect (ex_seg 1 7 3 2)].
  split; [|split].
  - eexists. split; [|reflexivity]. constructor; [apply ex_supported; unfold is_byte; lia|constructor].
  - constructor; [apply ex_supported; unfold is_byte; lia|constructor].
  - vm_compute. discriminate.
Qed.
Print Assumptions C48_refuted.

(** What does hold: the keys and the lengths stay, and a segment that is there
    stays where it is; a history can only fill nil entries.  Missing for the full
    claim: the nil entries stay nil. *)
Theorem C48_only_filled_partial : forall cfg s es k id,
  reachable cfg any_event s -> In (k, id) (pipes s) ->
  let before := pipe_segs s id in let after := pipe_segs (fst (run cfg s es)) id in
  length after = length before /\
  forall i g, nth_error before i = Some (Some g) -> nth_error after i = Some (Some g).
Proof.
  intros cfg s es k id RE HI before after. pose proof (reach_inv _ _ _ RE) as IV.
  destruct (i_heap _ _ _ IV _ _ HI) as (p & HP & _). destruct (run_grows cfg es s id p IV HP) as (p' & HP' & G).
  unfold before, after. rewrite (pipe_segs_nth _ _ _ HP), (pipe_segs_nth _ _ _ HP'). exact G.
Qed.
Print Assumptions C48_only_filled_partial.

(** The slice returned by Collect for a complete message is never changed. *)
Theorem C48_result_fixed : forall cfg s g s' d es,
  reachable cfg any_event s -> is_part g = true ->
  step cfg s (EvCollect g) = (s', OCollect (CReturn (Some d) None)) ->
  exists id, pipe_segs s' id = d /\ pipe_segs (fst (run cfg s' es)) id = d.
Proof.
  intros cfg s g s' d es RE HP H. pose proof (reach_inv _ _ _ RE) as IV.
  destruct (inv_step cfg s _ s' _ IV H) as (I1 & _).
  cbn [step] in H. destruct (collect cfg s g) as [s1 r] eqn:E. injection H as <- ->.
  destruct (complete_frozen cfg s g s1 d IV E HP) as (id & FZ & HD). exists id. split; [assumption|].
  destruct (frozen_run cfg es s1 id I1 FZ) as (_ & ->). assumption.
Qed.
Print Assumptions C48_result_fixed.
