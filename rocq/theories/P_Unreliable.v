(** C99: many messages, encoded at the same time, sent over a network that loses
    and repeats, and collected by one Collector whose timers do what they like. *)
From Coq Require Import Permutation.
From Verif Require Import GoBase GoLemmas SafeLemmas Dcs FirstOctet UserData Tpdu Segment Sms SpecSms SmsProofs Charset SpecText SpecSelect SpecDcs SpecTpdu
  Collector SpecCollect CollectorProofs CollectorMsgProofs SpecFlow FlowProofs SharedCount SpecShared SharedCountProofs
  SpecExchange ExchangeProofs SpecAlone SpecCopies P_Copies P_Collect P_Sms P_Flow P_SharedCount CountProofs P_Exchange.

(** A TPDU that is no part of a longer message is returned, if at all, alone. *)
Lemma single_alone cfg es : forall s t o, In (t, o) (pairs es (snd (run cfg s es))) -> tpdu_concat_info t = None ->
  hands o = [[Some t]] \/ hands o = [].
Proof.
  induction es as [|e es IH]; intros s t o I N; [destruct I|]. cbn [run] in I.
  destruct (step cfg s e) as [s1 o1] eqn:E. specialize (IH s1 t o).
  destruct (run cfg s1 es) as [s2 os]. cbn [snd] in *.
  destruct e as [g| | |tid|tid|tid]; cbn [pairs] in I; auto. destruct I as [I|I]; auto.
  assert (sg_pdu g = t /\ o1 = o) as [<- <-] by (split; congruence).
  cbn [step] in E. destruct (collect cfg s g) as [s3 r] eqn:EC. assert (o1 = OCollect r) as -> by congruence.
  unfold collect in EC. rewrite N in EC. destruct (c_closed s).
  - assert (r = CReturn None (Some ErrClosed)) as -> by congruence. now right.
  - assert (r = CReturn (Some [Some g]) None) as -> by congruence. now left.
Qed.

Lemma handed_hands o os d : In o os -> In d (hands o) -> exists d', In d' (handed os) /\ map (option_map sg_pdu) d' = d.
Proof.
  intros I D. destruct o as [[[gs|] err|]| | |]; try contradiction. destruct D as [<-|[]]. exists gs. split; [|reflexivity].
  apply in_flat_map. eexists. split; [exact I|]. now left.
Qed.

(** What the machine of SpecAlone.v says to numbers of the message. *)
Definition mild (o : output) : Prop :=
  exists d err, o = OCollect (CReturn d err) /\ (err = None \/ err = Some ErrDuplicateSegment \/ err = Some ErrClosed).
Lemma reacts_mild m evs : forall r, (forall i g, In (MPart i g) evs -> 1 <= i <= m_total m) -> Forall mild (snd (reacts m r evs)).
Proof.
  induction evs as [|ev evs IH]; intros r H; [constructor|]. cbn [reacts].
  destruct (react m r ev) as [r1 o] eqn:E. specialize (IH r1 ltac:(intros i g I; apply (H i g); now right)).
  destruct (reacts m r1 evs) as [r2 os]. cbn [snd] in *. apply Forall_app. split; [|exact IH].
  destruct ev as [i g| | |]; cbn [react] in E; [|injection E as <- <-; constructor..].
  specialize (H i g (or_introl eq_refl)).
  replace (negb ((1 <=? i) && (i <=? m_total m))) with false in E by (symmetry; apply negb_false_iff, andb_true_iff; lia).
  destruct (r_closed r); [injection E as <- <-; repeat constructor; eexists _, _; split; [reflexivity|auto]|].
  destruct existsb; [injection E as <- <-; repeat constructor; eexists _, _; split; [reflexivity|auto]|].
  destruct (r_late r); [injection E as <- <-; repeat constructor; eexists _, _; split; [reflexivity|auto]|].
  destruct (_ =? _); injection E as <- <-; repeat constructor; eexists _, _; split; try reflexivity; auto.
Qed.
Lemma view_parts cfg m es : forall s i g, In (MPart i g) (view cfg m s es) -> In (i, g) (parts m es).
Proof.
  induction es as [|e es IH]; intros s i g I; [destruct I|]. cbn [view] in I. apply in_app_iff in I as [I|I].
  - unfold parts. cbn [flat_map]. apply in_app_iff. left.
    destruct e as [g'| | |tid|tid|tid]; cbn [concerns] in I.
    + destruct (seg_no m g') as [i'|]; [|destruct I]. destruct I as [I|[]]. left. congruence.
    + destruct I as [I|[]]; discriminate.
    + destruct I.
    + destruct (nth_error (c_timers s) tid) as [tm|]; [|destruct I]. destruct (tm_state tm); try destruct I.
      destruct has_part; [destruct I as [I|[]]; discriminate|destruct I].
    + destruct (nth_error (c_timers s) tid) as [tm|]; [|destruct I]. destruct (tm_state tm); try destruct I.
      destruct (_ && _)%bool; [destruct I as [I|[]]; discriminate|destruct I].
    + destruct I.
  - unfold parts. cbn [flat_map]. apply in_app_iff. right. eapply IH; eauto.
Qed.
Lemma single_mild cfg es : forall s t o, In (t, o) (pairs es (snd (run cfg s es))) -> tpdu_concat_info t = None -> mild o.
Proof.
  induction es as [|e es IH]; intros s t o I N; [destruct I|]. cbn [run] in I.
  destruct (step cfg s e) as [s1 o1] eqn:E. specialize (IH s1 t o).
  destruct (run cfg s1 es) as [s2 os]. cbn [snd] in *.
  destruct e as [g| | |tid|tid|tid]; cbn [pairs] in I; auto. destruct I as [I|I]; auto.
  assert (sg_pdu g = t /\ o1 = o) as [<- <-] by (split; congruence).
  cbn [step] in E. destruct (collect cfg s g) as [s3 r] eqn:EC. assert (o1 = OCollect r) as -> by congruence.
  unfold collect in EC. rewrite N in EC. destruct (c_closed s).
  - assert (r = CReturn None (Some ErrClosed)) as -> by congruence. eexists _, _. split; [reflexivity|auto].
  - assert (r = CReturn (Some [Some g]) None) as -> by congruence. eexists _, _. split; [reflexivity|auto].
Qed.

(** What is returned was taken, and what was taken was given to Collect. *)
Lemma taken_collected : forall es os, exists rest, Permutation (collected es) (map sg_pdu (all_taken es os) ++ rest).
Proof.
  induction es as [|e es IH]; intros os; [exists []; reflexivity|]. destruct os as [|o os].
  { cbn [all_taken map app]. eexists. reflexivity. }
  destruct (IH os) as (rest & P). cbn [all_taken]. unfold collected in *. cbn [flat_map]. rewrite map_app.
  assert (taken e o = [] \/ exists g, e = EvCollect g /\ taken e o = [g]) as [E|(g & -> & E)].
  { destruct e; cbn; auto. destruct o as [[d [[]|]|]| | |]; eauto. }
  - rewrite E. cbn [map app]. exists ((match e with EvCollect g => [sg_pdu g] | _ => [] end) ++ rest).
    rewrite P. rewrite !app_assoc. apply Permutation_app_tail, Permutation_app_comm.
  - rewrite E. exists rest. cbn [map app]. now constructor.
Qed.
Lemma returned_taken cfg es : exists rest,
  Permutation (all_taken es (snd (run cfg new_collector es)))
    (flat_map SpecCollect.returned (snd (run cfg new_collector es)) ++ rest).
Proof.
  destruct (cf_handler cfg) eqn:H.
  - pose proof (C36_conservation cfg es H) as P. destruct (run cfg new_collector es) as [s os]. eexists. exact P.
  - pose proof (C36_no_handler cfg es H) as P. destruct (run cfg new_collector es) as [s os].
    destruct (run _ new_collector es). eexists. exact (proj2 P).
Qed.
Lemma returned_handed os : (forall d, In d (handed_out os) -> exists ts, d = map Some ts) ->
  map Some (map sg_pdu (flat_map SpecCollect.returned os)) = concat (handed_out os).
Proof.
  induction os as [|o os IH]; intros H; [reflexivity|]. change (handed_out (o :: os)) with (hands o ++ handed_out os) in *.
  cbn [flat_map]. rewrite !map_app, concat_app, IH by (intros d D; apply H, in_app_iff; now right). f_equal.
  destruct o as [[[gs|] err|]| | |]; try reflexivity. cbn [hands concat]. rewrite app_nil_r.
  destruct (H (map (option_map sg_pdu) gs)) as (ts & E); [apply in_app_iff; left; now left|].
  unfold SpecCollect.returned. clear - E. revert ts E. induction gs as [|g gs IH]; intros ts E; [reflexivity|].
  destruct ts as [|t ts]; [discriminate|]. cbn [map] in E. destruct g as [g|]; [|discriminate].
  assert (map (option_map sg_pdu) gs = map Some ts) as E2 by congruence. specialize (IH _ E2).
  cbn [somes flat_map app map option_map]. f_equal. exact IH.
Qed.

Section Unreliable.
  Variables (e : sms_encoder) (calls : list (bytes * list encoder_opt)) (texts : list bytes) (sched : list nat)
    (n : counters) (cs : list counting) (outs : list (list tpdu)) (cfg : ccfg) (es : list event).
  Hypotheses (HI : interleaved e calls sched n cs) (HN : len calls <= 256)
    (HR : map returned cs = map (fun p => Some (Ok p)) outs)
    (HC : Forall2 (fun c text => let e' := with_options e (snd c) in
       template_ok (e_pdu e') /\ meant (DCS (e_pdu e')) (e_eopts e') (fst c) text) calls texts)
    (HL : Forall (fun p => len p <= 255) outs)
    (HP : incl (collected es) (concat (map (map received) outs))).

  Lemma comes_from t : In t (collected es) -> exists k out, nth_error outs k = Some out /\ In t (map received out).
  Proof.
    intros I. apply HP in I. apply in_concat in I as (r & R & I). apply in_map_iff in R as (out & <- & R).
    apply In_nth_error in R as [k R]. eauto.
  Qed.
  Lemma events_typed : Forall typed_event es.
  Proof.
    apply Forall_forall. intros ev I. destruct ev; cbn; auto.
    destruct (comes_from (sg_pdu g)) as (k & out & K & T).
    { apply in_flat_map. exists (EvCollect g). split; [exact I|now left]. }
    apply in_map_iff in T as (s & E & T).
    destruct (out_flow e calls texts sched n cs outs HI HR HC _ _ K) as (_ & _ & _ & _ & _ & H1 & _ & _ & _ & H2).
    eapply received_typed; eauto.
  Qed.

  (** What is a part of one of the messages is one of its TPDUs, with its number. *)
  Lemma its_parts k out : nth_error outs k = Some out -> 1 < len out ->
    exists m, proper_message m /\ m_total m = len out /\
      (forall i t, nth_error (map received out) i = Some t -> forall id, seg_no m {| sg_id := id; sg_pdu := t |} = Some (Z.of_nat i + 1)) /\
      forall i g, In (i, g) (parts m es) -> nth_error (map received out) (Z.to_nat (i - 1)) = Some (sg_pdu g).
  Proof.
    intros K L. assert (len out <= 255) as L2 by (rewrite Forall_forall in HL; apply HL; eapply nth_error_In; eauto).
    destruct (out_flow e calls texts sched n cs outs HI HR HC _ _ K) as (_ & _ & _ & _ & _ & HW & _ & _ & H2 & HF).
    assert (H2' : exists da oa ref st, forall k s, nth_error out k = Some s ->
     tpdu_concat_info s = Some (len out, Z.of_nat k + 1, ref) /\ DA s = da /\ OA s = oa /\ tpdu_type s = st).
    { destruct (H2 L) as (da & oa & ref & st & X). exists da, oa, ref, st. intros i s Hi. destruct (X i s Hi) as (C & R).
      split; [|exact R]. assert (Z.of_nat i < len out) by (unfold len; apply inj_lt, nth_error_Some; congruence).
      now rewrite !Z.mod_small in C by lia. }
    destruct (numbered_reassembled out HW HF L H2') as (m & MT & MS & _).
    assert (forall t, part_of m t = true -> cls t = Some (m_ref m)) as P2.
    { intros t. unfold part_of. destruct (seg_no m {| sg_id := 0; sg_pdu := t |}) as [i|] eqn:E; [|discriminate]. intros _.
      apply seg_no_iff in E as [E _]. cbn [sg_pdu] in E. unfold cls. now rewrite E. }
    destruct out as [|s0 out'] eqn:EO; [discriminate L|]. rewrite <- EO in *.
    assert (is_segment m 1 {| sg_id := 0; sg_pdu := received s0 |}) as S0 by (apply (MS O); rewrite EO; reflexivity).
    assert (reference_of out = Some (m_ref m)) as RF.
    { assert (In (received s0) (map received out)) as I by (rewrite EO; now left).
      rewrite <- (proj1 (class_many e calls sched n cs outs HI HR _ _ _ K L I)).
      apply P2. unfold part_of. now rewrite (proj2 (seg_no_iff _ _ _) S0). }
    exists m. split; [|split; [exact MT|split]].
    - assert (typed {| sg_id := 0; sg_pdu := received s0 |}) as TY.
      { apply (received_typed s0); [apply HW|apply HF|reflexivity]; rewrite EO; now left. }
      assert (supported {| sg_id := 0; sg_pdu := received s0 |}) as SU
        by (destruct S0 as (_ & [(_ & A & _)|(_ & A & _)]); unfold supported; auto).
      destruct (part_message _ _ _ _ TY SU (proj1 S0) ltac:(lia)) as (m' & MO' & _ & SG & _).
      destruct (segment_message _ _ _ _ _ S0 SG) as (-> & _). exact MO'.
    - intros i t I id. apply seg_no_iff, MS. exact I.
    - intros i g I.
      assert (In (sg_pdu g) (collected es) /\ seg_no m g = Some i) as [IC SN].
      { unfold parts in I. apply in_flat_map in I as (ev & V & I). destruct ev as [g'| | |?|?|?]; try contradiction.
        destruct (seg_no m g') as [i'|] eqn:EN; [|contradiction]. destruct I as [I|[]].
        assert (i' = i /\ g' = g) as [-> ->] by (split; congruence). split; [|exact EN].
        apply in_flat_map. exists (EvCollect g). split; [exact V|now left]. }
      assert (cls (sg_pdu g) = Some (m_ref m)) as CL.
      { apply P2. unfold part_of. change (seg_no m {| sg_id := 0; sg_pdu := sg_pdu g |}) with (seg_no m g). now rewrite SN. }
      destruct (comes_from _ IC) as (j & o & J & T).
      assert (In (sg_pdu g) (map received out)) as IO.
      { destruct (Nat.eq_dec j k) as [->|NE]; [congruence|]. exfalso.
        assert (len o = 1 \/ 1 < len o) as [L1|L1].
        { destruct o as [|x [|z o]]; [destruct T|left; reflexivity|right; unfold len; cbn [length]; lia]. }
        - unfold cls in CL. rewrite (class_one e calls texts sched n cs outs HI HR HC _ _ _ J L1 T) in CL. discriminate.
        - apply (refs_apart e calls sched n cs outs HI HN HR j k o out); auto; try (unfold multi_part; now apply Z.ltb_lt).
          rewrite RF, <- CL. symmetry. eapply (class_many e calls sched n cs outs HI HR); eauto. }
      apply In_nth_error in IO as [q Q]. pose proof (proj2 (seg_no_iff _ _ _) (MS q g Q)) as SQ.
      assert (i = Z.of_nat q + 1) as -> by congruence. replace (Z.to_nat (Z.of_nat q + 1 - 1)) with q by lia. exact Q.
  Qed.

  Lemma from_pairs d : In d (handed_out (snd (run cfg new_collector es))) ->
    exists t o, In (t, o) (pairs es (snd (run cfg new_collector es))) /\ In d (hands o) /\ In t (collected es).
  Proof.
    rewrite run_handed. intros D. apply in_flat_map in D as ([t o] & I & D). exists t, o. split; [exact I|]. split; [exact D|].
    rewrite <- (pairs_collected es (snd (run cfg new_collector es)) (run_length _ _ _)). now apply (in_map fst) in I.
  Qed.
  Lemma to_pairs t : In t (collected es) -> exists o, In (t, o) (pairs es (snd (run cfg new_collector es))).
  Proof.
    rewrite <- (pairs_collected es (snd (run cfg new_collector es)) (run_length _ _ _)). intros I.
    apply in_map_iff in I as ([t' o] & E & I). cbn in E. subst. eauto.
  Qed.

  Lemma only_messages d : In d (handed_out (snd (run cfg new_collector es))) ->
    exists k out, nth_error outs k = Some out /\ d = map Some (map received out).
  Proof.
    intros D. destruct (from_pairs d D) as (t & o & I & DO & IC). destruct (comes_from t IC) as (k & out & K & T).
    exists k, out. split; [exact K|].
    assert (len out = 1 \/ 1 < len out) as [L|L].
    { destruct out as [|x [|z o']]; [destruct T|left; reflexivity|right; unfold len; cbn [length]; lia]. }
    - pose proof (class_one e calls texts sched n cs outs HI HR HC _ _ _ K L T) as N.
      destruct (single_alone cfg es new_collector t o I N) as [E|E]; rewrite E in DO; [|destruct DO].
      destruct DO as [<-|[]]. destruct out as [|x [|z o']]; [discriminate L| |unfold len in L; cbn [length] in L; lia].
      destruct T as [<-|[]]. reflexivity.
    - destruct (its_parts k out K L) as (m & PM & MT & MS & MP).
      assert (In o (replies m es (snd (run cfg new_collector es)))) as R.
      { rewrite replies_pairs. apply in_map_iff. exists (t, o). split; [reflexivity|]. apply filter_In. split; [exact I|].
        apply In_nth_error in T as [q Q]. unfold part_of. cbn [fst]. now rewrite (MS q t Q). }
      destruct (handed_hands _ _ _ R DO) as (d' & D' & <-).
      apply (C95_same cfg m es (map received out) d' PM events_typed).
      + intros i g IP _. now apply MP.
      + rewrite MT. apply len_map.
      + exact D'.
  Qed.

  Lemma whole_message k out : nth_error outs k = Some out -> out <> [] ->
    incl (map received out) (collected es) -> Forall (fun ev => ev <> EvClose) es -> (forall m, no_timeout cfg m new_collector es) ->
    In (map Some (map received out)) (handed_out (snd (run cfg new_collector es))).
  Proof.
    intros K N A HO HT.
    assert (len out = 1 \/ 1 < len out) as [L|L].
    { destruct out as [|x [|z o']]; [contradiction|left; reflexivity|right; unfold len; cbn [length]; lia]. }
    - destruct out as [|x [|z o']]; [discriminate L| |unfold len in L; cbn [length] in L; lia].
      assert (In (received x) (map received [x])) as T by now left.
      destruct (to_pairs _ (A _ T)) as (o & I). rewrite run_handed. apply in_flat_map. exists (received x, o). split; [exact I|].
      cbn [snd]. rewrite (proj1 (single_returned cfg es new_collector HO eq_refl _ _ I
        (class_one e calls texts sched n cs outs HI HR HC _ _ _ K L T))). now left.
    - destruct (its_parts k out K L) as (m & PM & MT & MS & MP).
      assert (covers (m_total m) (parts m es)) as CO.
      { intros i Hi. destruct (nth_error (map received out) (Z.to_nat (i - 1))) as [t|] eqn:Q.
        2:{ apply nth_error_None in Q. rewrite map_length in Q. unfold len in MT. lia. }
        pose proof (A t (nth_error_In _ _ Q)) as IC. unfold collected in IC. apply in_flat_map in IC as (ev & V & IC).
        destruct ev as [g| | |?|?|?]; try contradiction. destruct IC as [<-|[]].
        apply in_map_iff. exists (i, g). split; [reflexivity|]. unfold parts. apply in_flat_map. exists (EvCollect g). split; [exact V|].
        pose proof (MS _ _ Q (sg_id g)) as SN. destruct g as [id t]. cbn [sg_id sg_pdu] in *. rewrite SN. left. f_equal. lia. }
      apply (C95_at_least_once cfg m es PM events_typed HO (HT m)) in CO.
      destruct (handed (replies m es (snd (run cfg new_collector es)))) as [|d ds] eqn:EH; [contradiction|].
      assert (map (option_map sg_pdu) d = map Some (map received out)) as E.
      { apply (C95_same cfg m es (map received out) d PM events_typed).
        - intros i g IP _. now apply MP.
        - rewrite MT. apply len_map.
        - rewrite EH. now left. }
      rewrite <- E. assert (In d (handed (replies m es (snd (run cfg new_collector es))))) as D by (rewrite EH; now left).
      unfold handed in D. apply in_flat_map in D as (o & O & D). destruct o as [[[gs|] err|]| | |]; try contradiction.
      destruct D as [->|[]]. rewrite replies_pairs in O. apply in_map_iff in O as ([t o'] & EO & O). apply filter_In in O as [O _].
      cbn in EO. subst o'. rewrite run_handed. apply in_flat_map. eexists. split; [exact O|]. now left.
  Qed.

  Lemma all_mild o : In o (snd (run cfg new_collector es)) -> failed o -> mild o.
  Proof.
    intros I F. destruct (run_failed _ _ _ _ I F) as (t & J).
    assert (In t (collected es)) as IC.
    { rewrite <- (pairs_collected es (snd (run cfg new_collector es)) (run_length _ _ _)). now apply (in_map fst) in J. }
    destruct (comes_from t IC) as (k & out & K & T).
    assert (len out = 1 \/ 1 < len out) as [L|L].
    { destruct out as [|x [|z o']]; [destruct T|left; reflexivity|right; unfold len; cbn [length]; lia]. }
    - eapply single_mild; [exact J|]. exact (class_one e calls texts sched n cs outs HI HR HC _ _ _ K L T).
    - destruct (its_parts k out K L) as (m & PM & MT & MS & MP).
      assert (In o (replies m es (snd (run cfg new_collector es)))) as R.
      { rewrite replies_pairs. apply in_map_iff. exists (t, o). split; [reflexivity|]. apply filter_In. split; [exact J|].
        apply In_nth_error in T as [q Q]. unfold part_of. cbn [fst]. now rewrite (MS q t Q). }
      pose proof (P_Alone.C76_alone cfg m es PM events_typed) as A.
      destruct (run cfg new_collector es) as [s os]. cbn [snd] in *.
      pose proof (reacts_mild m (view cfg m new_collector es) m_start) as RM.
      destruct (reacts m m_start (view cfg m new_collector es)) as [r answers]. destruct A as (A & _). rewrite A in R.
      cbn [snd] in RM. rewrite Forall_forall in RM. apply RM; [|exact R]. intros i g V.
      apply view_parts in V. pose proof (MP i g V) as Q.
      assert (seg_no m g = Some i) as SN.
      { unfold parts in V. apply in_flat_map in V as (ev & _ & V). destruct ev as [g'| | |?|?|?]; try contradiction.
        destruct (seg_no m g') as [i'|] eqn:EN; [|contradiction]. destruct V as [V|[]]. congruence. }
      pose proof (MS _ _ Q (sg_id g)) as SQ. destruct g as [id t']. cbn [sg_id sg_pdu] in *.
      assert (Z.to_nat (i - 1) < length (map received out))%nat as LT by (apply nth_error_Some; congruence).
      rewrite map_length in LT. assert (i = Z.of_nat (Z.to_nat (i - 1)) + 1) by congruence. unfold len in MT. lia.
  Qed.
End Unreliable.

(** Up to 256 messages, encoded by calls of Encode in any interleaving, and their
    TPDUs, up to 255 each, sent.  Whatever of them is given to a Collector, in any
    order and any number of times, whatever its timers do and even if it is closed:
    what Collect returns is one of the messages, whole and in order, and decodes
    to its text. *)
Theorem C99_only_texts : forall e calls texts sched n cs outs rcvds cfg es d,
  interleaved e calls sched n cs -> len calls <= 256 ->
  map returned cs = map (fun p => Some (Ok p)) outs ->
  Forall2 (fun c text => let e' := with_options e (snd c) in
     template_ok (e_pdu e') /\ meant (DCS (e_pdu e')) (e_eopts e') (fst c) text) calls texts ->
  Forall (fun p => len p <= 255) outs ->
  Forall2 (Forall2 carried) outs rcvds ->
  incl (collected es) (concat rcvds) ->
  In d (handed_out (snd (run cfg new_collector es))) ->
  exists k rcvd msg opts text,
    nth_error rcvds k = Some rcvd /\ d = map Some rcvd /\
    nth_error calls k = Some (msg, opts) /\ nth_error texts k = Some text /\
    forall dopts, dopts = [] \/ decodes_with (e_eopts (with_options e opts)) dopts -> decode d dopts = Ok text.
Proof.
  intros e calls texts sched n cs outs rcvds cfg es d HI HN HR HC HL HV HP D.
  assert (forall out s, In out outs -> In s out -> tpdu_wf s) as W.
  { intros out s O. apply In_nth_error in O as [k K].
    destruct (out_flow e calls texts sched n cs outs HI HR HC k out K) as (_ & _ & _ & _ & _ & H & _). apply H. }
  rewrite (carried_all _ _ W HV) in *. clear HV.
  destruct (only_messages e calls texts sched n cs outs cfg es HI HN HR HC HL HP d D) as (k & out & K & ->).
  destruct (out_flow e calls texts sched n cs outs HI HR HC k out K) as (msg & opts & text & KC & KT & _ & H & _).
  exists k, (map received out), msg, opts, text. split; [now rewrite nth_error_map, K|]. split; [reflexivity|].
  split; [exact KC|]. split; [exact KT|]. intros dopts HD.
  unfold decode. apply H. destruct HD as [-> |HD]; [right; now left|]. destruct dopts; [right; now left|exact HD].
Qed.
Print Assumptions C99_only_texts.

(** It is returned, at least once, if all its TPDUs are given to Collect and
    neither a timer fires nor Close is called. *)
Theorem C99_at_least_once : forall e calls texts sched n cs outs rcvds cfg es k rcvd,
  interleaved e calls sched n cs -> len calls <= 256 ->
  map returned cs = map (fun p => Some (Ok p)) outs ->
  Forall2 (fun c text => let e' := with_options e (snd c) in
     template_ok (e_pdu e') /\ meant (DCS (e_pdu e')) (e_eopts e') (fst c) text) calls texts ->
  Forall (fun p => len p <= 255) outs ->
  Forall2 (Forall2 carried) outs rcvds ->
  incl (collected es) (concat rcvds) ->
  Forall (fun ev => ev <> EvClose) es -> (forall m, no_timeout cfg m new_collector es) ->
  nth_error rcvds k = Some rcvd -> rcvd <> [] -> incl rcvd (collected es) ->
  In (map Some rcvd) (handed_out (snd (run cfg new_collector es))).
Proof.
  intros e calls texts sched n cs outs rcvds cfg es k rcvd HI HN HR HC HL HV HP HO HT K NE A.
  assert (forall out s, In out outs -> In s out -> tpdu_wf s) as W.
  { intros out s O. apply In_nth_error in O as [j J].
    destruct (out_flow e calls texts sched n cs outs HI HR HC j out J) as (_ & _ & _ & _ & _ & H & _). apply H. }
  rewrite (carried_all _ _ W HV) in *. clear HV. rewrite nth_error_map in K.
  destruct (nth_error outs k) as [out|] eqn:KO; [|discriminate]. cbn in K. injection K as <-.
  eapply whole_message; eauto. intros ->. now apply NE.
Qed.
Print Assumptions C99_at_least_once.

(** Each TPDU given to Collect is in at most one of the messages it returns: a
    message is not returned more often than each of its TPDUs was given. *)
Theorem C99_at_most_once_each : forall e calls texts sched n cs outs rcvds cfg es,
  interleaved e calls sched n cs -> len calls <= 256 ->
  map returned cs = map (fun p => Some (Ok p)) outs ->
  Forall2 (fun c text => let e' := with_options e (snd c) in
     template_ok (e_pdu e') /\ meant (DCS (e_pdu e')) (e_eopts e') (fst c) text) calls texts ->
  Forall (fun p => len p <= 255) outs ->
  Forall2 (Forall2 carried) outs rcvds ->
  incl (collected es) (concat rcvds) ->
  exists rest, Permutation (map Some (collected es)) (concat (handed_out (snd (run cfg new_collector es))) ++ rest).
Proof.
  intros e calls texts sched n cs outs rcvds cfg es HI HN HR HC HL HV HP.
  destruct (taken_collected es (snd (run cfg new_collector es))) as (r1 & P1).
  destruct (returned_taken cfg es) as (r2 & P2).
  exists (map Some (map sg_pdu r2 ++ r1)).
  rewrite <- returned_handed.
  2:{ intros d D. destruct (C99_only_texts e calls texts sched n cs outs rcvds cfg es d HI HN HR HC HL HV HP D)
        as (_ & r & _ & _ & _ & _ & E & _). eauto. }
  rewrite <- map_app. apply Permutation_map. rewrite P1, P2, map_app, app_assoc. reflexivity.
Qed.
Print Assumptions C99_at_most_once_each.

(** Collect does not panic, and refuses nothing but repeated TPDUs and, once
    closed, all. *)
Theorem C99_errors : forall e calls texts sched n cs outs rcvds cfg es o,
  interleaved e calls sched n cs -> len calls <= 256 ->
  map returned cs = map (fun p => Some (Ok p)) outs ->
  Forall2 (fun c text => let e' := with_options e (snd c) in
     template_ok (e_pdu e') /\ meant (DCS (e_pdu e')) (e_eopts e') (fst c) text) calls texts ->
  Forall (fun p => len p <= 255) outs ->
  Forall2 (Forall2 carried) outs rcvds ->
  incl (collected es) (concat rcvds) ->
  In o (snd (run cfg new_collector es)) -> failed o ->
  exists d err, o = OCollect (CReturn d (Some err)) /\ (err = ErrDuplicateSegment \/ err = ErrClosed).
Proof.
  intros e calls texts sched n cs outs rcvds cfg es o HI HN HR HC HL HV HP I F.
  assert (forall out s, In out outs -> In s out -> tpdu_wf s) as W.
  { intros out s O. apply In_nth_error in O as [j J].
    destruct (out_flow e calls texts sched n cs outs HI HR HC j out J) as (_ & _ & _ & _ & _ & H & _). apply H. }
  rewrite (carried_all _ _ W HV) in *. clear HV.
  destruct (all_mild e calls texts sched n cs outs cfg es HI HN HR HC HL HP o I F) as (d & err & -> & H).
  destruct F as [F|(d' & err' & F)]; [discriminate|]. assert (d = d' /\ err = Some err') as [-> ->] by (split; congruence).
  exists d', err'. split; [reflexivity|]. destruct H as [H|[H|H]]; [discriminate|left; congruence|right; congruence].
Qed.
Print Assumptions C99_errors.

(** The two messages of C98_instance: the second TPDU of one is lost, its first
    comes twice, and so do those of the other message, of which the first round is
    complete. *)
Example C99_instance : exists n a b c d ra rb rc rd,
  let outs := [[a; b]; [c; d]] in
  let rcvds := [[ra; rb]; [rc; rd]] in
  let es := [EvCollect {| sg_id := 0; sg_pdu := rd |}; EvCollect {| sg_id := 1; sg_pdu := ra |}; EvPipes;
             EvCollect {| sg_id := 2; sg_pdu := ra |}; EvCollect {| sg_id := 3; sg_pdu := rc |};
             EvCollect {| sg_id := 4; sg_pdu := rc |}] in
  let cfg := {| cf_timeout := true; cf_handler := true |} in
  let cs := [CDone (Ok [a; b]); CDone (Ok [c; d])] in
  interleaved exchange_encoder exchange_calls [0; 1; 1; 0; 0; 1; 0; 1]%nat n cs /\
  map returned cs = map (fun p => Some (Ok p)) outs /\
  Forall2 (fun c text => let e' := with_options exchange_encoder (snd c) in
     template_ok (e_pdu e') /\ meant (DCS (e_pdu e')) (e_eopts e') (fst c) text) exchange_calls [repeat 1 150; repeat 2 140] /\
  Forall (fun p => len p <= 255) outs /\
  Forall2 (Forall2 carried) outs rcvds /\
  incl (collected es) (concat rcvds) /\
  Forall (fun ev => ev <> EvClose) es /\ (forall m, no_timeout cfg m new_collector es) /\
  incl [rc; rd] (collected es) /\
  handed_out (snd (run cfg new_collector es)) = [[Some rc; Some rd]] /\
  (let es' := es ++ [EvFire 1; EvExpire 1; EvCollect {| sg_id := 5; sg_pdu := rb |}; EvClose; EvCollect {| sg_id := 6; sg_pdu := ra |}] in
   incl (collected es') (concat rcvds) /\
   handed_out (snd (run cfg new_collector es')) = [[Some rc; Some rd]] /\
   nth_error (snd (run cfg new_collector es')) 3 = Some (OCollect (CReturn None (Some ErrDuplicateSegment))) /\
   nth_error (snd (run cfg new_collector es')) 8 = Some (OCollect (CReturn None None)) /\
   nth_error (snd (run cfg new_collector es')) 10 = Some (OCollect (CReturn None (Some ErrClosed)))).
Proof.
  eexists _, _, _, _, _, _, _, _, _. cbv zeta.
  split; [vm_compute; reflexivity|]. split; [reflexivity|].
  assert (T : template_ok (set_DCSf flow_template 4)).
  { destruct (proj1 C41_template_instance) as (H1 & H2 & _ & H4 & H5).
    split; [exact H1|]. split; [exact H2|]. split; [unfold is_byte; cbn; lia|]. split; [exact H4|exact H5]. }
  split; [repeat (constructor; [split; [exact T|split; [apply Forall_forall; intros x X; apply repeat_spec in X; subst x; unfold is_byte; lia|reflexivity]]|]); constructor|].
  split; [repeat constructor; vm_compute; discriminate|].
  split.
  { repeat (apply Forall2_cons || apply Forall2_nil);
    (eexists; split; [vm_compute; reflexivity|]; split; [|vm_compute; reflexivity]);
    repeat (apply Forall_cons; [unfold is_byte; lia|]); apply Forall_nil. }
  split; [intros x X; cbn [collected flat_map sg_pdu app concat In] in X |- *; tauto|].
  split; [repeat (constructor; [discriminate|]); constructor|].
  split; [intros m; cbn [no_timeout]; repeat split|].
  split; [intros x X; cbn [collected flat_map sg_pdu app concat In] in X |- *; tauto|].
  split; [vm_compute; reflexivity|].
  split; [intros x X; cbn [collected flat_map sg_pdu app concat In] in X |- *; tauto|].
  repeat split; vm_compute; reflexivity.
Qed.
