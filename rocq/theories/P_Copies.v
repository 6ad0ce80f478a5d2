(** C95: segments that arrive more than once. *)
From Coq Require Import Permutation.
From Verif Require Import GoBase GoLemmas UserData Tpdu Address Segment Sms SpecSelect SpecSms SpecText Collector SpecCollect CollectorProofs CollectorMsgProofs
  CollectorOrderProofs CollectorHistProofs SpecAlone AloneProofs P_Collect P_Alone SpecFlow P_Flow SpecCopies CopiesProofs.

Lemma told cfg m es : proper_message m -> Forall typed_event es ->
  replies m es (snd (run cfg new_collector es)) = snd (reacts m m_start (view cfg m new_collector es)).
Proof.
  intros MO SE. apply (alone cfg m MO es new_collector m_start (inv_new cfg)); auto; [intros k id []|now apply sim_start].
Qed.
Lemma start_numbered n : numbered n (rev (r_got m_start)).
Proof. split; constructor. Qed.

(** Without a timeout of the message and without Close, Collect hands out the
    message at the end of each round, and nothing else of it. *)
Theorem C95_rounds : forall cfg m es, proper_message m -> Forall typed_event es ->
  Forall (fun e => e <> EvClose) es -> no_timeout cfg m new_collector es ->
  rounds (m_total m) (parts m es) (handed (replies m es (snd (run cfg new_collector es)))).
Proof.
  intros cfg m es MO SE NC NT. rewrite (told cfg m es MO SE).
  rewrite (in_time_view cfg m MO es new_collector m_start) by (auto using inv_new, sim_start; intros k id []).
  pose proof MO as (_ & _ & _ & M2). apply (reacts_rounds m M2 (parts m es) [] m_start).
  repeat split; try constructor. intros C. now apply (C 1 ltac:(lia)).
Qed.
Print Assumptions C95_rounds.

(** There is one way only to divide what arrives into rounds. *)
Theorem C95_one_way : forall n ps ds ds', rounds n ps ds -> rounds n ps ds' -> ds = ds'.
Proof. intros n ps ds ds' H H'. exact (rounds_det n ps ds H ds' H'). Qed.
Print Assumptions C95_one_way.

(** So the message is handed out if and only if each of its segments comes. *)
Theorem C95_at_least_once : forall cfg m es, proper_message m -> Forall typed_event es ->
  Forall (fun e => e <> EvClose) es -> no_timeout cfg m new_collector es ->
  (handed (replies m es (snd (run cfg new_collector es))) <> [] <-> covers (m_total m) (parts m es)).
Proof.
  intros cfg m es MO SE NC NT. destruct (C95_rounds cfg m es MO SE NC NT) as [ps A|ps p qs ds A B R].
  - split; [congruence|contradiction].
  - split; [|discriminate]. intros _. change (p :: qs) with ([p] ++ qs). rewrite app_assoc. now apply covers_mono.
Qed.
Print Assumptions C95_at_least_once.

(** In any history whatever it is handed out no more often than any one of its
    segments comes. *)
Theorem C95_at_most : forall cfg m es i, proper_message m -> Forall typed_event es -> 1 <= i <= m_total m ->
  (length (handed (replies m es (snd (run cfg new_collector es)))) <= copies i (parts m es))%nat.
Proof.
  intros cfg m es i MO SE HI. rewrite (told cfg m es MO SE). unfold copies. rewrite <- (view_parts cfg m es new_collector).
  pose proof (reacts_at_most m i HI (view cfg m new_collector es) m_start (start_numbered _)) as H.
  cbn [m_start r_got map] in H. destruct (in_dec Z.eq_dec i []) as [[]|_] in H. rewrite Nat.add_0_r in H.
  replace (map fst _) with (flat_map (fun e => match e with MPart j _ => [j] | _ => [] end) (view cfg m new_collector es)); [exact H|].
  clear. induction (view cfg m new_collector es) as [|e l IH]; [reflexivity|]. cbn [flat_map]. rewrite map_app, <- IH. f_equal.
  now destruct e.
Qed.
Print Assumptions C95_at_most.

(** Hence exactly once if all of them come, however often, and one of them once. *)
Theorem C95_once : forall cfg m es i, proper_message m -> Forall typed_event es ->
  Forall (fun e => e <> EvClose) es -> no_timeout cfg m new_collector es ->
  covers (m_total m) (parts m es) -> 1 <= i <= m_total m -> copies i (parts m es) = 1%nat ->
  exists d, handed (replies m es (snd (run cfg new_collector es))) = [d].
Proof.
  intros cfg m es i MO SE NC NT C HI CP. pose proof (C95_at_most cfg m es i MO SE HI) as L.
  apply (C95_at_least_once cfg m es MO SE NC NT) in C. destruct (handed _) as [|d [|d' ds]]; [congruence|eauto|cbn in L; lia].
Qed.
Print Assumptions C95_once.

(** If what comes with a number is always the same TPDU, it is these TPDUs, in
    order, that are handed out each time, whatever timers do. *)
Theorem C95_same : forall cfg m es ts d, proper_message m -> Forall typed_event es ->
  (forall i g, In (i, g) (parts m es) -> 1 <= i <= m_total m -> nth_error ts (Z.to_nat (i - 1)) = Some (sg_pdu g)) ->
  len ts = m_total m -> In d (handed (replies m es (snd (run cfg new_collector es)))) ->
  map (option_map sg_pdu) d = map Some ts.
Proof.
  intros cfg m es ts d MO SE ST LT HD. rewrite (told cfg m es MO SE) in HD. pose proof MO as (_ & _ & _ & M2).
  destruct (reacts_handed m d M2 _ _ (start_numbered _) HD) as (got & -> & C & SUB).
  unfold in_order. rewrite map_map. unfold len in LT. rewrite <- LT, Nat2Z.id.
  apply nth_error_ext; [now rewrite !map_length, seq_length|]. intros k x Hx. rewrite !nth_error_map in *.
  assert (Lk : (k < length ts)%nat).
  { destruct (nth_error (seq 1 (length ts)) k) eqn:E; [|discriminate]. assert (E' : nth_error (seq 1 (length ts)) k <> None) by congruence.
    apply nth_error_Some in E'. now rewrite seq_length in E'. }
  rewrite (nth_error_nth' _ 0%nat) in Hx by (now rewrite seq_length). rewrite seq_nth in Hx by exact Lk. cbn [option_map] in Hx.
  match type of Hx with Some ?y = _ => assert (EX : x = y) by congruence end. subst x. clear Hx. assert (HR : 1 <= Z.of_nat (1 + k) <= m_total m) by lia.
  destruct (proj2 (slot_some_in got (Z.of_nat (1 + k))) (C _ HR)) as (g & Eg). rewrite Eg. cbn [option_map].
  assert (IG : In (Z.of_nat (1 + k), g) got).
  { unfold slot in Eg. destruct (find _ got) as [[j g']|] eqn:F; [|discriminate]. apply find_some in F as (F1 & F2).
    cbn in *. injection Eg as ->. apply Z.eqb_eq in F2. now subst j. }
  destruct (SUB _ IG) as [[]|IV]. cbn [fst snd] in IV.
  assert (IP : In (Z.of_nat (1 + k), g) (parts m es)).
  { rewrite <- (view_parts cfg m es new_collector). apply in_flat_map. eexists. split; [exact IV|now left]. }
  specialize (ST _ _ IP HR). replace (Z.to_nat (Z.of_nat (1 + k) - 1)) with k in ST by lia. now rewrite ST.
Qed.
Print Assumptions C95_same.

(** What Encode makes of a message, sent and received: if copies of the received
    TPDUs, in any order and any number, are all that comes of it, the text is read
    from whatever is handed out; that is at least once if each TPDU comes, and not
    more often than any of them.  The messages are those of C41. *)
Theorem C95_text : forall e msg opts pdus e' text dopts,
  let charsets := e_eopts (with_options e opts) in
  template_sent (e_pdu (with_options e opts)) ->
  meant (DCS (e_pdu (with_options e opts))) charsets msg text ->
  encoder_encode e msg opts = Ok (pdus, e') -> 1 < len pdus <= 255 ->
  dopts = [] \/ decodes_with charsets dopts ->
  exists rcvd m, Forall2 carried pdus rcvd /\
    (forall k g, nth_error rcvd k = Some (sg_pdu g) -> is_segment m (Z.of_nat k + 1) g) /\
    forall cfg es, Forall typed_event es -> Forall (fun p => In (sg_pdu (snd p)) rcvd) (parts m es) ->
    let out := handed (replies m es (snd (run cfg new_collector es))) in
    (forall d, In d out -> decode (map (option_map sg_pdu) d) dopts = Ok text) /\
    (Forall (fun ev => ev <> EvClose) es -> no_timeout cfg m new_collector es ->
     incl rcvd (map (fun p => sg_pdu (snd p)) (parts m es)) -> out <> []) /\
    forall i, 1 <= i <= len pdus -> (length out <= copies i (parts m es))%nat.
Proof.
  intros e msg opts pdus e' text dopts charsets HT HM HE LN HD.
  destruct (C41_end_to_end_partial e msg opts pdus e' text dopts HT HM HE HD) as (rcvd & CA & DE & _ & SEV).
  assert (LR : len rcvd = len pdus) by (unfold len; f_equal; clear - CA; induction CA; cbn [length]; congruence).
  destruct (SEV ltac:(lia)) as (m & MT & HSeg & _). exists rcvd, m. split; [exact CA|].
  split; [exact HSeg|]. intros cfg es SE CP out.
  destruct (parts m es) as [|[i0 g0] ps0] eqn:EP.
  { unfold out. rewrite (replies_none m es _ EP). cbn. split; [intros d []|]. split; [|intros; lia].
    intros _ _ IN. exfalso. destruct rcvd as [|r rcvd]; [cbn in LR; lia|]. exact (IN r (or_introl eq_refl)). }
  rewrite <- EP in *.
  assert (HP : forall i g, In (i, g) (parts m es) -> seg_no m g = Some i /\ typed g).
  { intros i g Hi. unfold parts in Hi. apply in_flat_map in Hi as (ev & HV & Hi). rewrite Forall_forall in SE.
    specialize (SE ev HV). destruct ev as [g'| | |?|?|?]; try contradiction.
    destruct (seg_no m g') as [i'|] eqn:EN; [|contradiction]. destruct Hi as [Hi|[]]. injection Hi as -> ->. auto. }
  assert (MO : proper_message m).
  { destruct (HP i0 g0) as (SN & TY); [rewrite EP; now left|]. apply seg_no_iff in SN.
    assert (SU : supported g0) by (destruct SN as (_ & [(_ & A & _)|(_ & A & _)]); unfold supported; auto).
    destruct (part_message g0 _ _ _ TY SU (proj1 SN) ltac:(lia)) as (m' & MO' & _ & SG & _).
    destruct (segment_message _ _ _ _ _ SN SG) as (-> & _). exact MO'. }
  assert (NUM : forall i g k, In (i, g) (parts m es) -> nth_error rcvd k = Some (sg_pdu g) -> i = Z.of_nat k + 1).
  { intros i g k IN EK. destruct (HP i g IN) as (SN & _). apply seg_no_iff in SN as (SN & _).
    destruct (HSeg k g EK) as (X & _). congruence. }
  split; [|split].
  - intros d Hd. rewrite (C95_same cfg m es rcvd d MO SE); auto. intros i g IN _.
    rewrite Forall_forall in CP. specialize (CP _ IN). cbn [snd] in CP. apply In_nth_error in CP as (k & EK).
    pose proof (NUM i g k IN EK) as ->. replace (Z.to_nat (Z.of_nat k + 1 - 1)) with k by lia. exact EK.
  - intros NC NT IN. apply (C95_at_least_once cfg m es MO SE NC NT). intros i Hi.
    destruct (nth_error rcvd (Z.to_nat (i - 1))) as [r|] eqn:ER.
    2: { apply nth_error_None in ER. unfold len in *. lia. }
    assert (IR : In r (map (fun p => sg_pdu (snd p)) (parts m es))) by (apply IN; eapply nth_error_In; exact ER).
    apply in_map_iff in IR as ([j g] & EG & IG). cbn [snd] in EG. subst r. pose proof (NUM j g _ IG ER).
    apply in_map_iff. exists (j, g). split; [cbn; lia|exact IG].
  - intros i Hi. apply C95_at_most; auto. lia.
Qed.
Print Assumptions C95_text.

(** Parts 2, 1, 2, 7 (there is none) and 3, then 3, 3, 1, 2 and 1 again: handed out
    twice, from the copies that came first. *)
Definition copied_history : list event :=
  [EvCollect (ex_seg 0 7 3 2); EvCollect (ex_seg 1 7 3 1); EvCollect (ex_seg 2 7 3 2); EvCollect (ex_seg 3 9 2 1);
   EvCollect (ex_seg 4 7 3 7); EvCollect (ex_seg 5 7 3 3); EvPipes; EvCollect (ex_seg 6 7 3 3); EvCollect (ex_seg 7 7 3 3);
   EvCollect (ex_seg 8 7 3 1); EvCollect (ex_seg 9 7 3 2); EvCollect (ex_seg 10 7 3 1)].
Example C95_instance :
  proper_message ex_msg /\ Forall typed_event copied_history /\ Forall (fun e => e <> EvClose) copied_history /\
  no_timeout with_timeout ex_msg new_collector copied_history /\ covers 3 (parts ex_msg copied_history) /\
  map (fun i => copies i (parts ex_msg copied_history)) [1; 2; 3] = [3; 3; 3]%nat /\
  handed (replies ex_msg copied_history (snd (run with_timeout new_collector copied_history))) =
    [[Some (ex_seg 1 7 3 1); Some (ex_seg 0 7 3 2); Some (ex_seg 5 7 3 3)];
     [Some (ex_seg 8 7 3 1); Some (ex_seg 9 7 3 2); Some (ex_seg 6 7 3 3)]].
Proof.
  split; [split; [right; reflexivity|unfold is_byte; cbn; lia]|]. split.
  { repeat (constructor; [try exact I; repeat split; cbn; try lia; repeat constructor; unfold is_byte; lia|]). constructor. }
  split; [repeat (constructor; [discriminate|]); constructor|]. split; [cbn [copied_history no_timeout]; tauto|].
  split. { intros i Hi. assert (i = 1 \/ i = 2 \/ i = 3) as [-> | [-> | ->]] by lia; vm_compute; tauto. }
  split; vm_compute; reflexivity.
Qed.

(** The message of C41_instance, of whose two TPDUs the second comes three times:
    it is handed out once, and the last copy is left for another round. *)
Definition flow_copies : list event :=
  [EvCollect (flow_seg 1); EvCollect (flow_seg 1); EvCollect (flow_seg 0); EvCollect (flow_seg 1)].
Example C95_text_instance :
  Forall (fun e => match e with EvCollect g => In (sg_pdu g) flow_rcvd | _ => False end) flow_copies /\
  map (fun o => match o with OCollect (CReturn d e) => (option_map (map (option_map sg_id)) d, e) | _ => (None, None) end)
    (snd (run with_timeout new_collector flow_copies))
  = [(None, None); (None, Some ErrDuplicateSegment); (Some [Some 0%nat; Some 1%nat], None); (None, None)].
Proof.
  split; [|vm_compute; reflexivity].
  repeat (apply Forall_cons; [apply nth_In; vm_compute; lia|]). constructor.
Qed.
