(** C41 with the clock of C87: the whole path of a message whose TPDUs arrive in time. *)
From Coq Require Import Permutation.
From Verif Require Import GoBase GoLemmas Address UserData Tpdu Collector SpecCollect CollectorProofs CollectorMsgProofs
  Segment Sms SpecSelect SpecSms SpecText SpecFlow P_Collect SpecAlone SpecClock ClockProofs P_Clock P_Flow.

(** What Encode makes of a message, sent and received, and collected in any order
    and among any other events, each TPDU less than the timeout after the one
    before, is returned whole by the last Collect, and decodes to the text.
    Left out: what C41 leaves out. *)
Theorem C41_in_time_partial : forall e msg opts pdus e' text dopts,
  let charsets := e_eopts (with_options e opts) in
  template_sent (e_pdu (with_options e opts)) ->
  meant (DCS (e_pdu (with_options e opts))) charsets msg text ->
  encoder_encode e msg opts = Ok (pdus, e') -> 1 < len pdus <= 255 ->
  dopts = [] \/ decodes_with charsets dopts ->
  exists rcvd m, Forall2 carried pdus rcvd /\
    (forall k g, nth_error rcvd k = Some (sg_pdu g) -> is_segment m (Z.of_nat k + 1) g) /\
    forall cfg d h, history (not_early d) cfg h ->
    Forall typed_event (map snd h) -> Forall (fun ev => ev <> EvClose) (map snd h) ->
    Permutation (map (fun p => sg_pdu (snd p)) (parts m (map snd h))) rcvd ->
    close_together d (arrivals m h) ->
    exists gs,
      replies m (map snd h) (snd (run cfg new_collector (map snd h))) =
        repeat (OCollect (CReturn None None)) (length pdus - 1) ++ [OCollect (CReturn (Some (map Some gs)) None)] /\
      decode (map Some (map sg_pdu gs)) dopts = Ok text.
Proof.
  intros e msg opts pdus e' text dopts charsets HT HM HE LN HD.
  destruct (C41_end_to_end_partial e msg opts pdus e' text dopts HT HM HE HD) as (rcvd & CA & DE & _ & SEV).
  assert (LR : length rcvd = length pdus) by (clear - CA; induction CA; cbn [length]; congruence).
  destruct (SEV ltac:(unfold len in *; lia)) as (m & MT & HSeg & RUN). exists rcvd, m. split; [exact CA|].
  split; [exact HSeg|]. intros cfg d h HI SE NC PE CT.
  assert (HP : forall i g, In (i, g) (parts m (map snd h)) -> seg_no m g = Some i /\ typed g).
  { intros i g Hi. unfold parts in Hi. apply in_flat_map in Hi as (ev & HV & Hi). rewrite Forall_forall in SE.
    specialize (SE ev HV). destruct ev as [g'| | |?|?|?]; try contradiction.
    destruct (seg_no m g') as [i'|] eqn:EN; [|contradiction]. destruct Hi as [Hi|[]]. injection Hi as -> ->. auto. }
  assert (MO : proper_message m).
  { destruct (parts m (map snd h)) as [|[i g] ps] eqn:EP.
    { apply Permutation_length in PE. cbn in PE. unfold len in LN. lia. }
    destruct (HP i g (or_introl eq_refl)) as (SN & TY). apply seg_no_iff in SN.
    assert (SU : supported g) by (destruct SN as (_ & [(_ & A & _)|(_ & A & _)]); unfold supported; auto).
    destruct (part_message g _ _ _ TY SU (proj1 SN) ltac:(unfold len in *; lia)) as (m' & MO' & _ & SG & _).
    destruct (segment_message _ _ _ _ _ SN SG) as (-> & _). exact MO'. }
  set (num := fun r => match tpdu_concat_info r with Some (_, i, _) => i | None => 0 end).
  assert (HN1 : map fst (parts m (map snd h)) = map num (map (fun p => sg_pdu (snd p)) (parts m (map snd h)))).
  { rewrite map_map. apply map_ext_in. intros [i g] Hi. cbn [fst snd]. apply HP in Hi as (Hi & _). apply seg_no_iff in Hi as [Hi _].
    unfold num. now rewrite Hi. }
  assert (HN3 : map num rcvd = map Z.of_nat (seq 1 (Z.to_nat (m_total m)))).
  { rewrite MT. replace (Z.to_nat (len rcvd)) with (length rcvd) by (unfold len; lia).
    apply nth_error_ext; [now rewrite !map_length, seq_length|]. intros k x Hx. rewrite nth_error_map in *.
    destruct (nth_error rcvd k) as [r|] eqn:ER; [|discriminate]. cbn [option_map] in Hx. injection Hx as <-.
    destruct (HSeg k {| sg_pdu := r; sg_id := 0 |} ER) as (X & _). cbn [sg_pdu] in X. unfold num. rewrite X.
    assert (k < length rcvd)%nat as Lk by (apply nth_error_Some; congruence).
    rewrite (nth_error_nth' _ 0%nat) by (rewrite seq_length; exact Lk). rewrite seq_nth by exact Lk.
    cbn [option_map]. f_equal. lia. }
  assert (NT : no_timeout cfg m new_collector (map snd h)).
  { apply (C87_no_timer cfg d m h MO SE NC HI); [|exact CT]. rewrite HN1, <- HN3. now apply Permutation_map. }
  destruct (RUN cfg new_collector (map snd h)) as (gs & G1 & G2); auto.
  - exists []. split; [constructor|reflexivity].
  - intros g [].
  - eapply Forall_impl; [|exact SE]. auto.
  - exists gs. rewrite <- LR. split; [exact G1|]. now rewrite G2.
Qed.
Print Assumptions C41_in_time_partial.

(** The message of C41_instance, with a timeout of 5, in reverse order and 4 apart;
    the timer that was stopped would have been due between. *)
Definition flow_history : list (Z * event) :=
  [(0, EvCollect (flow_seg 1)); (4, EvCollect (flow_seg 0)); (5, EvFire 0)].
Example C41_in_time_instance :
  history (not_early 5) {| cf_timeout := true; cf_handler := true |} flow_history /\
  Permutation (map (fun g => sg_pdu g) [flow_seg 1; flow_seg 0]) flow_rcvd /\
  (match tpdu_concat_info (sg_pdu (flow_seg 1)) with
   | Some (n, _, ref) =>
       let m := {| m_type := SmsSubmit; m_toa := a_toa (DA (sg_pdu (flow_seg 1))); m_addr := a_addr (DA (sg_pdu (flow_seg 1)));
                   m_ref := ref; m_total := n |} in
       arrivals m flow_history = [0; 4] /\ close_together 5 [0; 4] /\
       map fst (parts m (map snd flow_history)) = [2; 1]
   | None => False
   end).
Proof.
  split; [|split].
  - exists 0. apply (keeps_b_ok _ (early_b 5)); [apply early_b_ok|vm_compute; reflexivity].
  - vm_compute. apply perm_swap.
  - vm_compute. auto.
Qed.
