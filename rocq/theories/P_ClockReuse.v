(** C94: with a timeout, segments are not put together with those of an earlier
    message that had the same reference number. *)
From Coq Require Import Permutation.
From Verif Require Import GoBase GoLemmas Address UserData Tpdu Collector SpecCollect CollectorProofs CollectorMsgProofs
  CollectorOrderProofs P_Collect SpecAlone AloneProofs SpecClock ClockProofs P_Clock ReadmeProofs ClockReuseProofs.

(** If the segments of a message come once each, in any order, each less than the
    timeout [d] after the one before, and the first of them [d] or more after
    anything with its reference number, then the last of them is answered with
    these segments, in order; whatever was collected before, and whatever else is in
    between. *)
Theorem C94_afresh : forall cfg d m h1 h2 h3, cf_timeout cfg = true -> 0 < d -> proper_message m ->
  Forall typed_event (map snd (h1 ++ h2 ++ h3)) -> Forall (fun e => e <> EvClose) (map snd (h1 ++ h2)) ->
  history (on_time d) cfg (h1 ++ h2 ++ h3) ->
  Permutation (map fst (parts m (map snd h2))) (map Z.of_nat (seq 1 (Z.to_nat (m_total m)))) ->
  close_together d (arrivals m h2) ->
  (forall t t', In t (arrivals m h1) -> In t' (arrivals m h2) -> t + d <= t') ->
  exists before later gs,
    replies m (map snd (h1 ++ h2 ++ h3)) (snd (run cfg new_collector (map snd (h1 ++ h2 ++ h3)))) =
      before ++ (repeat (OCollect (CReturn None None)) (Z.to_nat (m_total m) - 1) ++ [OCollect (CReturn (Some (map Some gs)) None)]) ++ later /\
    length before = length (arrivals m h1) /\ length gs = Z.to_nat (m_total m) /\
    forall i g, In (i, g) (parts m (map snd h2)) -> nth_error gs (Z.to_nat (i - 1)) = Some g.
Proof.
  intros cfg d m h1 h2 h3 TO D MO SE NC HI PE CT GAP. rewrite (C87_on_time cfg d m _ TO MO SE HI).
  rewrite !timely_app. exists (timely m d t_start h1), (timely m d (after m d (after m d t_start h1) h2) h3).
  rewrite map_app in NC. apply Forall_app in NC as (NC1 & NC2).
  destruct HI as (now & K). pose proof (keeps_split _ _ _ _ _ _ _ K) as K1.
  destruct (kept_run m d (on_time d) cfg h1 D [] t_start _ _ _ (or_intror (kept_start m d)) (fun t F => match F with end) K1) as (_ & KR).
  specialize (KR NC1 eq_refl). cbn [app] in KR. set (q := after m d t_start h1) in *.
  assert (LP : length (parts m (map snd h2)) = total m).
  { pose proof (Permutation_length PE) as L. rewrite !map_length, seq_length in L. exact L. }
  pose proof (proj2 (proj2 (proj2 MO))) as T2.
  assert (ND : NoDup (map fst (parts m (map snd h2)))).
  { apply (Permutation_NoDup (Permutation_sym PE)). apply FinFun.Injective_map_NoDup; [|apply seq_NoDup]. intros x y H. now apply Nat2Z.inj. }
  assert (RG : Forall (fun p => 1 <= fst p <= m_total m) (parts m (map snd h2))).
  { apply Forall_forall. intros p HP. assert (HI : In (fst p) (map Z.of_nat (seq 1 (Z.to_nat (m_total m))))).
    { apply (Permutation_in _ PE). now apply in_map. }
    apply in_map_iff in HI as (k & <- & HI). apply in_seq in HI. lia. }
  (* the machine forgets at the first of them *)
  assert (CLEAN : timely m d q h2 = timely m d {| t_held := m_start; t_last := t_last q |} h2).
  { clear - KR GAP NC2. revert GAP NC2. induction h2 as [|[t e] h IH]; intros GAP NC2; [reflexivity|]. cbn [timely].
    rewrite arrivals_cons in GAP. inversion NC2 as [|? ? N1 N2]; subst. cbn [snd] in N1.
    destruct e as [g| | |?|?|?]; cbn [app] in GAP; try (apply IH; assumption); [|congruence].
    destruct (seg_no m g) as [i|]; [|apply IH; assumption]. cbn [app] in GAP.
    replace (takes m (forgets d q t) t i g) with (takes m (forgets d {| t_held := m_start; t_last := t_last q |} t) t i g); [reflexivity|]. f_equal.
    unfold forgets. rewrite (k_open _ _ _ _ KR). cbn [t_held t_last m_start r_closed negb andb]. destruct (t_last q + d <=? t) eqn:E; [reflexivity|].
    destruct (k_last _ _ _ _ KR) as [EG|HT]; [|specialize (GAP _ t HT ltac:(now left)); lia].
    pose proof (k_open _ _ _ _ KR) as KO. pose proof (k_late _ _ _ _ KR) as KL. destruct q as [[got late closed] last]. cbn [t_held t_last r_got r_late r_closed] in *.
    now subst. }
  rewrite CLEAN. rewrite (burst m d h2); cbn [t_held t_last m_start r_got r_late r_closed length map app]; try assumption; try reflexivity; try lia.
  2: now right.
  2: unfold total; lia.
  rewrite app_nil_r, LP.
  assert (NU : numbered (total m) (parts m (map snd h2))).
  { split; [assumption|]. eapply Forall_impl; [|exact RG]. intros p Hp. unfold total. cbn beta in *. lia. }
  assert (NUR : numbered (total m) (rev (rev (parts m (map snd h2))))) by now rewrite rev_involutive.
  set (gs := flat_map (fun o => match o with Some g => [g] | None => [] end) (in_order (m_total m) (rev (parts m (map snd h2))))).
  assert (ALL : forall k, (k < total m)%nat -> exists g, In (Z.of_nat k + 1, g) (parts m (map snd h2))).
  { intros k Hk. assert (IN : In (Z.of_nat (S k)) (map fst (parts m (map snd h2)))).
    { apply (Permutation_in _ (Permutation_sym PE)). apply in_map. apply in_seq. unfold total in Hk. lia. }
    apply in_map_iff in IN as ([j g] & E & IN). cbn [fst] in E. exists g. replace (Z.of_nat k + 1) with j by lia. exact IN. }
  assert (SL : forall i g, In (i, g) (parts m (map snd h2)) -> slot (rev (parts m (map snd h2))) i = Some g).
  { intros i g IN. apply (proj2 (slot_iff (total m) _ _ _ NUR)). now apply in_rev in IN. }
  assert (EG : exists gs, in_order (m_total m) (rev (parts m (map snd h2))) = map Some gs /\ length gs = total m /\
            forall i g, In (i, g) (parts m (map snd h2)) -> nth_error gs (Z.to_nat (i - 1)) = Some g).
  { clear gs. unfold in_order. fold (total m).
    assert (X : forall l, (forall k, In k l -> (1 <= k <= total m)%nat) ->
              exists gs, map (fun k => slot (rev (parts m (map snd h2))) (Z.of_nat k)) l = map Some gs).
    { induction l as [|k l IH]; intros HL; [exists []; reflexivity|]. destruct IH as (gs & E); [intros x Hx; apply HL; now right|].
      destruct (ALL (k - 1)%nat) as (g & IN); [specialize (HL k ltac:(now left)); lia|]. exists (g :: gs). cbn [map]. rewrite E. f_equal.
      apply SL. replace (Z.of_nat k) with (Z.of_nat (k - 1) + 1); [exact IN|]. specialize (HL k ltac:(now left)). lia. }
    destruct (X (seq 1 (total m))) as (gs & E); [intros k Hk; apply in_seq in Hk; lia|]. exists gs. split; [exact E|].
    assert (LG : length gs = total m) by (apply (f_equal (@length _)) in E; rewrite !map_length, seq_length in E; congruence).
    split; [exact LG|]. intros i g IN. rewrite Forall_forall in RG. pose proof (RG _ IN) as RI. cbn [fst] in RI.
    assert (E1 : nth_error (map Some gs) (Z.to_nat (i - 1)) = Some (Some g)).
    { rewrite <- E, nth_error_map. assert (HS : nth_error (seq 1 (total m)) (Z.to_nat (i - 1)) = Some (Z.to_nat i)).
      { rewrite (nth_error_nth' _ 0%nat) by (rewrite seq_length; unfold total; lia). f_equal. rewrite seq_nth by (unfold total; lia). lia. }
      rewrite HS. cbn [option_map]. f_equal. replace (Z.of_nat (Z.to_nat i)) with i by lia. now apply SL. }
    rewrite nth_error_map in E1. destruct (nth_error gs (Z.to_nat (i - 1))); cbn in E1; congruence. }
  clear gs. destruct EG as (gs & -> & LG & NG). exists gs. split; [reflexivity|]. split; [apply timely_length|]. split; [exact LG|exact NG].
Qed.
Print Assumptions C94_afresh.

(** What Collect returns at time [t] was all collected in a time less than n-1
    times the timeout, n being the number of segments. *)
Theorem C94_span : forall cfg d m h t g i l err, cf_timeout cfg = true -> 0 < d -> proper_message m ->
  Forall typed_event (map snd (h ++ [(t, EvCollect g)])) -> history (on_time d) cfg (h ++ [(t, EvCollect g)]) ->
  is_segment m i g ->
  snd (step cfg (fst (run cfg new_collector (map snd h))) (EvCollect g)) = OCollect (CReturn (Some l) err) ->
  forall x, In (Some x) l -> exists j t', is_segment m j x /\ In (t', EvCollect x) (h ++ [(t, EvCollect g)]) /\
    t' <= t < t' + (m_total m - 1) * d.
Proof.
  intros cfg d m h t g i l err TO D MO SE HI SG HO x HX. apply seg_no_iff in SG.
  pose proof (C87_on_time cfg d m _ TO MO SE HI) as R. destruct HI as (now & K). pose proof (keeps_split _ _ _ _ _ _ _ K) as K1.
  rewrite map_app in SE. apply Forall_app in SE as (SE1 & _).
  pose proof (C87_on_time cfg d m h TO MO SE1 (ex_intro _ now K1)) as R1.
  rewrite map_app in R. cbn [map snd] in R. rewrite run_app in R. cbn [snd] in R. rewrite replies_app, R1, timely_app in R by apply run_outputs.
  apply app_inv_head in R. rewrite run_cons in R. cbn [run snd replies timely] in R. rewrite SG, HO in R.
  destruct (kept_run m d (on_time d) cfg h D [] t_start _ _ _ (or_intror (kept_start m d)) (fun t F => match F with end) K1) as (KR & _).
  cbn [app] in KR. set (q := after m d t_start h) in *.
  destruct (takes m (forgets d q t) t i g) as [q' o] eqn:ET. rewrite app_nil_r in R.
  destruct KR as [C|KR].
  { exfalso. apply (closed_silent m d q t i g l err C). rewrite ET. cbn [snd]. congruence. }
  destruct (kept_forgets m d h q t KR) as (KF & NF). pose proof (takes_cases m (forgets d q t) t i g (k_open _ _ _ _ KF) (k_late _ _ _ _ KF)) as C.
  rewrite ET in C. pose proof (proj2 (proj2 (proj2 MO))) as T2.
  destruct C as [(_ & er & EO)|(_ & _ & [(EN & _ & _ & _ & EO)|(_ & _ & EO)])]; rewrite EO in R; try discriminate.
  injection R as El _. subst l.
  unfold in_order in HX. apply in_map_iff in HX as (k & ES & _). unfold slot in ES.
  destruct (find _ _) as [[j y]|] eqn:EF; [|discriminate]. cbn [option_map snd] in ES. injection ES as ->. apply find_some in EF as (IN & _).
  assert (MONO : forall t', In t' (map fst h) -> t' <= t).
  { clear - K. revert K. generalize new_collector, (@nil Z), now. induction h as [|[t0 e] h IH]; intros s st n K t' HT; [destruct HT|].
    cbn [app keeps] in K. destruct K as (_ & _ & K). destruct HT as [<-|HT]; [|exact (IH _ _ _ K t' HT)]. cbn [fst].
    eapply keeps_later; [exact K|]. apply in_or_app. right. now left. }
  destruct IN as [E|IN].
  - injection E as <- <-. exists i, t. split; [now apply seg_no_iff|]. split; [apply in_or_app; right; now left|]. nia.
  - destruct (k_part _ _ _ _ KF _ _ IN) as (SX & t' & IT & LE1 & LE2). exists j, t'. split; [now apply seg_no_iff|].
    split; [apply in_or_app; now left|]. destruct NF as (EQ & LT); [intros X; rewrite X in IN; destruct IN|]. rewrite EQ in *.
    split; [apply MONO; apply in_map_iff; exists (t', EvCollect x); auto|]. nia.
Qed.
Print Assumptions C94_span.

(** So no two messages are mixed if those with the same reference number are that
    far apart; [sent_in] tells the segments of the one from those of the other. *)
Theorem C94_not_mixed : forall (T : Type) (sent_in : seg -> T) cfg d m h t g i l err, cf_timeout cfg = true -> 0 < d -> proper_message m ->
  Forall typed_event (map snd (h ++ [(t, EvCollect g)])) -> history (on_time d) cfg (h ++ [(t, EvCollect g)]) ->
  (forall x y tx ty j k, In (tx, EvCollect x) (h ++ [(t, EvCollect g)]) -> In (ty, EvCollect y) (h ++ [(t, EvCollect g)]) ->
     is_segment m j x -> is_segment m k y -> tx <= ty < tx + (m_total m - 1) * d -> sent_in x = sent_in y) ->
  is_segment m i g ->
  snd (step cfg (fst (run cfg new_collector (map snd h))) (EvCollect g)) = OCollect (CReturn (Some l) err) ->
  forall x, In (Some x) l -> sent_in x = sent_in g.
Proof.
  intros T sent_in cfg d m h t g i l err TO D MO SE HI FAR SG HO x HX.
  destruct (C94_span cfg d m h t g i l err TO D MO SE HI SG HO x HX) as (j & t' & SX & IN & LT).
  apply (FAR x g t' t j i IN ltac:(apply in_or_app; right; now left) SX SG LT).
Qed.
Print Assumptions C94_not_mixed.

(** An instance: of the first message with the reference 7 one segment of three is
    lost; the second comes 10 and more later, the timeout being 10. *)
Definition reused_history : list (Z * event) :=
  [(0, EvCollect (ex_seg 0 7 3 1)); (9, EvCollect (ex_seg 1 7 3 2)); (19, EvFire 1); (19, EvExpire 1);
   (19, EvCollect (ex_seg 2 7 3 3)); (22, EvCollect (ex_seg 3 7 3 1)); (23, EvHandler 1); (30, EvCollect (ex_seg 4 7 3 2))].
Example C94_instance :
  let h1 := firstn 4 reused_history in let h2 := skipn 4 reused_history in
  Forall typed_event (map snd reused_history) /\ history (on_time 10) with_timeout reused_history /\
  arrivals ex_msg h1 = [0; 9] /\ arrivals ex_msg h2 = [19; 22; 30] /\ map fst (parts ex_msg (map snd h2)) = [3; 1; 2] /\
  replies ex_msg (map snd reused_history) (snd (run with_timeout new_collector (map snd reused_history))) =
    [OCollect (CReturn None None); OCollect (CReturn None None); OCollect (CReturn None None); OCollect (CReturn None None);
     OCollect (CReturn (Some [Some (ex_seg 3 7 3 1); Some (ex_seg 4 7 3 2); Some (ex_seg 2 7 3 3)]) None)].
Proof.
  cbv zeta. split; [|split].
  - repeat (constructor; [try exact Logic.I; repeat split; cbn; try lia; repeat constructor; unfold is_byte; lia|]). constructor.
  - exists 0. apply (keeps_b_ok _ (on_time_b 10)); [apply on_time_b_ok|vm_compute; reflexivity].
  - vm_compute. repeat split.
Qed.
(** Without the timeout the first of the second message would complete the first one. *)
Example C94_without_timeout :
  let es := map EvCollect [ex_seg 0 7 3 1; ex_seg 1 7 3 2; ex_seg 2 7 3 3] in
  snd (run {| cf_timeout := false; cf_handler := true |} new_collector es) =
    [OCollect (CReturn None None); OCollect (CReturn None None);
     OCollect (CReturn (Some [Some (ex_seg 0 7 3 1); Some (ex_seg 1 7 3 2); Some (ex_seg 2 7 3 3)]) None)].
Proof. vm_compute. reflexivity. Qed.
