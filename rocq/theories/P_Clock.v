(** C87: a Collector whose timers keep the time. *)
From Coq Require Import Permutation.
From Verif Require Import GoBase GoLemmas Address UserData Tpdu Collector SpecCollect CollectorProofs CollectorMsgProofs
  CollectorOrderProofs CollectorHistProofs P_Collect SpecAlone AloneProofs P_Alone SpecClock ClockProofs.

(** What is given to the expiry handler was collected at least [d] before; so was
    what Pipes shows before an event and not after it, unless Collect returns it. *)
Theorem C87_given_up : forall cfg d h1 t e h2, history (not_early d) cfg (h1 ++ (t, e) :: h2) ->
  let s := fst (run cfg new_collector (map snd h1)) in
  let '(s', o) := step cfg s e in
  (forall l g, o = OHandled l -> In (Some g) l -> since h1 g (t - d)) /\
  (forall k id g, In (k, id) (pipes s) -> ~ In (k, id) (pipes s') -> In (Some g) (pipe_segs s id) ->
     since h1 g (t - d) \/ exists l, o = OCollect (CReturn (Some l) None) /\ In (Some g) l).
Proof.
  intros cfg d h1 t e h2 (now & K) s.
  assert (D : dated d [] now [] new_collector).
  { split; [reflexivity|..].
    - intros [|id] g [].
    - intros [|j] tm t0 g H; discriminate.
    - intros [|j] tm t0 H; discriminate. }
  destruct (dated_run cfg d h1 new_collector [] now [] _ (inv_new cfg) D K) as (st & now1 & I & D1 & (LE & _ & _)).
  fold s in I, D1. cbn [app] in D1. destruct (step cfg s e) as [s' o] eqn:E.
  exact (given_up cfg d h1 now1 st s e s' o t I D1 LE E).
Qed.
Print Assumptions C87_given_up.

(** If the segments of a message come in time, the timeout makes no difference to
    the answers: they are those of a Collector without one. *)
Theorem C87_in_time : forall cfg cfg0 d m h, proper_message m -> Forall typed_event (map snd h) ->
  history (not_early d) cfg h -> in_time m d t_start h -> cf_timeout cfg0 = false ->
  replies m (map snd h) (snd (run cfg new_collector (map snd h))) =
  replies m (map snd h) (snd (run cfg0 new_collector (map snd h))).
Proof.
  intros cfg cfg0 d m h MO SE (now & K) IT NT.
  pose proof (C76_view_untimed cfg0 m (map snd h) NT) as V0.
  destruct (cf_timeout cfg) eqn:TO.
  2:{ apply C76_no_interference; auto. rewrite V0. now apply C76_view_untimed. }
  pose proof (in_time_run cfg TO m MO d h new_collector [] m_start t_start now (inv_new cfg) minv_new SE K
    (both_start m MO d now) IT) as E.
  pose proof (C76_alone cfg m _ MO SE) as A. pose proof (C76_alone cfg0 m _ MO SE) as B. rewrite V0 in B.
  change (flat_map _ (map snd h)) with (flat_map (told m) (map snd h)) in B.
  destruct (run cfg new_collector (map snd h)) as [s os]. destruct (run cfg0 new_collector (map snd h)) as [s0 os0].
  destruct (reacts m m_start (view cfg m new_collector (map snd h))) as [r answers].
  change (t_held t_start) with m_start in E.
  destruct (reacts m m_start (flat_map (told m) (map snd h))) as [r0 answers0]. cbn [snd] in *.
  destruct A as (-> & _). destruct B as (-> & _). exact E.
Qed.
Print Assumptions C87_in_time.

(** If the segments of a message come once each, in any order and among any other
    events, and each less than [d] after the one before, none of its timers fires;
    so the last of them completes it. *)
Theorem C87_no_timer : forall cfg d m h, proper_message m -> Forall typed_event (map snd h) ->
  Forall (fun e => e <> EvClose) (map snd h) -> history (not_early d) cfg h ->
  Permutation (map fst (parts m (map snd h))) (map Z.of_nat (seq 1 (Z.to_nat (m_total m)))) ->
  close_together d (arrivals m h) ->
  no_timeout cfg m new_collector (map snd h).
Proof.
  intros cfg d m h MO SE NC (now & K) PE CT. destruct (cf_timeout cfg) eqn:TO.
  2:{ clear - TO. generalize (inv_new cfg). generalize new_collector. induction (map snd h) as [|e es IH]; intros s I; [exact Logic.I|].
      cbn [no_timeout]. destruct (step cfg s e) as [s1 o] eqn:E. cbn [fst].
      split; [|apply IH; now apply (inv_step cfg s e s1 o I E)].
      destruct e as [g| | |tid|tid|tid]; try exact Logic.I. intros tm g HT. rewrite (i_cfg _ _ _ I TO) in HT. destruct tid; discriminate. }
  apply (no_timeout_run cfg TO m MO d h new_collector [] t_start now); auto; [apply inv_new|apply minv_new|now apply both_start|].
  right. cbn [t_start t_held m_start r_got length map app].
  pose proof (Permutation_length PE) as LP. rewrite !map_length, seq_length in LP.
  pose proof (proj2 (proj2 (proj2 MO))) as T2. split; [exact LP|]. split; [unfold total; lia|]. split.
  { apply (Permutation_NoDup (Permutation_sym PE)). apply FinFun.Injective_map_NoDup; [|apply seq_NoDup].
    intros x y H. now apply Nat2Z.inj. }
  split; [|exact CT]. apply Forall_forall. intros p HP.
  assert (HI : In (fst p) (map Z.of_nat (seq 1 (Z.to_nat (m_total m))))).
  { apply (Permutation_in _ PE). now apply in_map. }
  apply in_map_iff in HI as (k & <- & HI). apply in_seq in HI. lia.
Qed.
Print Assumptions C87_no_timer.
Theorem C87_any_order : forall cfg d m h, proper_message m -> Forall typed_event (map snd h) ->
  Forall (fun e => e <> EvClose) (map snd h) -> history (not_early d) cfg h ->
  Permutation (map fst (parts m (map snd h))) (map Z.of_nat (seq 1 (Z.to_nat (m_total m)))) ->
  close_together d (arrivals m h) ->
  exists gs,
    replies m (map snd h) (snd (run cfg new_collector (map snd h))) =
      repeat (OCollect (CReturn None None)) (Z.to_nat (m_total m) - 1) ++
      [OCollect (CReturn (Some (map Some gs)) None)] /\
    length gs = Z.to_nat (m_total m) /\
    forall i g, In (i, g) (parts m (map snd h)) -> nth_error gs (Z.to_nat (i - 1)) = Some g.
Proof.
  intros cfg d m h MO SE NC HI PE CT. apply C34_any_order; auto.
  - exists []. split; [constructor|reflexivity].
  - intros g [].
  - now apply (C87_no_timer cfg d m h).
  - apply MO.
Qed.
Print Assumptions C87_any_order.

(** With timers that are on time the answers are those of the machine with a
    clock: a segment that comes [d] or more after the last one of its message that
    was kept begins anew. *)
Theorem C87_on_time : forall cfg d m h, cf_timeout cfg = true -> proper_message m -> Forall typed_event (map snd h) ->
  history (on_time d) cfg h ->
  replies m (map snd h) (snd (run cfg new_collector (map snd h))) = timely m d t_start h.
Proof.
  intros cfg d m h TO MO SE (now & K).
  pose proof (on_time_run cfg TO m MO d h new_collector [] m_start t_start now (inv_new cfg) minv_new SE K (both_start m MO d now)) as E.
  pose proof (C76_alone cfg m _ MO SE) as A. destruct (run cfg new_collector (map snd h)) as [s os].
  destruct (reacts m m_start (view cfg m new_collector (map snd h))) as [r answers]. cbn [snd] in *.
  destruct A as (-> & _). exact E.
Qed.
Print Assumptions C87_on_time.

(** Nor is anything kept too long: when a segment is collected, each pipe that an
    open Collector shows has a segment that was collected less than [d] before. *)
Theorem C87_not_kept : forall cfg d h1 t g h2, cf_timeout cfg = true ->
  history (on_time d) cfg (h1 ++ (t, EvCollect g) :: h2) ->
  let s := fst (run cfg new_collector (map snd h1)) in
  c_closed s = false -> forall k id, In (k, id) (pipes s) ->
  exists x t', In (Some x) (pipe_segs s id) /\ In (t', EvCollect x) h1 /\ t < t' + d.
Proof.
  intros cfg d h1 t g h2 TO (now & K) s O k id IN.
  assert (L0 : latest [] [] new_collector) by intros k' id' [].
  destruct (latest_run cfg (on_time d) h1 TO new_collector [] now [] _ (inv_new cfg) eq_refl L0 K)
    as (st & now1 & I & L & LA & (_ & (_ & OT) & _)).
  fold s in I, L, LA, OT. destruct (LA k id IN) as (p & j & t0 & x & HP & CL & H0 & HI & HC). cbn [app] in HC.
  destruct (i_cleanup _ _ _ I _ _ _ _ IN HP CL) as (tm & HT & _ & _ & CS).
  exists x, t0. rewrite (pipe_segs_nth _ _ _ HP). split; [exact HI|]. split; [exact HC|].
  apply (OT g j tm t0 eq_refl HT); [|exact H0]. destruct CS as [F|[F|([F|F] & _)]]; auto; congruence.
Qed.
Print Assumptions C87_not_kept.

(** The hypotheses are met: with a timeout of 10, three segments that come at 0, 9
    and 18, with another message in between whose time is up at 13. *)
Definition clock_history : list (Z * event) :=
  [(0, EvCollect (ex_seg 0 7 3 1)); (3, EvCollect (ex_seg 1 8 3 1)); (9, EvCollect (ex_seg 2 7 3 3)); (13, EvFire 1);
   (13, EvExpire 1); (14, EvHandler 1); (18, EvCollect (ex_seg 3 7 3 2))].
(** Those of a message whose second segment comes too late; the timer of the first
    is on time. *)
Definition late_history : list (Z * event) :=
  [(0, EvCollect (ex_seg 0 7 3 1)); (9, EvCollect (ex_seg 1 7 3 2)); (12, EvCollect (ex_seg 2 7 3 2)); (19, EvFire 1);
   (19, EvExpire 1); (19, EvCollect (ex_seg 3 7 3 3)); (20, EvCollect (ex_seg 4 7 3 2)); (21, EvCollect (ex_seg 5 7 3 1))].

(** To see it. *)
Definition early_b (d : Z) (s : cstate) (st : list Z) (t : Z) (e : event) : bool :=
  match e with
  | EvFire tid =>
      match nth_error (c_timers s) tid, nth_error st tid with
      | Some tm, Some t0 => match tm_state tm with TActive => t0 + d <=? t | _ => true end
      | _, _ => true
      end
  | _ => true
  end.
Definition running_b (d t : Z) (x : timer * Z) : bool :=
  match tm_state (fst x) with TActive | TFired => t <? snd x + d | _ => true end.
Definition on_time_b (d : Z) (s : cstate) (st : list Z) (t : Z) (e : event) : bool :=
  early_b d s st t e && match e with EvCollect _ => forallb (running_b d t) (combine (c_timers s) st) | _ => true end.
Fixpoint keeps_b (P : cstate -> list Z -> Z -> event -> bool) (cfg : ccfg) (s : cstate) (st : list Z) (now : Z)
    (h : list (Z * event)) : bool :=
  match h with
  | [] => true
  | (t, e) :: h' => (now <=? t) && P s st t e &&
      keeps_b P cfg (fst (step cfg s e)) (started s (fst (step cfg s e)) t st) t h'
  end.
Lemma early_b_ok d s st t e : early_b d s st t e = true -> not_early d s st t e.
Proof. intros H tid tm t0 -> HT ES H0. cbn in H. rewrite HT, H0, ES in H. lia. Qed.
Lemma combine_nth {A B} (a : list A) : forall (b : list B) j x y, nth_error a j = Some x -> nth_error b j = Some y ->
  In (x, y) (combine a b).
Proof.
  induction a as [|a0 a IH]; intros [|b0 b] [|j] x y HX HY; try discriminate; cbn in *.
  - left. congruence.
  - right. exact (IH b j x y HX HY).
Qed.
Lemma on_time_b_ok d s st t e : on_time_b d s st t e = true -> on_time d s st t e.
Proof.
  intros H. apply andb_prop in H as (H1 & H2). split; [now apply early_b_ok|].
  intros g tid tm t0 -> HT ES H0. rewrite forallb_forall in H2. specialize (H2 _ (combine_nth _ _ _ _ _ HT H0)).
  unfold running_b in H2. cbn [fst snd] in H2. destruct ES as [ES|ES]; rewrite ES in H2; lia.
Qed.
Lemma keeps_b_ok (P : timing) B cfg : (forall s st t e, B s st t e = true -> P s st t e) -> forall h s st now,
  keeps_b B cfg s st now h = true -> keeps P cfg s st now h.
Proof.
  intros OK. induction h as [|[t e] h IH]; intros s st now H; [exact Logic.I|]. cbn [keeps_b keeps] in *.
  apply andb_prop in H as (H & H3). apply andb_prop in H as (H1 & H2). split; [lia|]. split; [now apply OK|now apply IH].
Qed.
Example C87_instance :
  Forall typed_event (map snd clock_history) /\ history (not_early 10) with_timeout clock_history /\
  in_time ex_msg 10 t_start clock_history /\ arrivals ex_msg clock_history = [0; 9; 18] /\
  close_together 10 (arrivals ex_msg clock_history) /\ map fst (parts ex_msg (map snd clock_history)) = [1; 3; 2] /\
  replies ex_msg (map snd clock_history) (snd (run with_timeout new_collector (map snd clock_history))) =
    [OCollect (CReturn None None); OCollect (CReturn None None);
     OCollect (CReturn (Some [Some (ex_seg 0 7 3 1); Some (ex_seg 3 7 3 2); Some (ex_seg 2 7 3 3)]) None)].
Proof.
  split; [|split; [|split; [|split; [|split; [|split]]]]].
  - repeat (constructor; [try exact Logic.I; repeat split; cbn; try lia; repeat constructor; unfold is_byte; lia|]). constructor.
  - exists 0. apply (keeps_b_ok _ (early_b 10)); [apply early_b_ok|vm_compute; reflexivity].
  - vm_compute. repeat split; auto.
  - reflexivity.
  - cbn. lia.
  - reflexivity.
  - vm_compute. reflexivity.
Qed.
Example C87_late_instance :
  Forall typed_event (map snd late_history) /\ history (on_time 10) with_timeout late_history /\
  replies ex_msg (map snd late_history) (snd (run with_timeout new_collector (map snd late_history))) =
    [OCollect (CReturn None None); OCollect (CReturn None None); OCollect (CReturn None (Some ErrDuplicateSegment));
     OCollect (CReturn None None); OCollect (CReturn None None);
     OCollect (CReturn (Some [Some (ex_seg 5 7 3 1); Some (ex_seg 4 7 3 2); Some (ex_seg 3 7 3 3)]) None)].
Proof.
  split; [|split].
  - repeat (constructor; [try exact Logic.I; repeat split; cbn; try lia; repeat constructor; unfold is_byte; lia|]). constructor.
  - exists 0. apply (keeps_b_ok _ (on_time_b 10)); [apply on_time_b_ok|vm_compute; reflexivity].
  - vm_compute. reflexivity.
Qed.
