(** * A Collector used by many goroutines at once (C65)

    The model is [CollectorLock.v]: any number of goroutines, each of which takes
    the mutex for a call, and timers that fire at any moment, also while another
    goroutine is half-way through a call.  The scheduler is any list of events. *)
From Coq Require Import Permutation.
From Verif Require Import GoBase GoLemmas UserData Tpdu Address Collector CollectorLock SpecCollect SpecLock
  CollectorProofs CollectorMsgProofs CollectorHistProofs LockProofs P_Collect.

(** Whatever the schedule, the calls give what they would give if they were made
    one at a time: each call takes effect at one moment between being made and
    returning, a timer when it rings and the handler when it is called, and in
    that order the sequential Collector gives all the same results.  When nobody
    is inside a call, the state is the sequential one as well. *)
Theorem C65_linearizable : forall cfg es,
  let '(z, h) := mrun cfg start es in
  exists s, explained cfg h s /\ (mutex z = None -> shared z = s).
Proof.
  intros cfg es. destruct (sim_run cfg es start [] new_collector (sim_start cfg)) as (h2 & a & E & M).
  destruct (mrun cfg start es) as [z h]. cbn [fst snd app] in *. exists a. split.
  - exists h2. split; [assumption|]. split; [now apply (sim_orderly cfg z h2 a)|]. apply M.
  - intros HM. apply (m_free _ _ _ _ M HM).
Qed.
Print Assumptions C65_linearizable.

(** At most one goroutine is between Lock and Unlock. *)
Theorem C65_exclusive : forall cfg es v w c d i j,
  let z := fst (mrun cfg start es) in
  at_ z v = Holding c i -> at_ z w = Holding d j -> v = w.
Proof.
  intros cfg es v w c d i j z A B. destruct (running_run cfg start es (running_start cfg)) as (h & a & M). fold z in M.
  apply (m_holder _ _ _ _ M) in A. apply (m_holder _ _ _ _ M) in B. congruence.
Qed.
Print Assumptions C65_exclusive.

(** The mutex is not held for long: a goroutine that gets it returns from its call
    within ten steps of its own, and Close one more for each message being
    collected, whatever the other goroutines and the timers do meanwhile. *)
Theorem C65_returns : forall cfg es w c es',
  let z := fst (mrun cfg start es) in
  at_ z w = Waiting c -> mutex z = None ->
  (10 + length (c_pipes (shared z)) <= turns w es')%nat ->
  exists o, In (Returns w c o) (snd (mrun cfg z (Acquire w :: es'))).
Proof.
  intros cfg es w c es' z HW HM T. rewrite mrun_cons. cbn [mstep]. rewrite HW, HM. cbn [fst snd app].
  apply (returns_within cfg w c es' _ (entry_pc c)).
  - pose proof (running_step cfg z (Acquire w) (running_run cfg start es (running_start cfg))) as R.
    cbn [mstep] in R. now rewrite HW, HM in R.
  - cbn [at_]. apply moves_same.
  - cbn [shared]. pose proof (rank_bound (shared z) c). lia.
Qed.
Print Assumptions C65_returns.

(** No deadlock: at any moment a call that waits for the mutex, also one made from
    inside the expiry handler, can return by steps of its own goroutine and of the
    one that has the mutex alone. *)
Theorem C65_no_deadlock : forall cfg es w c,
  let z := fst (mrun cfg start es) in
  at_ z w = Waiting c ->
  exists v n m o, In (Returns w c o) (snd (mrun cfg z (repeat (Go v 0) n ++ [Acquire w] ++ repeat (Go w 0) m))).
Proof.
  intros cfg es w c z HW. destruct (progress cfg z w c) as (v & n & m & o & H); [apply running_run, running_start|assumption|].
  now exists v, n, m, o.
Qed.
Print Assumptions C65_no_deadlock.

(** The handler is called by a goroutine that does not have the mutex, and need
    not wait for it. *)
Theorem C65_handler_unlocked : forall cfg es w tid,
  let z := fst (mrun cfg start es) in
  at_ z w = Handling tid ->
  w = Callback tid /\ mutex z <> Some w /\
  forall n, exists o, snd (mstep cfg z (Go w n)) = [Handled tid o].
Proof.
  intros cfg es w tid z HW. destruct (running_run cfg start es (running_start cfg)) as (h & a & M). fold z in M.
  destruct (m_expired _ _ _ _ M w tid (or_introl HW)) as (-> & _). split; [reflexivity|]. split.
  - intros HM. destruct (m_held _ _ _ _ M _ HM) as (c & i & E). congruence.
  - intros n. cbn [mstep]. rewrite HW. destruct (m_absent _ _ _ _ M tid) as (tm & -> & _); [congruence|]. eexists. reflexivity.
Qed.
Print Assumptions C65_handler_unlocked.

(** The slice the handler is given is read without the mutex.  That is no race:
    once the timer has fired nobody writes to it, for the rest of time. *)
Theorem C65_handler_stable : forall cfg es es' tid tm,
  let z := fst (mrun cfg start es) in
  nth_error (c_timers (shared z)) tid = Some tm -> tm_state tm <> TActive -> tm_state tm <> TStopped ->
  pipe_segs (shared (fst (mrun cfg z es'))) (tm_pipe tm) = pipe_segs (shared z) (tm_pipe tm).
Proof.
  intros cfg es es' tid tm z HT NA NS. destruct (running_run cfg start es (running_start cfg)) as (h & a & M). fold z in M.
  assert (LT : late (tm_state tm)) by (unfold late; destruct (tm_state tm); auto; contradiction).
  destruct (sim_run cfg es' z h a M) as (h2 & a2 & _ & M2). set (z2 := fst (mrun cfg z es')) in *.
  pose proof (sim_link _ _ _ _ M) as LK. pose proof (link_timer _ _ _ _ _ LK HT NS) as HA.
  pose proof (ran_inv _ _ _ (m_run _ _ _ _ M)) as IV.
  assert (FZ : frozen a (tm_pipe tm)).
  { split; [exact (i_tpipe _ _ _ IV _ _ HA)|]. right. exists tid, tm. auto. }
  assert (E : pipe_segs a2 (tm_pipe tm) = pipe_segs a (tm_pipe tm)).
  { destruct (frozen_run cfg (map fst (effects h2)) a _ IV FZ) as (_ & <-). f_equal.
    pose proof (m_run _ _ _ _ M) as R1. pose proof (m_run _ _ _ _ M2) as R2. unfold ran in R1, R2.
    rewrite effects_app, !map_app, run_app, R1 in R2. cbn [fst snd] in R2. now injection R2 as <- _. }
  destruct (mrun_late cfg es' z tid tm HT LT) as (tm2 & HT2 & LT2 & P2).
  assert (NS2 : tm_state tm2 <> TStopped) by (destruct LT2 as [X|[X|X]]; congruence).
  pose proof (link_segs _ _ _ _ _ (sim_link _ _ _ _ M2) HT2 NS2) as E2. rewrite P2 in E2.
  now rewrite <- (link_segs _ _ _ _ _ LK HT NS), <- E2, E.
Qed.
Print Assumptions C65_handler_stable.

(** Every segment that comes back, from Collect or to the handler, was given to
    Collect, and comes back no more often than it was given. *)
Theorem C65_nothing_twice : forall cfg es,
  let h := snd (mrun cfg start es) in
  exists rest, Permutation (given h) (came_back h ++ rest).
Proof.
  intros cfg es h. destruct (sim_run cfg es start [] new_collector (sim_start cfg)) as (h2 & a & E & M).
  fold h in E. set (z := fst (mrun cfg start es)) in *. cbn [app] in M. change (sub (came_back h) (given h)).
  rewrite <- E, erase_came, given_made, erase_made.
  assert (LR : exists r, lins h2 = rets h2 ++ r).
  { destruct (mutex z) as [w|] eqn:HM.
    - destruct (m_held _ _ _ _ M w HM) as (c & i & HW). destruct (post i) eqn:P.
      + destruct (m_post _ _ _ _ M w c i HW P) as (o & _ & _ & _ & X). eauto.
      + destruct (m_pre _ _ _ _ M w c i HW P) as (_ & _ & X). exists []. now rewrite app_nil_r.
    - destruct (m_free _ _ _ _ M HM) as (_ & X). exists []. now rewrite app_nil_r. }
  eapply sub_trans; [exact (came_sub h2 LR)|].
  eapply sub_trans; [|apply sub_flat, (took_made h2), (sim_orderly _ _ _ _ M)].
  eapply sub_trans; [|apply all_taken_sub]. eapply sub_trans; [apply sub_perm, outs_split|].
  pose proof (m_run _ _ _ _ M) as R. unfold ran in R.
  set (ev := map fst (effects h2)) in *. set (os := map snd (effects h2)) in *.
  destruct (cf_handler cfg) eqn:HC.
  - pose proof (C36_conservation cfg ev HC) as C. rewrite R in C.
    eapply sub_trans; [|apply sub_perm; symmetry; exact C]. apply sub_app; [now apply sub_perm|].
    eapply sub_trans; [|apply sub_right]. apply sub_right.
  - pose proof (C36_no_handler cfg ev HC) as C. rewrite R in C.
    destruct (run {| cf_timeout := cf_timeout cfg; cf_handler := true |} new_collector ev) as [s' os'].
    destruct C as (-> & C). rewrite app_nil_r. eapply sub_trans; [|apply sub_perm; symmetry; exact C]. apply sub_left.
Qed.
Print Assumptions C65_nothing_twice.

(** A message whose segments are collected by any number of goroutines at once, in
    any order and among any other calls, is returned by the call that is the last
    to let go of the mutex, in sequence order, and by no other: when all its
    segments have been collected once each, no timer has fired, Close has not been
    called and nobody is inside a call. *)
Theorem C65_any_order : forall cfg m es,
  let '(z, h) := mrun cfg start es in
  mutex z = None -> (forall tid, ~ In (Rang tid) h) ->
  (forall w c, In (Calls w c) h -> c <> CallClose /\ typed_event (event_of c)) ->
  2 <= m_total m ->
  Permutation (map fst (parts m (map fst (answers h)))) (map Z.of_nat (seq 1 (Z.to_nat (m_total m)))) ->
  exists gs,
    replies m (map fst (answers h)) (map snd (answers h)) =
      repeat (OCollect (CReturn None None)) (Z.to_nat (m_total m) - 1) ++
      [OCollect (CReturn (Some (map Some gs)) None)] /\
    length gs = Z.to_nat (m_total m) /\
    forall i g, In (i, g) (parts m (map fst (answers h))) -> nth_error gs (Z.to_nat (i - 1)) = Some g.
Proof.
  intros cfg m es. destruct (sim_run cfg es start [] new_collector (sim_start cfg)) as (h2 & a & E & M).
  destruct (mrun cfg start es) as [z h]. cbn [fst snd app] in *. intros HM NR CS T2 PE.
  destruct (m_free _ _ _ _ M HM) as (_ & LR). pose proof (m_run _ _ _ _ M) as R. unfold ran in R.
  assert (EA : answers h = lin_events h2).
  { rewrite answers_rets, <- E, erase_rets, <- LR. reflexivity. }
  assert (EV : forall e, In e (map fst (effects h2)) -> typed_event e /\ e <> EvClose /\ forall tid, e <> EvFire tid).
  { intros e HE. destruct (effects_in h2 e HE) as [(w & c & HI & ->)|[(tid & HI & ->)|(tid & ->)]].
    - apply (sub_incl _ _ (took_made h2 (sim_orderly _ _ _ _ M))) in HI. apply made_in in HI.
      destruct (CS w c) as (A & B); [rewrite <- E; apply erase_in; [assumption|discriminate]|].
      split; [assumption|]. split; destruct c; try discriminate. now destruct A.
    - exfalso. apply (NR tid). rewrite <- E. apply erase_in; [assumption|discriminate].
    - split; [exact I|]. split; discriminate. }
  rewrite EA in *. rewrite <- parts_effects in PE. rewrite <- parts_effects, <- replies_effects.
  pose proof (C34_any_order cfg m new_collector (map fst (effects h2))) as X. rewrite R in X. cbn [snd] in X. apply X; auto.
  - exists []. split; [constructor|reflexivity].
  - intros g [].
  - apply Forall_forall. intros e HE. now apply EV.
  - apply Forall_forall. intros e HE. now apply EV.
  - apply no_fire. intros tid HI. apply EV in HI as (_ & _ & N). now apply (N tid).
Qed.
Print Assumptions C65_any_order.

(** ** Examples *)

Definition go (w : who) (n : nat) : list mevent := repeat (Go w 0) n.
Definition call_all (w : who) (c : call) (n : nat) : list mevent := Invoke w c :: Acquire w :: go w n.

(** Client 0 collects segment 1 of 3.  Client 1 starts to collect segment 2 and
    has found the pipe, when the timer fires: Stop fails and a new pipe is made.
    Client 0 calls Pipes meanwhile and must wait.  The callback then gets the
    mutex, finds another pipe in the map and leaves it, and the handler, which has
    only segment 1, calls Close. *)
Definition ex_sched : list mevent :=
  call_all (Client 0) (CallCollect (ex_seg 0 7 3 1)) 9 ++
  [Invoke (Client 1) (CallCollect (ex_seg 1 7 3 2)); Acquire (Client 1)] ++ go (Client 1) 3 ++
  [Ring 0; Invoke (Client 0) CallPipes; Acquire (Client 0); Acquire (Callback 0)] ++ go (Client 1) 10 ++
  [Acquire (Callback 0)] ++ go (Callback 0) 4 ++ call_all (Callback 0) CallClose 4 ++ [Acquire (Client 0)] ++ go (Client 0) 2.
Example C65_instance :
  snd (mrun with_timeout start ex_sched) =
    [Calls (Client 0) (CallCollect (ex_seg 0 7 3 1)); Returns (Client 0) (CallCollect (ex_seg 0 7 3 1)) (OCollect (CReturn None None));
     Calls (Client 1) (CallCollect (ex_seg 1 7 3 2));
     Rang 0; Calls (Callback 0) (CallExpire 0); Calls (Client 0) CallPipes;
     Returns (Client 1) (CallCollect (ex_seg 1 7 3 2)) (OCollect (CReturn None None));
     Returns (Callback 0) (CallExpire 0) ONone; Handled 0 (OHandled [Some (ex_seg 0 7 3 1); None; None]);
     Calls (Callback 0) CallClose; Returns (Callback 0) CallClose ONone;
     Returns (Client 0) CallPipes (OPipes (pipes (shared (fst (mrun with_timeout start ex_sched)))))] /\
  map snd (pipes (shared (fst (mrun with_timeout start ex_sched)))) = [1%nat] /\
  pipe_segs (shared (fst (mrun with_timeout start ex_sched))) 1 = [None; Some (ex_seg 1 7 3 2); None].
Proof. vm_compute. auto. Qed.

(** The value returned by Pipes is not even safe to read (C48): client 0 has called
    Pipes and client 1, in the middle of Collect, is about to write to one of the
    slices client 0 has got.  Client 0 need not wait for the mutex to read it. *)
Definition ex_race : list mevent :=
  call_all (Client 0) (CallCollect (ex_seg 0 7 3 1)) 9 ++ call_all (Client 0) CallPipes 2 ++
  [Invoke (Client 1) (CallCollect (ex_seg 1 7 3 2)); Acquire (Client 1)] ++ go (Client 1) 4.
Theorem C48_race_refuted : exists es ps k id g p,
  let '(z, h) := mrun with_timeout start es in
  In (Returns (Client 0) CallPipes (OPipes ps)) h /\ In (k, id) ps /\ at_ z (Client 0) = Idle /\
  at_ z (Client 1) = Holding (CallCollect g) (AtPut p id) /\
  pipe_segs (shared (fst (mstep with_timeout z (Go (Client 1) 0)))) id <> pipe_segs (shared z) id.
Proof.
  exists ex_race. do 5 eexists.
  destruct (mrun with_timeout start ex_race) as [z h] eqn:E. vm_compute in E. injection E as <- <-.
  repeat match goal with |- _ /\ _ => split end.
  - right. right. right. left. reflexivity.
  - left. reflexivity.
  - reflexivity.
  - reflexivity.
  - vm_compute. discriminate.
Qed.
Print Assumptions C48_race_refuted.

(** Half-way through [ex_sched]: client 1 holds the mutex, client 0 and the callback wait. *)
Example C65_waiting_instance :
  let z := fst (mrun with_timeout start (firstn 18 ex_sched)) in
  mutex z = Some (Client 1) /\ at_ z (Client 0) = Waiting CallPipes /\ at_ z (Callback 0) = Waiting (CallExpire 0) /\
  (exists tm, nth_error (c_timers (shared z)) 0 = Some tm /\ tm_state tm = TFired).
Proof. vm_compute. split; [reflexivity|]. split; [reflexivity|]. split; [reflexivity|]. eexists. split; reflexivity. Qed.

(** Three clients with one segment each. *)
Definition ex_three : list mevent :=
  [Invoke (Client 2) (CallCollect (ex_seg 2 7 3 3)); Invoke (Client 0) (CallCollect (ex_seg 0 7 3 1));
   Invoke (Client 1) (CallCollect (ex_seg 1 7 3 2)); Acquire (Client 1); Acquire (Client 0)] ++
  go (Client 0) 3 ++ go (Client 1) 12 ++ [Acquire (Client 2)] ++ go (Client 2) 12 ++ [Acquire (Client 0)] ++ go (Client 0) 12.
Example C65_any_order_instance :
  let '(z, h) := mrun with_timeout start ex_three in
  mutex z = None /\ map fst (parts ex_msg (map fst (answers h))) = [2; 3; 1] /\
  replies ex_msg (map fst (answers h)) (map snd (answers h)) =
    [OCollect (CReturn None None); OCollect (CReturn None None);
     OCollect (CReturn (Some [Some (ex_seg 0 7 3 1); Some (ex_seg 1 7 3 2); Some (ex_seg 2 7 3 3)]) None)] /\
  came_back h = [ex_seg 0 7 3 1; ex_seg 1 7 3 2; ex_seg 2 7 3 3].
Proof. vm_compute. auto. Qed.
