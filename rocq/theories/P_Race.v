(** * No data race in the Collector (C65)

    The steps of [CollectorLock.v] are atomic.  The Go memory model promises that
    for programs without data races; here is the proof that the Collector is one.
    What each step reads and writes is listed in SpecRace.v. *)
From Verif Require Import GoBase GoLemmas UserData Tpdu Address Collector CollectorLock SpecCollect SpecLock SpecRace
  CollectorProofs CollectorMsgProofs CollectorHistProofs LockProofs P_Collect P_Lock.

Lemma content_timers s s' x : c_closed s' = c_closed s -> c_pipes s' = c_pipes s -> c_heap s' = c_heap s ->
  content_of s' x = content_of s x.
Proof. intros A B C. destruct x; cbn [content_of]; congruence. Qed.
Lemma stop_timer_memory s tid : let s' := fst (stop_timer s tid) in
  c_closed s' = c_closed s /\ c_pipes s' = c_pipes s /\ c_heap s' = c_heap s.
Proof. unfold stop_timer. destruct (nth_error _ _) as [tm|]; [|cbn; auto]. destruct (tm_state tm); cbn; auto. Qed.
Lemma upd_content s id q q' x : nth_error (c_heap s) id = Some q ->
  (x = Cleanup id -> p_cleanup q' = p_cleanup q) -> (x = Segments id -> p_segs q' = p_segs q) ->
  (x = Frags id -> p_frags q' = p_frags q) ->
  content_of (with_heap s (upd (c_heap s) id q')) x = content_of s x.
Proof.
  intros H A B C. destruct x as [| |j|j|j]; cbn [content_of with_heap c_closed c_pipes c_heap]; try reflexivity;
    (destruct (Nat.eq_dec j id) as [->|N]; [rewrite (nth_upd_same _ _ _ _ H), H; cbn [option_map]; do 2 f_equal; auto|now rewrite nth_upd_other]).
Qed.

Lemma micro_writes cfg n s c i x : ~ In x (writes s (Holding c i)) -> content_of (fst (micro cfg n s i)) x = content_of s x.
Proof.
  intros NI. destruct i as [g|p|p id|p id|p|p id|p id|p id|p id|p id tid| |rest| |tid|tid m|o]; cbn [writes In] in NI; cbn [micro].
  - destruct (c_closed s); [reflexivity|]. destruct (tpdu_concat_info _) as [[[? ?] ?]|]; [|reflexivity].
    destruct (_ <? 2); [reflexivity|]. destruct (_ || _); [reflexivity|]. now destruct (pdu_key _ _ _).
  - now destruct (klookup _ _).
  - destruct (nth_error (c_heap s) _) as [q|]; [|reflexivity]. now destruct (idx _ _) as [[?|]| | |].
  - destruct (nth_error (c_heap s) id) as [q|]; [|reflexivity]. destruct (p_cleanup q) as [j|]; [|reflexivity].
    pose proof (stop_timer_memory s j) as X. destruct (stop_timer s j) as [s' b]. cbn [fst] in *. destruct X as (A & B & C). now apply content_timers.
  - unfold new_pipe. cbn [fst]. destruct x as [| |j|j|j]; cbn [content_of c_closed c_heap]; try reflexivity;
      try (exfalso; now auto);
      (destruct (Nat.lt_ge_cases j (length (c_heap s))) as [L|L];
        [rewrite nth_error_app1 by assumption; reflexivity|];
        destruct (Nat.eq_dec j (length (c_heap s))) as [->|N]; [exfalso; apply NI; auto 6|];
        rewrite !(proj2 (nth_error_None _ _)); [reflexivity|lia|rewrite app_length; cbn [length]; lia]).
  - destruct (nth_error (c_heap s) id) as [q|] eqn:H; [|reflexivity]. cbn [fst]. apply upd_content with (q := q); auto. intros ->. exfalso. auto.
  - destruct (nth_error (c_heap s) id) as [q|] eqn:H; [|reflexivity]. cbn [fst]. apply upd_content with (q := q); auto. intros ->. exfalso. auto.
  - destruct x; cbn [fst with_map content_of c_closed c_heap]; try reflexivity. exfalso. auto.
  - cbn [fst]. now apply content_timers.
  - destruct (nth_error (c_heap s) id) as [q|] eqn:H; [|reflexivity]. cbn [fst]. apply upd_content with (q := q); auto. intros ->. exfalso. auto.
  - destruct (c_closed s) eqn:E; [reflexivity|]. cbn [fst]. destruct x; try reflexivity. exfalso. auto.
  - destruct (take_nth n rest) as [[kv r]|]; [|reflexivity]. cbn [fst]. unfold stop_pipe.
    destruct (nth_error (c_heap s) _) as [q|]; [|reflexivity]. destruct (p_cleanup q) as [j|]; [|reflexivity].
    destruct (stop_timer_memory s j) as (A & B & C). now apply content_timers.
  - reflexivity.
  - destruct (nth_error (c_timers s) tid); reflexivity.
  - destruct (nth_error (c_timers s) tid) as [tm|]; [|reflexivity]. cbn [fst]. destruct m as [id|]; [|now apply content_timers].
    destruct (Nat.eqb id (tm_pipe tm)); [|now apply content_timers]. destruct x; try reflexivity. exfalso. auto.
  - reflexivity.
Qed.

(** The list of writes is complete: a step of a goroutine changes no other
    variable, and neither do taking the mutex, calling a method and a timer
    that fires. *)
Theorem C65_writes : forall cfg z e x,
  (forall w n, e = Go w n -> ~ In x (writes (shared z) (at_ z w))) ->
  content_of (shared (fst (mstep cfg z e))) x = content_of (shared z) x.
Proof.
  intros cfg z e x NI. destruct e as [w c|w|w n|tid]; cbn [mstep].
  - destruct (at_ z w); try reflexivity. now destruct c.
  - destruct (at_ z w); try reflexivity. now destruct (mutex z).
  - specialize (NI w n eq_refl). destruct (at_ z w) as [| |c|c i|tid]; try reflexivity.
    + pose proof (micro_writes cfg n (shared z) c i x NI) as M. destruct i; try reflexivity;
        match goal with |- context [micro cfg n (shared z) ?i] => destruct (micro cfg n (shared z) i) as [s1 i1]; cbn [fst shared] in *; exact M end.
    + destruct (nth_error _ _) as [tm|]; [|reflexivity]. cbn [fst shared]. now apply content_timers.
  - destruct (nth_error _ _) as [tm|]; [|reflexivity]. destruct (tm_state tm); reflexivity.
Qed.
Print Assumptions C65_writes.

(** What the next step of a goroutine writes no other goroutine is about to read
    or write: at any moment of any schedule, whatever calls are being made, while
    timers fire and the handler reads the segments it was given. *)
Theorem C65_no_race : forall cfg es v w x,
  let z := fst (mrun cfg start es) in
  v <> w -> In x (writes (shared z) (at_ z v)) ->
  ~ In x (writes (shared z) (at_ z w)) /\ ~ In x (reads (shared z) (at_ z w)).
Proof.
  intros cfg es v w x z N W. destruct (running_run cfg start es (running_start cfg)) as (h & a & M). fold z in M.
  destruct (at_ z v) as [| |c|c i|tid] eqn:V; try contradiction.
  pose proof (m_holder _ _ _ _ M v c i V) as HV.
  destruct (at_ z w) as [| |d|d j|tid] eqn:E; try (split; intros []).
  - exfalso. apply N. pose proof (m_holder _ _ _ _ M w d j E). congruence.
  - split; [intros []|]. cbn [reads]. unfold timer_pipe. destruct (nth_error (c_timers (shared z)) tid) as [tm|] eqn:T; [|intros []].
    cbn [map]. intros [<-|[]].
    destruct (m_expired _ _ _ _ M w tid (or_introl E)) as (-> & _).
    destruct (m_absent _ _ _ _ M tid) as (tm' & T' & L); [congruence|]. assert (tm' = tm) by congruence. subst tm'. clear T'.
    assert (S : post i = true -> safe (shared z) i).
    { intros P. destruct (m_post _ _ _ _ M v c i V P) as (o & _ & _ & S & _). exact S. }
    destruct i; cbn [writes In] in W; try contradiction;
      repeat match goal with H : _ \/ _ |- _ => destruct H as [H|H] end; try discriminate; try contradiction.
    + injection W as W. destruct (S eq_refl) as [TP _]. specialize (TP _ _ T). lia.
    + injection W as W. destruct (S eq_refl) as [_ Q]. pose proof (Q _ _ T (eq_sym W)) as Q'. rewrite Q' in L. destruct L as [?|[?|?]]; discriminate.
Qed.
Print Assumptions C65_no_race.

(** ** What Collect returned *)
Definition about_pipe (s : cstate) (i : pc) : Prop :=
  match i with
  | AtSegment p id | AtStop p id | AtPut p id | AtCount p id | AtDelete p id | AtAfter p id | AtCleanup p id _ =>
      klookup (c_pipes s) (pt_key p) = Some id
  | _ => True
  end.
Definition map_ok (s : cstate) : Prop :=
  NoDup (map snd (c_pipes s)) /\ forall k id, In (k, id) (c_pipes s) -> (id < length (c_heap s))%nat.
Lemma map_ok_delete s k : map_ok s -> map_ok (with_map s (kdelete (c_pipes s) k)).
Proof.
  intros [N L]. split; cbn [with_map c_pipes c_heap]; [now apply kdelete_ids|]. intros k' id I. apply in_kdelete in I as [I _]. now apply (L k').
Qed.
Lemma map_ok_same s s' : c_pipes s' = c_pipes s -> length (c_heap s') = length (c_heap s) -> map_ok s -> map_ok s'.
Proof. intros A B [N L]. unfold map_ok. rewrite A, B. auto. Qed.
Lemma upd_len {A} (l : list A) i x : length (upd l i x) = length l.
Proof. revert i. induction l as [|y l IH]; intros [|i]; cbn; auto. Qed.

(** One step of the holder: the map stays well-formed, the holder works on the
    pipe that the map has, and only the next free pipe is entered. *)
Lemma micro_map cfg n s i : map_ok s -> about_pipe s i ->
  let s' := fst (micro cfg n s i) in
  map_ok s' /\ about_pipe s' (snd (micro cfg n s i)) /\ (length (c_heap s) <= length (c_heap s'))%nat /\
  forall id, In id (map snd (c_pipes s')) -> In id (map snd (c_pipes s)) \/ id = length (c_heap s).
Proof.
  intros W A.
  assert (SAME : forall s' i', c_pipes s' = c_pipes s -> length (c_heap s') = length (c_heap s) -> about_pipe s i' ->
    map_ok s' /\ about_pipe s' i' /\ (length (c_heap s) <= length (c_heap s'))%nat /\
    forall id, In id (map snd (c_pipes s')) -> In id (map snd (c_pipes s)) \/ id = length (c_heap s)).
  { intros s' i' E L A'. split; [now apply (map_ok_same s)|]. split; [|split; [lia|intros id; rewrite E; auto]].
    destruct i'; cbn [about_pipe] in *; rewrite ?E; auto. }
  assert (DEL : forall k i' s', c_pipes s' = kdelete (c_pipes s) k -> c_heap s' = c_heap s -> (forall s, about_pipe s i') ->
    map_ok s' /\ about_pipe s' i' /\ (length (c_heap s) <= length (c_heap s'))%nat /\
    forall id, In id (map snd (c_pipes s')) -> In id (map snd (c_pipes s)) \/ id = length (c_heap s)).
  { intros k i' s' E H P. split; [apply (map_ok_same (with_map s (kdelete (c_pipes s) k))); [exact E|now rewrite H|now apply map_ok_delete]|].
    split; [apply P|]. rewrite H, E. split; [lia|]. intros id I. left. apply in_map_iff in I as ([k' id'] & <- & I). apply in_kdelete in I as [I _].
    apply in_map_iff. exists (k', id'). auto. }
  destruct i as [g|p|p id|p id|p|p id|p id|p id|p id|p id tid| |rest| |tid|tid m|o]; cbn [about_pipe] in A; cbn [micro].
  - destruct (c_closed s); [apply SAME; cbn; auto|]. destruct (tpdu_concat_info _) as [[[? ?] ?]|]; [|apply SAME; cbn; auto].
    destruct (_ <? 2); [apply SAME; cbn; auto|]. destruct (_ || _); [apply SAME; cbn; auto|]. destruct (pdu_key _ _ _). apply SAME; cbn; auto.
  - destruct (klookup (c_pipes s) (pt_key p)) eqn:E; apply SAME; cbn; auto.
  - destruct (nth_error (c_heap s) _) as [q|]; [|apply SAME; cbn; auto]. destruct (idx _ _) as [[?|]| | |]; apply SAME; cbn; auto.
  - destruct (nth_error (c_heap s) id) as [q|]; [|apply SAME; cbn; auto]. destruct (p_cleanup q) as [j|]; [|apply SAME; cbn; auto].
    destruct (stop_timer_memory s j) as (E1 & E2 & E3). destruct (stop_timer s j) as [s' b]. cbn [fst snd] in *.
    apply SAME; [assumption|now rewrite E3|]. destruct b; cbn; auto.
  - unfold new_pipe. cbn [fst snd about_pipe c_pipes c_heap]. rewrite klookup_kset_same, app_length. cbn [length]. destruct W as [N L].
    split; [split|split; [reflexivity|split; [lia|]]].
    + cbn [c_pipes kset map snd]. constructor; [|now apply kdelete_ids]. intros I. apply in_map_iff in I as ([k' id'] & E & I). cbn in E. subst id'.
      apply in_kdelete in I as [I _]. specialize (L _ _ I). lia.
    + cbn [c_pipes c_heap]. rewrite app_length. cbn [length]. intros k id I. apply in_kset in I as [(_ & ->)|(I & _)]; [lia|]. specialize (L _ _ I). lia.
    + cbn [kset map snd In]. intros id [<-|I]; [now right|left]. apply in_map_iff in I as ([k' id'] & <- & I). apply in_kdelete in I as [I _].
      apply in_map_iff. exists (k', id'). auto.
  - destruct (nth_error (c_heap s) id) as [q|]; [|apply SAME; cbn; auto]. cbn [fst snd]. apply SAME; [reflexivity|cbn [with_heap c_heap]; apply upd_len|exact A].
  - destruct (nth_error (c_heap s) id) as [q|]; [|apply SAME; cbn; auto]. cbn [fst snd]. apply SAME; [reflexivity|cbn [with_heap c_heap]; apply upd_len|].
    destruct (_ =? _); [exact A|]. destruct (cf_timeout cfg); [exact A|exact I].
  - cbn [fst snd]. apply (DEL (pt_key p)); reflexivity || (intros; exact I).
  - cbn [fst snd]. apply SAME; auto.
  - destruct (nth_error (c_heap s) id) as [q|]; [|apply SAME; cbn; auto]. cbn [fst snd]. apply SAME; [reflexivity|cbn [with_heap c_heap]; apply upd_len|exact I].
  - destruct (c_closed s); apply SAME; cbn; auto.
  - destruct (take_nth n rest) as [[kv r]|]; [|apply SAME; cbn; auto]. cbn [fst snd]. unfold stop_pipe.
    destruct (nth_error (c_heap s) _) as [q|]; [|apply SAME; cbn; auto]. destruct (p_cleanup q) as [j|]; [|apply SAME; cbn; auto].
    destruct (stop_timer_memory s j) as (E1 & E2 & E3). apply SAME; [assumption|now rewrite E3|exact I].
  - apply SAME; cbn; auto.
  - destruct (nth_error (c_timers s) tid); apply SAME; cbn; auto.
  - destruct (nth_error (c_timers s) tid) as [tm|]; [|apply SAME; cbn; auto]. cbn [fst snd]. destruct m as [id|]; [|apply SAME; cbn; auto].
    destruct (Nat.eqb id (tm_pipe tm)); [|apply SAME; cbn; auto]. apply (DEL (tm_key tm)); reflexivity || (intros; exact I).
  - apply SAME; cbn; auto.
Qed.

Definition maps_ok (z : sys) : Prop := map_ok (shared z) /\ forall w c i, at_ z w = Holding c i -> about_pipe (shared z) i.
(** A step of the system. *)
Lemma mstep_map cfg z e : running cfg z -> maps_ok z ->
  let z' := fst (mstep cfg z e) in
  maps_ok z' /\ (length (c_heap (shared z)) <= length (c_heap (shared z')))%nat /\
  forall id, In id (map snd (c_pipes (shared z'))) -> In id (map snd (c_pipes (shared z))) \/ id = length (c_heap (shared z)).
Proof.
  intros (h & a & M) [W A].
  assert (K : forall s' f m, c_pipes s' = c_pipes (shared z) -> c_heap s' = c_heap (shared z) ->
    (forall w c i, f w = Holding c i -> about_pipe (shared z) i) ->
    let z' := {| shared := s'; mutex := m; at_ := f |} in
    maps_ok z' /\ (length (c_heap (shared z)) <= length (c_heap (shared z')))%nat /\
    forall id, In id (map snd (c_pipes (shared z'))) -> In id (map snd (c_pipes (shared z))) \/ id = length (c_heap (shared z))).
  { intros s' f m E1 E2 F z'. split; [split|]; cbn [shared at_ z'].
    - apply (map_ok_same (shared z)); [assumption|now rewrite E2|assumption].
    - intros w c i H. specialize (F w c i H). destruct i; cbn [about_pipe] in *; rewrite ?E1; auto.
    - rewrite E1, E2. split; [lia|auto]. }
  assert (K0 : maps_ok z /\ (length (c_heap (shared z)) <= length (c_heap (shared z)))%nat /\
    forall id, In id (map snd (c_pipes (shared z))) -> In id (map snd (c_pipes (shared z))) \/ id = length (c_heap (shared z))).
  { split; [split; assumption|]. auto. }
  assert (MV : forall w d, (forall c i, d = Holding c i -> about_pipe (shared z) i) ->
    forall v c i, moves (at_ z) w d v = Holding c i -> about_pipe (shared z) i).
  { intros w d D v c i. unfold moves. destruct (who_eqb v w); [apply D|apply A]. }
  destruct e as [w c|w|w n|j]; cbn [mstep].
  - destruct (at_ z w) eqn:E; try exact K0. destruct c; try exact K0; (apply K; try reflexivity; apply MV; discriminate).
  - destruct (at_ z w) eqn:E; try exact K0. destruct (mutex z); [exact K0|]. apply K; try reflexivity. apply MV. intros c' i' H. injection H as <- <-.
    destruct c; exact I.
  - destruct (at_ z w) as [| |c|c i|j] eqn:E; try exact K0.
    + assert (GO : let '(s, i') := micro cfg n (shared z) i in
        let z' := {| shared := s; mutex := mutex z; at_ := moves (at_ z) w (Holding c i') |} in
        maps_ok z' /\ (length (c_heap (shared z)) <= length (c_heap (shared z')))%nat /\
        forall id, In id (map snd (c_pipes (shared z'))) -> In id (map snd (c_pipes (shared z))) \/ id = length (c_heap (shared z))).
      { pose proof (micro_map cfg n (shared z) i W (A w c i E)) as X. destruct (micro cfg n (shared z) i) as [s1 i1]. cbn [fst snd shared] in *.
        destruct X as (X1 & X2 & X3 & X4). split; [split; [exact X1|]|split; [exact X3|exact X4]]. cbn [shared at_].
        intros v c' i'. destruct (who_dec v w) as [->|NE]; [rewrite moves_same; intros H; injection H as <- <-; exact X2|].
        rewrite moves_other by assumption. intros H. exfalso. apply NE. pose proof (m_holder _ _ _ _ M v c' i' H). pose proof (m_holder _ _ _ _ M w c i E). congruence. }
      destruct i; try (match goal with |- context [micro cfg n (shared z) ?i] => destruct (micro cfg n (shared z) i) as [s1 i1]; exact GO end).
      apply K; try reflexivity. apply MV. destruct c; discriminate.
    + destruct (nth_error _ _) as [tm|]; [|exact K0]. apply K; try reflexivity. apply MV. discriminate.
  - destruct (nth_error _ _) as [tm|]; [|exact K0]. destruct (tm_state tm); try exact K0. apply K; try reflexivity. apply MV.
    intros c' i' H. discriminate.
Qed.
Lemma maps_ok_run cfg es : forall z, running cfg z -> maps_ok z -> maps_ok (fst (mrun cfg z es)).
Proof.
  induction es as [|e es IH]; intros z R W; [assumption|]. rewrite mrun_cons. cbn [fst]. apply IH; [now apply running_step|].
  now apply (mstep_map cfg z e).
Qed.
Lemma maps_ok_start : maps_ok start.
Proof. split; [split; [constructor|intros k id []]|]. intros [n|n]; discriminate. Qed.

(** A pipe that has left the map. *)
Definition gone (z : sys) (id : nat) : Prop := (id < length (c_heap (shared z)))%nat /\ ~ In id (map snd (c_pipes (shared z))).
Lemma gone_run cfg es id : forall z, running cfg z -> maps_ok z -> gone z id -> gone (fst (mrun cfg z es)) id.
Proof.
  induction es as [|e es IH]; intros z R W G; [assumption|]. rewrite mrun_cons. cbn [fst].
  destruct (mstep_map cfg z e R W) as (W' & L & P). apply IH; [now apply running_step|assumption|].
  destruct G as [G1 G2]. split; [lia|]. intros I. destruct (P id I) as [I'|I']; [contradiction|lia].
Qed.
Lemma gone_unwritten z id w : maps_ok z -> gone z id -> ~ In (Segments id) (writes (shared z) (at_ z w)).
Proof.
  intros [_ A] [G1 G2] I. destruct (at_ z w) as [| |c|c i|j] eqn:E; try contradiction. specialize (A w c i E).
  destruct i; cbn [writes In about_pipe] in *; repeat match goal with H : _ \/ _ |- _ => destruct H as [H|H] end; try discriminate; try contradiction.
  - injection I as I. lia.
  - injection I as ->. apply G2. apply klookup_in in A. apply in_map_iff. exists (pt_key p, id). auto.
Qed.

(** The slice Collect returns for a complete message is that of the pipe ([AtDelete]
    is where it is returned): from then on nobody writes to it, whatever is called,
    so that the caller may read it without a lock. *)
Theorem C65_result_unwritten : forall cfg es v c p id n es' w,
  let z := fst (mrun cfg start es) in
  at_ z v = Holding c (AtDelete p id) ->
  at_ (fst (mstep cfg z (Go v n))) v = Holding c (AtUnlock (OCollect (CReturn (Some (pipe_segs (shared z) id)) None))) /\
  let z' := fst (mrun cfg z (Go v n :: es')) in
  ~ In (Segments id) (writes (shared z') (at_ z' w)) /\ pipe_segs (shared z') id = pipe_segs (shared z) id.
Proof.
  intros cfg es v c p id n es' w z V.
  pose proof (running_run cfg start es (running_start cfg)) as R. fold z in R.
  pose proof (maps_ok_run cfg es start (running_start cfg) maps_ok_start) as W. fold z in W.
  split; [cbn [mstep]; rewrite V; cbn [micro fst at_]; now rewrite moves_same|].
  rewrite mrun_cons. cbn [fst]. set (z1 := fst (mstep cfg z (Go v n))).
  assert (R1 : running cfg z1) by now apply running_step.
  assert (W1 : maps_ok z1) by now apply (mstep_map cfg z (Go v n)).
  assert (S1 : shared z1 = with_map (shared z) (kdelete (c_pipes (shared z)) (pt_key p))).
  { unfold z1. cbn [mstep]. rewrite V. reflexivity. }
  assert (G : gone z1 id).
  { destruct W as [[N L] A]. specialize (A v c _ V). cbn [about_pipe] in A. pose proof (klookup_in _ _ _ A) as I.
    unfold gone. rewrite S1. cbn [with_map c_heap c_pipes]. split; [exact (L _ _ I)|]. intros F.
    apply in_map_iff in F as ([k' id'] & E & F). cbn in E. subst id'. apply in_kdelete in F as [F NE].
    apply NE. clear - N I F. induction (c_pipes (shared z)) as [|[k0 i0] l IH]; [contradiction|]. cbn [map snd] in N. inversion N as [|? ? N1 N2]; subst.
    destruct F as [F|F], I as [I|I]; [congruence| | |auto].
    - exfalso. injection F as -> ->. apply N1. apply in_map_iff. exists (pt_key p, id). auto.
    - exfalso. injection I as -> ->. apply N1. apply in_map_iff. exists (k', id). auto. }
  split; [apply gone_unwritten; [now apply maps_ok_run|now apply gone_run]|].
  transitivity (pipe_segs (shared z1) id); [|rewrite S1; reflexivity].
  assert (CT : content_of (shared (fst (mrun cfg z1 es'))) (Segments id) = content_of (shared z1) (Segments id)).
  { clear - R1 W1 G. revert R1 W1 G. generalize z1. clear z1. induction es' as [|e es' IH]; intros y R Y G; [reflexivity|].
    rewrite mrun_cons. cbn [fst]. rewrite IH; [|now apply running_step|now apply (mstep_map cfg y e)|].
    - apply C65_writes. intros u k ->. now apply gone_unwritten.
    - destruct (mstep_map cfg y e R Y) as (_ & L & P). destruct G as [G1 G2]. split; [lia|]. intros I. destruct (P id I) as [I'|I']; [contradiction|lia]. }
  cbn [content_of] in CT. injection CT as CT. unfold pipe_segs.
  destruct (nth_error (c_heap (shared (fst (mrun cfg z1 es')))) id), (nth_error (c_heap (shared z1)) id); cbn in CT; congruence.
Qed.
Print Assumptions C65_result_unwritten.

(** The callback of a timer that has fired runs the handler while a client is
    about to write the next segment: into the new pipe that took the place. *)
Definition ex_handling : list mevent :=
  call_all (Client 0) (CallCollect (ex_seg 0 7 3 1)) 9 ++ [Ring 0] ++
  [Invoke (Client 1) (CallCollect (ex_seg 1 7 3 2)); Acquire (Callback 0)] ++ go (Callback 0) 3 ++ [Acquire (Client 1)] ++ go (Client 1) 3.
Example C65_no_race_instance :
  let z := fst (mrun with_timeout start ex_handling) in
  In (Segments 1) (writes (shared z) (at_ z (Client 1))) /\ reads (shared z) (at_ z (Callback 0)) = [Segments 0].
Proof. vm_compute. auto. Qed.
(** The second of two segments: the client is about to return both. *)
Definition ex_returning : list mevent :=
  call_all (Client 0) (CallCollect (ex_seg 0 7 2 1)) 9 ++
  [Invoke (Client 1) (CallCollect (ex_seg 1 7 2 2)); Acquire (Client 1)] ++ go (Client 1) 6.
Example C65_result_unwritten_instance :
  let z := fst (mrun with_timeout start ex_returning) in
  exists c p, at_ z (Client 1) = Holding c (AtDelete p 0) /\ length (pipe_segs (shared z) 0) = 2%nat.
Proof. vm_compute. eexists _, _. split; reflexivity. Qed.
