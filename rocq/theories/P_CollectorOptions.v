(** C100: the options of a Collector. *)
From Coq Require Import Permutation.
From Verif Require Import GoBase GoLemmas Tpdu Collector CollectorOptions SpecCollect CollectorProofs CollectorMsgProofs P_Collect
  SpecAlone SpecClock ClockProofs P_Clock P_Tpdu.

(** The timeout and handler asked for: those of the last option, or none. *)
Definition asked_of (opts : list collector_opt) : Z * option nat :=
  last (map (fun o => match o with WithReassemblyTimeout d eh => (d, eh) end) opts) (0, None).

Theorem C100_last : forall opts, let c := new_collector_fields opts in (cl_duration c, cl_handler c) = asked_of opts.
Proof.
  intros opts. cbv zeta. destruct opts as [|o opts] using rev_ind; [reflexivity|]. clear IHopts.
  unfold new_collector_fields, asked_of. rewrite fold_left_app, map_app. cbn [fold_left map]. rewrite last_last.
  destruct o. reflexivity.
Qed.
Print Assumptions C100_last.
Lemma asked_cfg opts : cf_timeout (cfg_of (new_collector_fields opts)) = negb (fst (asked_of opts) =? 0).
Proof. rewrite <- C100_last. reflexivity. Qed.

(** Without a timeout, or with one of 0, the handler is never called and nothing
    is dropped: what Collect took it returns, or it is still held. *)
Theorem C100_untimed : forall opts es, fst (asked_of opts) = 0 ->
  let c := new_collector_fields opts in
  let '(s, os) := run (cfg_of c) new_collector es in
  flat_map (handler_call c) os = [] /\ c_timers s = [] /\
  Permutation (all_taken es os) (flat_map returned os ++ held s).
Proof.
  intros opts es H. cbv zeta. set (c := new_collector_fields opts).
  assert (cf_timeout (cfg_of c) = false) as TO by (unfold c; rewrite asked_cfg, H; reflexivity).
  pose proof (i_cfg _ _ _ (inv_run (cfg_of c) es new_collector (inv_new _)) TO) as NT.
  assert (forall cfg, cf_timeout cfg = false -> flat_map handled (snd (run cfg new_collector es)) = [] /\
            forall o l, In o (snd (run cfg new_collector es)) -> o <> OHandled l) as NH.
  { intros cfg T. generalize (inv_new cfg). generalize new_collector. clear - T. induction es as [|e es IH]; intros s I; [split; [reflexivity|intros ? ? []]|].
    cbn [run]. destruct (step cfg s e) as [s1 o] eqn:E. destruct (inv_step _ _ _ _ _ I E) as [I1 _]. specialize (IH s1 I1).
    destruct (run cfg s1 es) as [s2 os]. cbn [snd] in *. destruct IH as [A B].
    assert (forall l, o <> OHandled l) as N.
    { intros l ->. destruct e as [g| | |tid|tid|tid]; cbn [step] in E; try discriminate.
      - destruct (collect cfg s g); discriminate.
      - rewrite (i_cfg _ _ _ I T) in E. destruct tid; discriminate.
      - rewrite (i_cfg _ _ _ I T) in E. destruct tid; discriminate.
      - rewrite (i_cfg _ _ _ I T) in E. destruct tid; discriminate. }
    split.
    - cbn [flat_map]. rewrite A, app_nil_r. destruct o; try reflexivity. now destruct (N segs).
    - intros o' l [<-|X]; [apply N|now apply B]. }
  assert (exists rest, Permutation (all_taken es (snd (run (cfg_of c) new_collector es)))
            (flat_map returned (snd (run (cfg_of c) new_collector es)) ++ held (fst (run (cfg_of c) new_collector es)) ++
             pending (fst (run (cfg_of c) new_collector es)) ++ rest) /\ rest = []) as (rest & P & ->).
  { destruct (cf_handler (cfg_of c)) eqn:HH.
    - pose proof (C36_conservation (cfg_of c) es HH) as P. pose proof (proj1 (NH (cfg_of c) TO)) as Q.
      destruct (run (cfg_of c) new_collector es) as [s os]. cbn [fst snd] in *. eexists. split; [exact P|exact Q].
    - pose proof (C36_no_handler (cfg_of c) es HH) as P.
      pose proof (proj1 (NH {| cf_timeout := cf_timeout (cfg_of c); cf_handler := true |} TO)) as Q.
      destruct (run (cfg_of c) new_collector es) as [s os]. destruct (run _ new_collector es) as [s' os']. cbn [fst snd] in *.
      eexists. split; [exact (proj2 P)|exact Q]. }
  pose proof (proj2 (NH (cfg_of c) TO)) as B.
  destruct (run (cfg_of c) new_collector es) as [s os]. cbn [fst snd] in *. split; [|split; [exact NT|]].
  - clear - B. induction os as [|o os IH]; [reflexivity|]. cbn [flat_map]. rewrite IH by (intros o' l X; apply B; now right).
    rewrite app_nil_r. unfold handler_call. destruct (cl_handler c); [|reflexivity]. destruct o; try reflexivity.
    now destruct (B (OHandled segs) segs (or_introl eq_refl)).
  - unfold pending in P. rewrite NT in P. cbn [flat_map app] in P. now rewrite app_nil_r in P.
Qed.
Print Assumptions C100_untimed.

(** With any other timeout every incomplete message of an open Collector has its
    timer: when this runs out the message is removed, and given to the handler if
    there is one. *)
Theorem C100_timed : forall opts es k id, fst (asked_of opts) <> 0 ->
  let c := new_collector_fields opts in
  let s := fst (run (cfg_of c) new_collector es) in
  c_closed s = false -> In (k, id) (pipes s) ->
  exists tid, let '(s', os) := run (cfg_of c) s [EvFire tid; EvExpire tid; EvHandler tid] in
    ~ In (k, id) (pipes s') /\
    flat_map (handler_call c) os = match snd (asked_of opts) with Some h => [(h, pipe_segs s id)] | None => [] end.
Proof.
  intros opts es k id H. cbv zeta. intros OP IN. set (c := new_collector_fields opts) in *.
  assert (cf_timeout (cfg_of c) = true) as TO.
  { unfold c. rewrite asked_cfg. apply negb_true_iff. now apply Z.eqb_neq. }
  pose proof (inv_run (cfg_of c) es new_collector (inv_new _)) as I.
  assert (exists past st, length st = length (c_timers (fst (run (cfg_of c) new_collector es))) /\
            latest past st (fst (run (cfg_of c) new_collector es))) as (past & st & _ & LA).
  { assert (forall s past st, Inv (cfg_of c) None s -> length st = length (c_timers s) -> latest past st s ->
      exists past' st', length st' = length (c_timers (fst (run (cfg_of c) s es))) /\ latest past' st' (fst (run (cfg_of c) s es))) as G.
    { clear - TO. induction es as [|e es IH]; intros s past st I L LA; [cbn; eauto|]. cbn [run].
      destruct (step (cfg_of c) s e) as [s1 o] eqn:E. destruct (inv_step _ _ _ _ _ I E) as [I1 _].
      pose proof (started_length _ _ _ _ _ 0 _ I E L) as L1. pose proof (latest_step _ past st _ _ _ _ 0 TO I L LA E) as LA1.
      specialize (IH s1 _ _ I1 L1 LA1). destruct (run (cfg_of c) s1 es). exact IH. }
    apply (G new_collector [] [] (inv_new _) eq_refl). intros k' id' []. }
  set (s := fst (run (cfg_of c) new_collector es)) in *.
  destruct (LA k id IN) as (p & j & t0 & g & EP & PC & _).
  destruct (i_cleanup _ _ _ I k id p j IN EP PC) as (tm & ET & TP & TK & TS).
  exists j. assert (tm_state tm = TActive \/ tm_state tm = TFired) as TS' by (destruct TS as [?|[?|([?|?] & ?)]]; auto; congruence).
  assert (exists s1, step (cfg_of c) s (EvFire j) = (s1, ONone) /\ c_pipes s1 = c_pipes s /\ c_heap s1 = c_heap s /\
            exists tm1, nth_error (c_timers s1) j = Some tm1 /\ tm_pipe tm1 = id /\ tm_key tm1 = k /\ tm_state tm1 = TFired) as (s1 & E1 & CP & CH & tm1 & T1 & T2 & T3 & T4).
  { cbn [step]. rewrite ET. destruct TS' as [A|A]; rewrite A.
    - eexists. split; [reflexivity|]. split; [reflexivity|]. split; [reflexivity|]. unfold set_timer. cbn [c_timers].
      eexists. split; [eapply nth_upd_same; exact ET|]. auto.
    - exists s. repeat split; auto. exists tm. auto. }
  destruct (inv_step _ _ _ _ _ I E1) as [I1 _].
  cbn [run]. rewrite E1. cbn [step]. rewrite T1, T4.
  assert (expire_pipe s1 tm1 = {| c_closed := c_closed s1; c_pipes := kdelete (c_pipes s1) k; c_heap := c_heap s1; c_timers := c_timers s1 |}) as EE.
  { unfold expire_pipe. rewrite T3.
    assert (klookup (c_pipes s1) k = Some id) as -> by (apply klookup_nodup; [exact (i_keys _ _ _ I1)|rewrite CP; exact IN]).
    rewrite T2, Nat.eqb_refl. reflexivity. }
  rewrite EE. unfold set_timer. cbn [c_timers c_pipes c_heap c_closed].
  rewrite (nth_upd_same _ _ _ _ T1). cbn [tm_state tm_pipe tm_key].
  split.
  - cbn [pipes c_pipes]. intros X. unfold kdelete in X. apply filter_In in X as [_ X]. cbn [fst] in X.
    unfold key_eqb in X. destruct (list_eq_dec Z.eq_dec k k); [discriminate|contradiction].
  - rewrite <- C100_last. cbn [snd]. fold c. unfold cfg_of. cbn [cf_handler]. destruct (cl_handler c) as [h|] eqn:EH.
    + cbn [flat_map]. unfold handler_call. rewrite EH. cbn [app]. unfold pipe_segs. cbn [c_heap]. rewrite CH, T2. reflexivity.
    + cbn [flat_map]. unfold handler_call. rewrite EH. reflexivity.
Qed.
Print Assumptions C100_timed.

(** A handler only looks on: without one all calls return the same. *)
Theorem C100_handler_looks_on : forall d h es,
  let c := {| cl_duration := d; cl_handler := h |} in
  let c' := {| cl_duration := d; cl_handler := None |} in
  let quiet o := match o with OHandled _ => ONone | _ => o end in
  let '(s, os) := run (cfg_of c) new_collector es in
  let '(s', os') := run (cfg_of c') new_collector es in
  s' = s /\ os' = map quiet os.
Proof.
  intros d h es. cbv zeta. set (c := {| cl_duration := d; cl_handler := h |}). set (c' := {| cl_duration := d; cl_handler := None |}).
  generalize new_collector. induction es as [|e es IH]; intros s; [cbn; auto|]. cbn [run].
  assert (step (cfg_of c') s e = (fst (step (cfg_of c) s e), match snd (step (cfg_of c) s e) with OHandled _ => ONone | o => o end)) as ->.
  { assert (forall g, collect (cfg_of c') s g = collect (cfg_of c) s g) as EC by reflexivity.
    destruct e as [g| | |tid|tid|tid]; cbn [step]; try reflexivity.
    - rewrite EC. destruct (collect (cfg_of c) s g). reflexivity.
    - destruct (nth_error (c_timers s) tid) as [tm|]; [destruct (tm_state tm)|]; reflexivity.
    - destruct (nth_error (c_timers s) tid) as [tm|]; [destruct (tm_state tm)|]; reflexivity.
    - destruct (nth_error (c_timers s) tid) as [tm|]; [destruct (tm_state tm)|]; try reflexivity.
      cbn [cfg_of cf_handler c c' cl_handler]. destruct h; reflexivity. }
  destruct (step (cfg_of c) s e) as [s1 o]. cbn [fst snd]. specialize (IH s1).
  destruct (run (cfg_of c) s1 es) as [s2 os]. destruct (run (cfg_of c') s1 es) as [s3 os']. destruct IH as [-> ->].
  split; [reflexivity|]. cbn [map]. f_equal. now destruct o.
Qed.
Print Assumptions C100_handler_looks_on.

(** A timeout below 0 runs out as soon as it is set.  If timers are on time,
    Collect then never returns a message of several segments. *)
Theorem C100_negative : forall opts h t g l err, fst (asked_of opts) < 0 ->
  let cfg := cfg_of (new_collector_fields opts) in
  history (on_time (fst (asked_of opts))) cfg (h ++ [(t, EvCollect g)]) ->
  snd (step cfg (fst (run cfg new_collector (map snd h))) (EvCollect g)) = OCollect (CReturn (Some l) err) ->
  l = [Some g].
Proof.
  intros opts h t g l err N. cbv zeta. intros HH HS.
  assert (cf_timeout (cfg_of (new_collector_fields opts)) = true) as TO.
  { rewrite asked_cfg. apply negb_true_iff. apply Z.eqb_neq. lia. }
  set (cfg := cfg_of (new_collector_fields opts)) in *. set (d := fst (asked_of opts)) in *.
  pose proof (C87_not_kept cfg d h t g [] TO HH) as NK. cbv zeta in NK.
  set (s := fst (run cfg new_collector (map snd h))) in *.
  cbn [step] in HS. destruct (collect cfg s g) as [s' r] eqn:EC. cbn [snd] in HS. assert (r = CReturn (Some l) err) as -> by congruence.
  unfold collect in EC. destruct (c_closed s) eqn:CL; [congruence|].
  destruct (tpdu_concat_info (sg_pdu g)) as [[[n i] ref]|]; [|congruence].
  destruct (n <? 2) eqn:N2; [congruence|]. apply Z.ltb_ge in N2. destruct (_ || _)%bool; [congruence|].
  destruct (pdu_key (sg_pdu g) n ref) as [key e]. exfalso.
  assert (forall k id, ~ In (k, id) (c_pipes s)) as NP.
  { intros k id X. destruct (NK eq_refl k id X) as (x & t' & _ & Y & LT).
    assert (t' <= t); [|lia]. destruct HH as (now & HH). clear - HH Y.
    revert HH. generalize new_collector (@nil Z) now. induction h as [|[t1 e1] h IH]; intros s0 st0 now0 HH; [destruct Y|].
    cbn [app keeps] in HH. destruct HH as (A & _ & HH). destruct Y as [Y|Y]; [|eapply IH; eauto].
    assert (t1 = t') as -> by congruence. clear - HH. revert HH.
    generalize (fst (step cfg s0 e1)) (started s0 (fst (step cfg s0 e1)) t' st0). revert t'.
    induction h as [|[t2 e2] h IH]; intros t' s1 st1 HH; cbn [app keeps] in HH; [apply HH|].
    destruct HH as (A & _ & HH). specialize (IH _ _ _ HH). lia. }
  assert (klookup (c_pipes s) key = None) as KN.
  { destruct (klookup (c_pipes s) key) eqn:K; [|reflexivity]. apply klookup_in in K. now apply NP in K. }
  rewrite KN in EC. unfold new_pipe, store in EC. cbn [c_heap] in EC.
  rewrite nth_error_app2, Nat.sub_diag in EC by lia. cbn [nth_error p_frags p_segs] in EC.
  replace (0 + 1 =? n) with false in EC by (symmetry; apply Z.eqb_neq; lia).
  rewrite TO in EC. congruence.
Qed.
Print Assumptions C100_negative.

(** Two options, of which the second counts: its handler is called for a segment
    that stays alone.  With a timeout of 0 it stays. *)
Example C100_instance :
  let opts := [WithReassemblyTimeout 5 (Some 1%nat); WithReassemblyTimeout 7 (Some 2%nat)] in
  let c := new_collector_fields opts in
  let es := [EvCollect (ex_seg 0 7 2 1)] in
  asked_of opts = (7, Some 2%nat) /\
  c_closed (fst (run (cfg_of c) new_collector es)) = false /\
  map snd (pipes (fst (run (cfg_of c) new_collector es))) = [0%nat] /\
  flat_map (handler_call c) (snd (run (cfg_of c) new_collector (es ++ [EvFire 0; EvExpire 0; EvHandler 0]))) =
    [(2%nat, [Some (ex_seg 0 7 2 1); None])] /\
  let c0 := new_collector_fields (opts ++ [WithReassemblyTimeout 0 (Some 3%nat)]) in
  let '(s, os) := run (cfg_of c0) new_collector (es ++ [EvFire 0; EvExpire 0; EvHandler 0]) in
  flat_map (handler_call c0) os = [] /\ held s = [ex_seg 0 7 2 1].
Proof. vm_compute. repeat split; reflexivity. Qed.
(** The time of the first part of a message is up at once, so that the second
    does not complete it; a message of one part is returned. *)
Definition negative_opts : list collector_opt := [WithReassemblyTimeout (-1) None].
Definition negative_history : list (Z * event) :=
  [(0, EvCollect (ex_seg 0 7 2 1)); (0, EvFire 0); (0, EvExpire 0); (0, EvHandler 0)].
Example C100_negative_instance :
  let cfg := cfg_of (new_collector_fields negative_opts) in
  fst (asked_of negative_opts) < 0 /\
  history (on_time (-1)) cfg (negative_history ++ [(0, EvCollect (ex_seg 1 7 2 2))]) /\
  history (on_time (-1)) cfg (negative_history ++ [(0, EvCollect {| sg_id := 1; sg_pdu := set_UDHf ex_deliver None |})]) /\
  snd (step cfg (fst (run cfg new_collector (map snd negative_history))) (EvCollect (ex_seg 1 7 2 2))) = OCollect (CReturn None None) /\
  snd (step cfg (fst (run cfg new_collector (map snd negative_history))) (EvCollect {| sg_id := 1; sg_pdu := set_UDHf ex_deliver None |})) =
    OCollect (CReturn (Some [Some {| sg_id := 1; sg_pdu := set_UDHf ex_deliver None |}]) None).
Proof.
  split; [reflexivity|]. split; [|split; [|split; vm_compute; reflexivity]];
    (exists 0; apply (keeps_b_ok _ (on_time_b (-1))); [apply on_time_b_ok|vm_compute; reflexivity]).
Qed.
