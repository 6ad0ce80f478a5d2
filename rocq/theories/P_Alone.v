(** C76: a Collector treats each message as if it were the only one. *)
From Coq Require Import Permutation.
From Verif Require Import GoBase GoLemmas Address UserData Tpdu Collector SpecCollect CollectorProofs CollectorMsgProofs
  CollectorOrderProofs CollectorHistProofs P_Collect SpecAlone AloneProofs.

(** In any history the answers to the segments of a message are those of the
    machine that is told only what concerns the message, and what Pipes shows of
    the message in the end is what that machine holds. *)
Theorem C76_alone : forall cfg m es, proper_message m -> Forall typed_event es ->
  let '(s, os) := run cfg new_collector es in
  let '(r, answers) := reacts m m_start (view cfg m new_collector es) in
  replies m es os = answers /\ c_closed s = r_closed r /\
  forall l, (exists k id, In (k, id) (pipes s) /\ pipe_segs s id = l /\ has_part m l = true) <->
            (r_got r <> [] /\ l = in_order (m_total m) (r_got r)).
Proof.
  intros cfg m es MO SE.
  assert (MI : MInv new_collector) by (intros k id []).
  destruct (alone cfg m MO es new_collector m_start (inv_new cfg) MI SE (sim_start m MO)) as (A & B & I & M).
  destruct (run cfg new_collector es) as [s os]. destruct (reacts m m_start (view cfg m new_collector es)) as [r answers].
  cbn [fst snd] in *. destruct B as (B1 & B2 & B3 & B4). split; [exact A|]. split; [exact B1|]. intros l. split.
  - intros (k & id & IN & <- & HP). unfold pipes in IN. pose proof (shown_key m s k id M IN HP) as ->.
    pose proof (klookup_nodup _ _ _ (i_keys _ _ _ I) IN) as LK.
    destruct B4 as [(_ & _ & F)|(NE & id' & p & (LK' & HH) & PS & _)]; [unfold absent in F; congruence|].
    assert (id' = id) by congruence. subst id'. split; [exact NE|].
    rewrite (pipe_segs_nth _ _ _ HH), PS. now apply place_in_order.
  - intros (NE & ->). destruct B4 as [(F & _)|(_ & id & p & (LK & HH) & PS & _)]; [contradiction|].
    assert (E : pipe_segs s id = in_order (m_total m) (r_got r)).
    { rewrite (pipe_segs_nth _ _ _ HH), PS. now apply place_in_order. }
    exists (key_of m), id. split; [now apply klookup_in|]. split; [exact E|]. rewrite <- E. now apply key_shown.
Qed.
Print Assumptions C76_alone.

(** So two histories in which the same happens to a message give its segments the
    same answers, whatever else is collected, at whatever settings. *)
Theorem C76_no_interference : forall cfg cfg' m es es', proper_message m ->
  Forall typed_event es -> Forall typed_event es' ->
  view cfg m new_collector es = view cfg' m new_collector es' ->
  replies m es (snd (run cfg new_collector es)) = replies m es' (snd (run cfg' new_collector es')).
Proof.
  intros cfg cfg' m es es' MO SE SE' E. pose proof (C76_alone cfg m es MO SE) as A. pose proof (C76_alone cfg' m es' MO SE') as B.
  rewrite <- E in B. destruct (run cfg new_collector es) as [s os]. destruct (run cfg' new_collector es') as [s' os'].
  destruct (reacts m m_start (view cfg m new_collector es)) as [r answers]. cbn [snd].
  transitivity answers; [apply A|symmetry; apply B].
Qed.
Print Assumptions C76_no_interference.

(** If the Collector has no timeout, what concerns a message is its segments and
    Close. *)
Theorem C76_view_untimed : forall cfg m es, cf_timeout cfg = false ->
  view cfg m new_collector es =
    flat_map (fun e => match e with
                       | EvCollect g => match seg_no m g with Some i => [MPart i g] | None => [] end
                       | EvClose => [MClosed]
                       | _ => []
                       end) es.
Proof.
  intros cfg m es NT. assert (G : forall s, Inv cfg None s -> view cfg m s es =
    flat_map (fun e => match e with
                       | EvCollect g => match seg_no m g with Some i => [MPart i g] | None => [] end
                       | EvClose => [MClosed]
                       | _ => []
                       end) es); [|apply G, inv_new].
  induction es as [|e es IH]; intros s I; [reflexivity|]. cbn [view flat_map].
  destruct (step cfg s e) as [s1 o] eqn:E. cbn [fst]. rewrite (IH s1) by (now apply (inv_step cfg s e s1 o I E)). f_equal.
  pose proof (i_cfg _ _ _ I NT) as T0. destruct e as [g| | |tid|tid|tid]; cbn [concerns]; try reflexivity;
    rewrite T0; destruct tid; reflexivity.
Qed.
Print Assumptions C76_view_untimed.

(** Segments that come more than once: while one is missing, a repeated one is
    refused; when the last one missing comes, Collect returns the first copies in
    order.  [ps] is what is collected of the message before. *)
Lemma slot_none got j : slot got j = None <-> existsb (fun ig => fst ig =? j) got = false.
Proof.
  unfold slot. induction got as [|[i g] got IH]; cbn; [tauto|]. destruct (i =? j); cbn; [|exact IH]. split; discriminate.
Qed.
Lemma existsb_fst j (l : list (Z * seg)) : existsb (fun ig => fst ig =? j) l = true <-> In j (map fst l).
Proof.
  rewrite existsb_exists, in_map_iff. split; intros (x & A & B).
  - apply Z.eqb_eq in B. eauto.
  - exists x. split; [exact B|]. subst. apply Z.eqb_refl.
Qed.
Lemma slot_app a b j : slot (a ++ b) j = match slot a j with Some g => Some g | None => slot b j end.
Proof. unfold slot. induction a as [|[i g] a IH]; cbn; [reflexivity|]. destruct (i =? j); [reflexivity|exact IH]. Qed.
Lemma slot_cons i g l j : slot ((i, g) :: l) j = if i =? j then Some g else slot l j.
Proof. unfold slot. cbn. now destruct (i =? j). Qed.
Lemma reacts_app m a : forall r b,
  reacts m r (a ++ b) = (fst (reacts m (fst (reacts m r a)) b), snd (reacts m r a) ++ snd (reacts m (fst (reacts m r a)) b)).
Proof.
  induction a as [|e a IH]; intros r b; cbn [app reacts fst snd]; [now destruct (reacts m r b)|].
  destruct (react m r e) as [r1 o]. rewrite IH. destruct (reacts m r1 a) as [r2 os]. cbn [fst snd]. now rewrite app_assoc.
Qed.
Definition refused (ps : list (Z * seg)) (k : nat) (p : Z * seg) : bool :=
  existsb (fun q => fst q =? fst p) (firstn k ps).
Definition part_of (p : Z * seg) : m_event := MPart (fst p) (snd p).

Lemma numbered_few n i got : numbered n (rev got) -> 1 <= i <= Z.of_nat n -> ~ In i (map fst got) -> (length got < n)%nat.
Proof.
  intros (ND & FA) RI NI.
  assert (L : (length (i :: map fst (rev got)) <= length (map Z.of_nat (seq 1 n)))%nat).
  { apply NoDup_incl_length.
    - constructor; [|exact ND]. rewrite map_rev, <- in_rev. exact NI.
    - intros x [<- |H].
      + apply in_map_iff. exists (Z.to_nat i). split; [lia|]. apply in_seq. lia.
      + apply in_map_iff in H as ([j g] & <- & H). rewrite Forall_forall in FA. apply FA in H. cbn [fst] in *.
        apply in_map_iff. exists (Z.to_nat j). split; [lia|]. apply in_seq. lia. }
  cbn [length] in L. rewrite !map_length, seq_length, rev_length in L. lia.
Qed.
Lemma reacts_repeated m i : 1 <= i <= m_total m -> forall ps,
  Forall (fun p => 1 <= fst p <= m_total m) ps -> ~ In i (map fst ps) ->
  let r := fst (reacts m m_start (map part_of ps)) in
  numbered (Z.to_nat (m_total m)) (rev (r_got r)) /\ r_late r = false /\ r_closed r = false /\
  (forall j, slot (r_got r) j = slot ps j) /\
  length (snd (reacts m m_start (map part_of ps))) = length ps /\
  forall k p, nth_error ps k = Some p -> nth_error (snd (reacts m m_start (map part_of ps))) k =
    Some (OCollect (CReturn None (if refused ps k p then Some ErrDuplicateSegment else None))).
Proof.
  intros RI ps. induction ps as [|[j g] ps IH] using rev_ind; intros FA NI.
  { cbn. repeat split; try constructor. intros [|k] p H; discriminate. }
  apply Forall_app in FA as (FA & F1). apply Forall_inv in F1. cbn [fst] in F1.
  rewrite map_app in NI. cbn [map fst] in NI. rewrite in_app_iff in NI. cbn in NI.
  destruct (IH FA ltac:(tauto)) as (NU & LT & CL & SL & LE & AN). clear IH.
  rewrite map_app, reacts_app. cbn [map fst snd]. set (r := fst (reacts m m_start (map part_of ps))) in *.
  set (os := snd (reacts m m_start (map part_of ps))) in *.
  change (part_of (j, g)) with (MPart j g). cbn [reacts fst snd].
  assert (NI' : ~ In i (map fst (r_got r))).
  { intros H. apply existsb_fst in H. destruct (slot (r_got r) i) as [x|] eqn:E.
    - rewrite SL in E. assert (N : slot ps i = None); [|congruence]. apply slot_none.
      apply not_true_iff_false. rewrite existsb_fst. tauto.
    - apply slot_none in E. congruence. }
  assert (EQ : existsb (fun ig => fst ig =? j) (r_got r) = existsb (fun ig => fst ig =? j) ps).
  { destruct (existsb (fun ig => fst ig =? j) ps) eqn:E.
    - apply not_false_iff_true. rewrite <- slot_none, SL, slot_none, E. discriminate.
    - rewrite <- slot_none, SL, slot_none. exact E. }
  assert (RE : refused (ps ++ [(j, g)]) (length ps) (j, g) = existsb (fun ig => fst ig =? j) ps).
  { unfold refused. rewrite firstn_app, Nat.sub_diag, firstn_all. cbn [firstn fst]. now rewrite app_nil_r. }
  assert (AN' : forall o, (o = OCollect (CReturn None (if existsb (fun ig => fst ig =? j) ps then Some ErrDuplicateSegment else None))) ->
    length (os ++ [o]) = length (ps ++ [(j, g)]) /\
    forall k p, nth_error (ps ++ [(j, g)]) k = Some p -> nth_error (os ++ [o]) k =
      Some (OCollect (CReturn None (if refused (ps ++ [(j, g)]) k p then Some ErrDuplicateSegment else None)))).
  { intros o ->. split; [rewrite !app_length, LE; reflexivity|]. intros k p H.
    destruct (Nat.lt_ge_cases k (length ps)) as [L|L].
    - rewrite nth_error_app1 in H by exact L. rewrite nth_error_app1 by (rewrite LE; exact L). rewrite (AN k p H).
      unfold refused. rewrite firstn_app. replace (k - length ps)%nat with 0%nat by lia. cbn [firstn]. now rewrite app_nil_r.
    - assert (K : k = length ps).
      { assert (k < length (ps ++ [(j, g)]))%nat by (apply nth_error_Some; congruence). rewrite app_length in *. cbn in *. lia. }
      subst k. rewrite nth_error_app2, Nat.sub_diag in H by lia. injection H as <-. rewrite RE.
      rewrite nth_error_app2 by lia. now rewrite LE, Nat.sub_diag. }
  cbn [react]. rewrite CL, LT. replace (negb ((1 <=? j) && (j <=? m_total m))) with false by lia. rewrite EQ.
  destruct (existsb (fun ig => fst ig =? j) ps) eqn:DUP.
  - cbn [fst snd app]. split; [exact NU|]. split; [exact LT|]. split; [exact CL|]. split; [|now apply AN'].
    intros k. rewrite SL, slot_app. destruct (slot ps k) as [x|] eqn:E; [reflexivity|]. rewrite slot_cons.
    destruct (Z.eqb_spec j k) as [->|N]; [|reflexivity]. apply slot_none in E. congruence.
  - assert (NU1 : numbered (Z.to_nat (m_total m)) (rev ((j, g) :: r_got r))).
    { apply numbered_rev_cons. split; [exact NU|]. split; [lia|exact EQ]. }
    assert (FEW : (length ((j, g) :: r_got r) < Z.to_nat (m_total m))%nat).
    { apply (numbered_few _ i); [exact NU1|lia|]. cbn. tauto. }
    cbn [length] in FEW. replace (len (r_got r) + 1 =? m_total m) with false by (unfold len; lia).
    cbn [fst snd app r_got r_late r_closed]. split; [exact NU1|]. split; [reflexivity|]. split; [reflexivity|].
    split; [|now apply AN'].
    intros k. rewrite slot_cons, slot_app, slot_cons, SL. destruct (Z.eqb_spec j k) as [<-|N].
    + apply slot_none in DUP. now rewrite DUP.
    + now destruct (slot ps k).
Qed.

Theorem C76_repeated : forall cfg m es ps i g, proper_message m -> Forall typed_event es ->
  view cfg m new_collector es = map part_of (ps ++ [(i, g)]) ->
  Forall (fun p => 1 <= fst p <= m_total m) ps ->
  (forall j, 1 <= j <= m_total m -> j <> i -> In j (map fst ps)) -> 1 <= i <= m_total m -> ~ In i (map fst ps) ->
  exists early gs,
    replies m es (snd (run cfg new_collector es)) = early ++ [OCollect (CReturn (Some (map Some gs)) None)] /\
    length early = length ps /\
    (forall k p, nth_error ps k = Some p -> nth_error early k =
       Some (OCollect (CReturn None (if refused ps k p then Some ErrDuplicateSegment else None)))) /\
    length gs = Z.to_nat (m_total m) /\
    forall j, 1 <= j <= m_total m -> nth_error gs (Z.to_nat (j - 1)) = slot (ps ++ [(i, g)]) j.
Proof.
  intros cfg m es ps i g MO SE HV FA ALL RI NI. pose proof (C76_alone cfg m es MO SE) as A. rewrite HV, map_app in A.
  cbn [map] in A. destruct (reacts_repeated m i RI ps FA NI) as (NU & LT & CL & SL & LE & AN).
  destruct (run cfg new_collector es) as [s os]. rewrite reacts_app in A.
  set (r := fst (reacts m m_start (map part_of ps))) in *. set (early := snd (reacts m m_start (map part_of ps))) in *.
  destruct A as (A & _). cbn [snd]. rewrite A. clear A s os. unfold part_of. cbn [fst snd reacts react]. rewrite CL, LT.
  replace (negb ((1 <=? i) && (i <=? m_total m))) with false by lia.
  assert (NX : existsb (fun ig => fst ig =? i) (r_got r) = false).
  { rewrite <- slot_none, SL, slot_none. apply not_true_iff_false. rewrite existsb_fst. exact NI. }
  rewrite NX.
  assert (LN : len (r_got r) + 1 = m_total m).
  { assert (L1 : (length (r_got r) < Z.to_nat (m_total m))%nat).
    { apply (numbered_few _ i); [exact NU|lia|]. rewrite <- existsb_fst, NX. discriminate. }
    assert (L2 : (length (map Z.of_nat (seq 1 (Z.to_nat (m_total m)))) <= length (i :: map fst (r_got r)))%nat).
    { apply NoDup_incl_length.
      - apply FinFun.Injective_map_NoDup; [|apply seq_NoDup]. intros a b. lia.
      - intros x H. apply in_map_iff in H as (k & <- & H). apply in_seq in H.
        destruct (Z.eq_dec (Z.of_nat k) i) as [->|N]; [now left|]. right.
        assert (H' : In (Z.of_nat k) (map fst ps)) by (apply ALL; lia).
        apply existsb_fst in H'. apply existsb_fst. apply not_false_iff_true. rewrite <- slot_none, SL, slot_none, H'. discriminate. }
    cbn [length] in L2. rewrite !map_length, seq_length in L2. unfold len. lia. }
  replace (len (r_got r) + 1 =? m_total m) with true by lia. cbn [fst snd app].
  set (got := (i, g) :: r_got r).
  assert (SG : forall j, slot got j = slot (ps ++ [(i, g)]) j).
  { intros j. unfold got. rewrite slot_cons, slot_app, slot_cons, SL. destruct (Z.eqb_spec i j) as [<-|N].
    - rewrite (proj2 (slot_none ps i)); [reflexivity|]. apply not_true_iff_false. rewrite existsb_fst. exact NI.
    - now destruct (slot ps j). }
  assert (FULL : forall j, 1 <= j <= m_total m -> exists x, slot got j = Some x).
  { intros j Hj. destruct (slot got j) as [x|] eqn:E; [eauto|]. exfalso. rewrite SG in E. apply slot_none in E.
    rewrite <- not_true_iff_false, existsb_fst, map_app, in_app_iff in E. cbn in E.
    destruct (Z.eq_dec j i) as [->|N]; [tauto|]. apply E. left. now apply ALL. }
  assert (EX : exists gs, in_order (m_total m) got = map Some gs).
  { unfold in_order. assert (G : forall l, (forall k, In k l -> 1 <= Z.of_nat k <= m_total m) ->
      exists gs, map (fun k => slot got (Z.of_nat k)) l = map Some gs).
    { induction l as [|k l IHl]; intros Hl; [exists []; reflexivity|]. destruct IHl as (gs & E); [intros; apply Hl; now right|].
      destruct (FULL (Z.of_nat k)) as (x & Ex); [apply Hl; now left|]. exists (x :: gs). cbn [map]. now rewrite E, Ex. }
    apply G. intros k Hk. apply in_seq in Hk. lia. }
  destruct EX as (gs & EG). exists early, gs. rewrite EG. split; [reflexivity|]. split; [exact LE|]. split; [exact AN|].
  split. { rewrite <- (map_length Some gs), <- EG. unfold in_order. now rewrite map_length, seq_length. }
  intros j Hj. rewrite <- SG. destruct (FULL j Hj) as (x & Ex). rewrite Ex.
  assert (H : nth_error (map Some gs) (Z.to_nat (j - 1)) = Some (Some x)).
  { rewrite <- EG. unfold in_order. rewrite nth_error_map, (nth_error_nth' _ 0%nat) by (rewrite seq_length; lia).
    rewrite seq_nth by lia. cbn [option_map]. replace (Z.of_nat (1 + Z.to_nat (j - 1))) with j by lia. now rewrite Ex. }
  rewrite nth_error_map in H. destruct (nth_error gs (Z.to_nat (j - 1))); [|discriminate]. cbn in H. congruence.
Qed.
Print Assumptions C76_repeated.

(** A history with a repeated segment, another message, a reassembly that is
    given up while the callback is late, and Close. *)
Definition alone_history : list event :=
  [EvCollect (ex_seg 0 7 3 3); EvCollect (ex_seg 1 9 2 1); EvCollect (ex_seg 2 7 3 3); EvFire 0;
   EvCollect (ex_other 9 7 3 1);
   EvCollect (ex_seg 3 7 3 3); EvCollect (ex_seg 4 7 3 1); EvExpire 0; EvCollect (ex_seg 5 7 3 2);
   EvCollect (ex_seg 6 7 3 4); EvFire 4; EvExpire 4; EvCollect (ex_seg 7 7 3 2); EvClose; EvCollect (ex_seg 8 7 3 1)].
Example C76_instance :
  proper_message ex_msg /\ Forall typed_event alone_history /\
  view with_timeout ex_msg new_collector alone_history =
    [MPart 3 (ex_seg 0 7 3 3); MPart 3 (ex_seg 2 7 3 3); MLate; MPart 3 (ex_seg 3 7 3 3); MPart 1 (ex_seg 4 7 3 1);
     MPart 2 (ex_seg 5 7 3 2); MPart 4 (ex_seg 6 7 3 4); MLate; MRemoved; MPart 2 (ex_seg 7 7 3 2); MClosed;
     MPart 1 (ex_seg 8 7 3 1)] /\
  replies ex_msg alone_history (snd (run with_timeout new_collector alone_history)) =
    map (fun err => OCollect (CReturn None err))
      [None; Some ErrDuplicateSegment; Some ErrDuplicateSegment; None; None; Some ErrReassemblyInconsistency; None;
       Some ErrClosed].
Proof.
  split; [split; [right; reflexivity|unfold is_byte; cbn; lia]|]. split.
  { repeat (constructor; [try exact I; repeat split; cbn; try lia; repeat constructor; unfold is_byte; lia|]). constructor. }
  split; vm_compute; reflexivity.
Qed.
Example C76_repeated_instance :
  let ps := [(2, ex_seg 0 7 3 2); (2, ex_seg 1 7 3 2); (1, ex_seg 2 7 3 1)] in
  let es := map (fun p => EvCollect (snd p)) (ps ++ [(3, ex_seg 3 7 3 3)]) in
  view with_timeout ex_msg new_collector es = map part_of (ps ++ [(3, ex_seg 3 7 3 3)]) /\
  replies ex_msg es (snd (run with_timeout new_collector es)) =
    [OCollect (CReturn None None); OCollect (CReturn None (Some ErrDuplicateSegment)); OCollect (CReturn None None);
     OCollect (CReturn (Some [Some (ex_seg 2 7 3 1); Some (ex_seg 0 7 3 2); Some (ex_seg 3 7 3 3)]) None)].
Proof. split; vm_compute; reflexivity. Qed.
