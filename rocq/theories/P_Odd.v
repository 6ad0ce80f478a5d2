(** C86: parts of TPDUs that are neither SUBMIT nor DELIVER share one pile. *)
From Verif Require Import GoBase GoLemmas Address UserData Tpdu Collector SpecCollect CollectorProofs CollectorMsgProofs
  CollectorOrderProofs CollectorHistProofs SpecAlone AloneProofs P_Tpdu P_Collect CmdProofs SpecOdd OddProofs.

(** In any history the answers to such parts are those of the machine with one
    pile, and what Pipes shows of them in the end is that pile, under the empty
    key. *)
Theorem C86_pile : forall cfg es, Forall typed_event es ->
  let '(s, os) := run cfg new_collector es in
  let '(r, answers) := o_reacts o_start (o_view cfg new_collector es) in
  odd_replies es os = answers /\ c_closed s = o_closed r /\
  (forall k l, (exists id, In (k, id) (pipes s) /\ pipe_segs s id = l /\ has_odd l = true) <->
               (k = [] /\ o_pile r = Some l)).
Proof.
  intros cfg es SE.
  assert (MI : MInv new_collector) by (intros k id []).
  destruct (piled cfg es new_collector o_start (inv_new cfg) MI SE osim_start) as (A & (B1 & B2) & I & M).
  destruct (run cfg new_collector es) as [s os]. destruct (o_reacts o_start (o_view cfg new_collector es)) as [r answers].
  cbn [fst snd] in *. split; [exact A|]. split; [exact B1|]. intros k l. split.
  - intros (id & IN & <- & HP). unfold pipes in IN. pose proof (pile_key s k id M IN HP) as ->. split; [reflexivity|].
    pose proof (klookup_nodup _ _ _ (i_keys _ _ _ I) IN) as LK. destruct (o_pile r) as [l|]; [|destruct B2; congruence].
    destruct B2 as (id' & p & LK' & HH & PS & _). assert (id' = id) by congruence. subst id'.
    rewrite (pipe_segs_nth _ _ _ HH). now rewrite PS.
  - intros (-> & E). rewrite E in B2. destruct B2 as (id & p & LK & HH & PS & _). exists id.
    assert (EP : pipe_segs s id = l) by now rewrite (pipe_segs_nth _ _ _ HH).
    split; [now apply klookup_in|]. split; [exact EP|]. rewrite <- EP. now apply key_pile.
Qed.
Print Assumptions C86_pile.

(** Two histories in which the same happens to the pile give the same answers,
    whatever messages are collected. *)
Theorem C86_no_interference : forall cfg cfg' es es', Forall typed_event es -> Forall typed_event es' ->
  o_view cfg new_collector es = o_view cfg' new_collector es' ->
  odd_replies es (snd (run cfg new_collector es)) = odd_replies es' (snd (run cfg' new_collector es')).
Proof.
  intros cfg cfg' es es' SE SE' E. pose proof (C86_pile cfg es SE) as A. pose proof (C86_pile cfg' es' SE') as B.
  rewrite <- E in B. destruct (run cfg new_collector es) as [s os]. destruct (run cfg' new_collector es') as [s' os'].
  destruct (o_reacts o_start (o_view cfg new_collector es)) as [r answers]. cbn [snd].
  transitivity answers; [apply A|symmetry; apply B].
Qed.
Print Assumptions C86_no_interference.

(** If the Collector has no timeout, what concerns the pile is the parts and
    Close. *)
Theorem C86_view_untimed : forall cfg es, cf_timeout cfg = false ->
  o_view cfg new_collector es =
    flat_map (fun e => match e with
                       | EvCollect g => match odd_part g with Some (n, i) => [OPart n i g] | None => [] end
                       | EvClose => [OClosed]
                       | _ => []
                       end) es.
Proof.
  intros cfg es NT. assert (G : forall s, Inv cfg None s -> o_view cfg s es =
    flat_map (fun e => match e with
                       | EvCollect g => match odd_part g with Some (n, i) => [OPart n i g] | None => [] end
                       | EvClose => [OClosed]
                       | _ => []
                       end) es).
  { induction es as [|e es IH]; intros s IV; [reflexivity|]. cbn [o_view flat_map].
    destruct (step cfg s e) as [s1 o] eqn:E. cbn [fst]. rewrite (IH s1) by (apply (inv_step cfg s e s1 o IV E)).
    f_equal. destruct e as [g| | |j|j|j]; cbn [o_concerns]; try reflexivity;
      rewrite (i_cfg _ _ _ IV NT); now destruct j. }
  apply G, inv_new.
Qed.
Print Assumptions C86_view_untimed.

(** What Collect returns for such a part, when it returns TPDUs at all: a pile
    with the part in it, as many parts as it names, and no part of a message. *)
Theorem C86_returned : forall cfg s g s' n i d err, reachable cfg typed_event s -> odd_part g = Some (n, i) ->
  step cfg s (EvCollect g) = (s', OCollect (CReturn (Some d) err)) ->
  err = None /\ len (somes d) = n /\ nth_error d (Z.to_nat (i - 1)) = Some (Some g) /\
  forall x, In (Some x) d -> odd_type x = true.
Proof.
  intros cfg s g s' n i d err RE OP H. pose proof (reach_inv _ _ _ RE) as IV. pose proof (reach_minv _ _ RE) as M.
  apply odd_part_iff in OP as (NS & N2 & ref & HC). cbn [step] in H. destruct (collect cfg s g) as [s1 rr] eqn:E.
  injection H as <- ->.
  destruct (c_closed s) eqn:O; [unfold collect in E; rewrite O in E; discriminate|].
  destruct ((i <? 1) || (n <? i)) eqn:RI.
  { unfold collect in E. rewrite O, HC, RI in E. replace (n <? 2) with false in E by lia. discriminate. }
  destruct (collect_pile cfg s g n i ref s1 _ IV M O NS HC N2 ltac:(lia) E)
    as [(_ & F & _)|(id & p & LK & HP & PL & [(_ & _ & F)|[(_ & _ & _ & F)|(HN & [(_ & _ & _ & _ & _ & F & _)|(_ & [(EN & _ & F)|(_ & F & _)])])]])];
    try discriminate.
  injection F as -> ->. split; [reflexivity|]. split; [|split].
  - unfold len. rewrite (Permutation.Permutation_length (somes_upd _ _ g HN)). destruct PL as (EF & _). cbn [length]. lia.
  - now apply nth_upd_same with (x := None).
  - intros x Hx. apply odd_type_iff. apply In_nth_error in Hx as (j & Hx).
    apply nth_upd_inv in Hx as [(_ & Hx & _)|(_ & Hx)]; [congruence|]. apply PL. now apply nth_error_In in Hx.
Qed.
Print Assumptions C86_returned.

(** It is not the parts of one message, and not all of them: three parts of three
    messages make up a pile with two gaps. *)
Example C86_mixed :
  snd (run with_timeout new_collector
         [EvCollect (ex_other 0 7 5 1); EvCollect (ex_other 1 8 4 2); EvCollect (ex_other 2 9 3 3)]) =
    [OCollect (CReturn None (Some (ErrUnsupportedSmsType (tpdu_type (sg_pdu (ex_other 0 7 5 1))))));
     OCollect (CReturn None (Some (ErrUnsupportedSmsType (tpdu_type (sg_pdu (ex_other 0 7 5 1))))));
     OCollect (CReturn (Some [Some (ex_other 0 7 5 1); Some (ex_other 1 8 4 2); Some (ex_other 2 9 3 3); None; None]) None)].
Proof. vm_compute. reflexivity. Qed.

(** A history with a message, a pile that is full, one that is late, a number the
    pile has no place for, and Close. *)
Definition odd_history : list event :=
  [EvCollect (ex_other 0 7 3 2); EvCollect (ex_seg 1 7 3 1); EvCollect (ex_other 2 8 3 2); EvCollect (ex_other 3 8 4 4);
   EvCollect (ex_other 4 9 2 1); EvCollect (ex_other 5 9 2 1); EvFire 2; EvCollect (ex_other 6 7 2 1);
   EvCollect (ex_other 7 7 2 2); EvExpire 2; EvCollect (ex_other 8 7 2 3); EvFire 3; EvExpire 3; EvClose;
   EvCollect (ex_other 9 7 2 1)].
Example C86_instance :
  Forall typed_event odd_history /\
  o_view with_timeout new_collector odd_history =
    [OPart 3 2 (ex_other 0 7 3 2); OPart 3 2 (ex_other 2 8 3 2); OPart 4 4 (ex_other 3 8 4 4);
     OPart 2 1 (ex_other 4 9 2 1); OPart 2 1 (ex_other 5 9 2 1); OLate; OPart 2 1 (ex_other 6 7 2 1);
     OPart 2 2 (ex_other 7 7 2 2); OPart 2 3 (ex_other 8 7 2 3); OLate; ORemoved; OClosed;
     OPart 2 1 (ex_other 9 7 2 1)] /\
  let no := Some (ErrUnsupportedSmsType (tpdu_type (sg_pdu (ex_other 0 7 5 1)))) in
  odd_replies odd_history (snd (run with_timeout new_collector odd_history)) =
    map OCollect
      [CReturn None no; CReturn None (Some ErrDuplicateSegment); CPanic;
       CReturn (Some [Some (ex_other 4 9 2 1); Some (ex_other 0 7 3 2); None]) None;
       CReturn None no; CReturn None (Some ErrDuplicateSegment); CReturn None no;
       CReturn None (Some ErrReassemblyInconsistency); CReturn None (Some ErrClosed)].
Proof.
  split.
  { repeat (constructor; [try exact I; repeat split; cbn; try lia; repeat constructor; unfold is_byte; lia|]). constructor. }
  split; vm_compute; reflexivity.
Qed.

(** ** When Collect panics *)

(** Exactly when the Collector is open and is given such a part whose number is
    one of 1 to n and the pile has fewer places. *)
Theorem C40_exactly : forall cfg s g, reachable cfg typed_event s -> typed g ->
  (snd (step cfg s (EvCollect g)) = OCollect CPanic <->
   c_closed s = false /\ exists n i, odd_part g = Some (n, i) /\ 1 <= i <= n /\
     exists k id, In (k, id) (pipes s) /\ has_odd (pipe_segs s id) = true /\ len (pipe_segs s id) < i).
Proof.
  intros cfg s g RE TY. pose proof (reach_inv _ _ _ RE) as IV. pose proof (reach_minv _ _ RE) as M. split.
  - intros H. assert (NP : is_part g = true /\ ~ supported g).
    { destruct (is_part g) eqn:EP; [split; [reflexivity|]|exfalso].
      - intros SU. destruct (C40_no_panic_partial cfg s g RE (conj TY (fun _ => SU))) as (d & err & E). congruence.
      - destruct (C40_no_panic_partial cfg s g RE) as (d & err & E); [|congruence]. split; [exact TY|]. congruence. }
    destruct NP as (EP & NS). unfold is_part in EP. destruct (tpdu_concat_info (sg_pdu g)) as [[[n i] ref]|] eqn:HC; [|discriminate].
    assert (N2 : 2 <= n) by lia. cbn [step] in H. destruct (collect cfg s g) as [s1 rr] eqn:E. cbn [snd] in H. injection H as ->.
    destruct (c_closed s) eqn:O; [unfold collect in E; rewrite O in E; discriminate|]. split; [reflexivity|].
    exists n, i. split; [apply odd_part_iff; eauto|].
    destruct ((i <? 1) || (n <? i)) eqn:RI.
    { unfold collect in E. rewrite O, HC, RI in E. replace (n <? 2) with false in E by lia. discriminate. }
    split; [lia|].
    destruct (collect_pile cfg s g n i ref s1 _ IV M O NS HC N2 ltac:(lia) E)
      as [(_ & F & _)|(id & p & LK & HP & PL & [(LT & _)|[(_ & _ & _ & F)|(HN & [(_ & _ & _ & _ & _ & F & _)|(_ & [(EN & _ & F)|(_ & F & _)])])]])];
      try discriminate.
    exists [], id. split; [now apply klookup_in|]. rewrite (pipe_segs_nth _ _ _ HP). split; [now apply pile_odd|exact LT].
  - intros (O & n & i & OP & R & k & id & IN & HO & LT). unfold pipes in IN.
    pose proof (pile_key s k id M IN HO) as ->. apply odd_part_iff in OP as (NS & N2 & ref & HC).
    pose proof (klookup_nodup _ _ _ (i_keys _ _ _ IV) IN) as LK.
    cbn [step]. destruct (collect cfg s g) as [s1 rr] eqn:E. cbn [snd]. f_equal.
    destruct (collect_pile cfg s g n i ref s1 _ IV M O NS HC N2 ltac:(lia) E)
      as [(F & _)|(id' & p & LK' & HP & PL & D)]; [congruence|].
    assert (id' = id) by congruence. subst id'. rewrite (pipe_segs_nth _ _ _ HP) in LT.
    assert (NN : forall x, nth_error (p_segs p) (Z.to_nat (i - 1)) <> Some x).
    { intros x F. assert (Z.to_nat (i - 1) < length (p_segs p))%nat by (apply nth_error_Some; congruence). unfold len in LT. lia. }
    destruct D as [(_ & _ & F)|[(old & F & _)|(F & _)]]; [exact F|now apply NN in F|now apply NN in F].
Qed.
Print Assumptions C40_exactly.

(** A pile of two places: its second part is collected and the third of three panics. *)
Example C40_instance :
  let s := fst (run with_timeout new_collector [EvCollect (ex_other 0 7 2 1)]) in
  reachable with_timeout typed_event s /\ typed (ex_other 1 7 3 3) /\ typed (ex_other 1 7 2 2) /\
  supported_event (EvCollect (ex_seg 2 7 3 3)) /\
  snd (step with_timeout s (EvCollect (ex_other 1 7 3 3))) = OCollect CPanic /\
  snd (step with_timeout s (EvCollect (ex_other 1 7 2 2)))
    = OCollect (CReturn (Some [Some (ex_other 0 7 2 1); Some (ex_other 1 7 2 2)]) None) /\
  snd (step with_timeout s (EvCollect (ex_seg 2 7 3 3))) = OCollect (CReturn None None).
Proof.
  assert (T : forall id n i, is_byte n -> is_byte i -> typed (ex_other id 7 n i)).
  { intros id n i Hn Hi. repeat split; cbn; unfold is_byte in *; try lia. repeat constructor; assumption || lia. }
  cbn zeta. split; [eexists; split; [|reflexivity]; constructor; [apply T; unfold is_byte; lia|constructor]|].
  split; [apply T; unfold is_byte; lia|]. split; [apply T; unfold is_byte; lia|].
  split; [apply ex_supported; unfold is_byte; lia|]. repeat split; vm_compute; reflexivity.
Qed.
