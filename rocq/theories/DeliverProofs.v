(** Lemmas on smsdeliver against its specification. *)
From Coq Require Import Permutation String.
From Verif Require Import GoBase GoLemmas SafeLemmas Utf Address UserData Tpdu PduMode PduModeProofs Sms Collector SpecCollect CollectorProofs CollectorMsgProofs
  CollectorOrderProofs CollectorHistProofs SpecAlone AloneProofs TpduSafeProofs Cmd SpecCmd CmdProofs SpecRefuse P_Refuse Print ErrorText PrintTools
  DeliverReport SpecOdd OddProofs SpecDeliver.

(** The message of a DELIVER part. *)
Definition msg_of (t : tpdu) : message :=
  match tpdu_concat_info t with
  | Some (n, _, r) => {| m_type := SmsDeliver; m_toa := a_toa (OA t); m_addr := a_addr (OA t); m_ref := r; m_total := n |}
  | None => {| m_type := SmsDeliver; m_toa := 0; m_addr := []; m_ref := 0; m_total := 0 |}
  end.
(** What waits: DELIVER parts. *)
Definition waits (g : seg) : Prop :=
  typed g /\ tpdu_type (sg_pdu g) = SmsDeliver /\ exists n i r, tpdu_concat_info (sg_pdu g) = Some (n, i, r) /\ 2 <= n.
Definition got (m : message) (ws : list seg) : list (Z * seg) :=
  flat_map (fun g => match seg_no m g with Some i => [(i, g)] | None => [] end) ws.

Lemma waits_msg g : waits g -> m_ok (msg_of (sg_pdu g)) /\ seg_no (msg_of (sg_pdu g)) g = Some (part_no (sg_pdu g)) /\
  m_total (msg_of (sg_pdu g)) = part_count (sg_pdu g).
Proof.
  intros (TY & TD & n & i & r & HC & HN).
  destruct (part_message g n i r TY (or_intror TD) HC HN) as (m & MO & MT & IS & _).
  assert (E : m = msg_of (sg_pdu g)).
  { unfold msg_of. rewrite HC. destruct IS as (A & [(_ & F & _)|(B & _ & D)]); [rewrite TD in F; discriminate|].
    rewrite HC in A. injection A as A1 A2. rewrite D. destruct m; cbn in *. congruence. }
  rewrite <- E. split; [exact MO|]. split; [|rewrite MT; unfold part_count; now rewrite HC].
  apply seg_no_iff. unfold part_no. now rewrite HC.
Qed.

(** Siblings are segments of the same message. *)
Lemma siblings_msg t u : tpdu_type u = SmsDeliver -> tpdu_concat_info t <> None ->
  siblings t u = match seg_no (msg_of t) {| sg_id := 0; sg_pdu := u |} with Some _ => true | None => false end.
Proof.
  intros TU CT. unfold siblings, seg_no, msg_of. cbn [sg_pdu]. destruct (tpdu_concat_info t) as [[[n i] r]|]; [|congruence].
  cbn [m_type m_total m_ref m_toa m_addr]. destruct (tpdu_concat_info u) as [[[n' i'] r']|]; [|reflexivity].
  rewrite TU. change (SmsDeliver =? SmsSubmit) with false. change (SmsDeliver =? SmsDeliver) with true. cbn [orb]. rewrite !andb_true_r.
  rewrite (Z.eqb_sym n'), (Z.eqb_sym r'), (Z.eqb_sym (a_toa (OA u))).
  destruct (list_eq_dec Z.eq_dec (a_addr (OA t)) (a_addr (OA u))) as [E|E];
    destruct (list_eq_dec Z.eq_dec (a_addr (OA u)) (a_addr (OA t))) as [F|F]; try congruence;
    destruct (_ && _ && _ && _); reflexivity.
Qed.
Lemma seg_no_pdu m g n : seg_no m g = seg_no m {| sg_id := n; sg_pdu := sg_pdu g |}.
Proof. reflexivity. Qed.
Lemma seg_no_part m g i : seg_no m g = Some i -> part_no (sg_pdu g) = i.
Proof. intros H. apply seg_no_iff in H as (H & _). unfold part_no. now rewrite H. Qed.

Lemma got_filter t ws : Forall waits ws -> tpdu_concat_info t <> None ->
  map (fun p => sg_pdu (snd p)) (got (msg_of t) ws) = filter (siblings t) (map sg_pdu ws) /\
  Forall (fun p => fst p = part_no (sg_pdu (snd p))) (got (msg_of t) ws).
Proof.
  intros HW HT. induction HW as [|g ws (_ & TD & _) _ IH]; [split; [reflexivity|constructor]|]. cbn [got flat_map map filter].
  rewrite (siblings_msg t _ TD HT), <- (seg_no_pdu _ g). fold (got (msg_of t) ws).
  destruct (seg_no (msg_of t) g) as [i|] eqn:E; [|exact IH]. cbn [app map snd]. destruct IH as (A & B). split; [now f_equal|].
  constructor; [|exact B]. cbn. symmetry. now apply (seg_no_part _ _ _ E).
Qed.
Lemma got_exists t ws i : Forall waits ws -> tpdu_concat_info t <> None ->
  existsb (fun u => part_no u =? i) (filter (siblings t) (map sg_pdu ws)) = existsb (fun ig => fst ig =? i) (got (msg_of t) ws).
Proof.
  intros HW HT. destruct (got_filter t ws HW HT) as (<- & F). induction F as [|[j g] l E _ IH]; [reflexivity|].
  cbn [map existsb snd fst] in *. now rewrite IH, E.
Qed.
Lemma got_len t ws : Forall waits ws -> tpdu_concat_info t <> None ->
  len (filter (siblings t) (map sg_pdu ws)) = len (got (msg_of t) ws).
Proof. intros HW HT. destruct (got_filter t ws HW HT) as (<- & _). unfold len. now rewrite map_length. Qed.

(** The parts of a message in their places. *)
Lemma slot_part t ws k : Forall waits ws -> tpdu_concat_info t <> None ->
  option_map sg_pdu (slot (got (msg_of t) ws) k) = the_part (map sg_pdu ws) t k.
Proof.
  intros HW HT. unfold the_part, slot. induction HW as [|g ws (_ & TD & _) _ IH]; [reflexivity|]. cbn [got flat_map map find].
  rewrite (siblings_msg t _ TD HT), <- (seg_no_pdu _ g). fold (got (msg_of t) ws).
  destruct (seg_no (msg_of t) g) as [i|] eqn:E; [|exact IH]. cbn [app find fst andb]. rewrite (seg_no_part _ _ _ E).
  destruct (i =? k); [reflexivity|exact IH].
Qed.
Lemma order_parts t ws : Forall waits ws -> tpdu_concat_info t <> None ->
  map (option_map sg_pdu) (in_order (m_total (msg_of t)) (got (msg_of t) ws)) = the_parts (map sg_pdu ws) t.
Proof.
  intros HW HT. unfold in_order, the_parts. rewrite map_map.
  replace (m_total (msg_of t)) with (part_count t) by (unfold msg_of, part_count; now destruct (tpdu_concat_info t) as [[[n i] r]|]).
  apply map_ext. intros k. now apply slot_part.
Qed.

(** ** The Collector of smsdeliver holds what waits *)
Record holds (s : cstate) (ws : list seg) (o : option (list (option seg))) : Prop := {
  h_inv : Inv sd_cfg None s;
  h_minv : MInv s;
  h_open : c_closed s = false;
  h_waits : Forall waits ws;
  h_pile : osim s {| o_pile := o; o_late := false; o_closed := false |};
  h_sim : forall m, m_ok m -> sim m s {| r_got := got m ws; r_late := false; r_closed := false |} }.

Lemma holds_new : holds new_collector [] None.
Proof. constructor; [apply inv_new|apply minv_new|reflexivity|constructor|exact osim_start|]. intros m MO. exact (sim_start m MO). Qed.

Lemma got_other m g ws : seg_no m g = None -> got m (g :: ws) = got m ws.
Proof. intros H. unfold got. cbn [flat_map]. now rewrite H. Qed.
Lemma msg_other m g : waits g -> m_ok m -> m <> msg_of (sg_pdu g) -> seg_no m g = None.
Proof.
  intros W MO NE. destruct (seg_no m g) as [i|] eqn:E; [|reflexivity]. exfalso. apply NE.
  destruct (waits_msg g W) as (_ & H & _). apply seg_no_iff in E, H. now destruct (segment_message _ _ _ _ _ E H).
Qed.
Lemma msg_dec (m m' : message) : m = m' \/ m <> m'.
Proof.
  destruct m as [a b c d e], m' as [a' b' c' d' e'].
  destruct (Z.eq_dec a a'), (Z.eq_dec b b'), (list_eq_dec Z.eq_dec c c'), (Z.eq_dec d d'), (Z.eq_dec e e'); subst;
    ((left; reflexivity) || (right; congruence)).
Qed.
Definition keep (t : tpdu) (g : seg) : bool := negb (siblings t (sg_pdu g)).
Lemma keep_map t ws : map sg_pdu (filter (keep t) ws) = filter (fun u => negb (siblings t u)) (map sg_pdu ws).
Proof. induction ws as [|g ws IH]; [reflexivity|]. cbn [filter map]. unfold keep at 1. destruct (negb _); cbn [map]; now rewrite IH. Qed.
Lemma got_keep t ws m : Forall waits ws -> tpdu_concat_info t <> None ->
  got m (filter (keep t) ws) = flat_map (fun g => match seg_no m g with Some i => if siblings t (sg_pdu g) then [] else [(i, g)] | None => [] end) ws.
Proof.
  intros HW HT. 
  induction HW as [|g ws _ _ IH]; [reflexivity|]. cbn [filter]. unfold keep at 1. destruct (siblings t (sg_pdu g)) eqn:E; cbn [negb].
  - rewrite IH. cbn [flat_map]. rewrite E. destruct (seg_no m g); reflexivity.
  - cbn [got flat_map]. fold (got m (filter (keep t) ws)). rewrite IH, E. reflexivity.
Qed.

Lemma tpdu_kind g : tpdu_concat_info (sg_pdu g) <> None \/ tpdu_concat_info (sg_pdu g) = None.
Proof. destruct (tpdu_concat_info (sg_pdu g)); [left; discriminate|now right]. Qed.

Lemma in_order_sender m gots l : Forall (fun p => seg_no m (snd p) = Some (fst p)) gots -> m_type m = SmsDeliver ->
  in_order (m_total m) gots = l -> forall g, In (Some g) l -> OA (sg_pdu g) = {| a_toa := m_toa m; a_addr := m_addr m |}.
Proof.
  intros F TM <- g H. apply in_map_iff in H as (k & H & _). unfold slot in H.
  destruct (find _ gots) as [[i h]|] eqn:E; [|discriminate]. injection H as ->. apply find_some in E as (E & _).
  rewrite Forall_forall in F. apply F in E. apply seg_no_iff in E as (_ & [(A & _)|(_ & _ & A)]); [rewrite TM in A; discriminate|exact A].
Qed.
Lemma got_seg m ws : Forall (fun p => seg_no m (snd p) = Some (fst p)) (got m ws).
Proof.
  induction ws as [|g ws IH]; [constructor|]. unfold got. cbn [flat_map]. apply Forall_app. split; [|exact IH].
  destruct (seg_no m g) as [i|] eqn:E; constructor; [exact E|constructor].
Qed.

(** Collect of a TPDU with [ws] waiting. *)
Lemma collect_receive s ws po g : holds s ws po -> supported_event (EvCollect g) ->
  (is_part g = true -> tpdu_type (sg_pdu g) = SmsDeliver) ->
  exists s' d err ws' l, collect sd_cfg s g = (s', CReturn d err) /\ holds s' ws' po /\
    sd_report d err = Some l /\ receive (map sg_pdu ws) (sg_pdu g) = (l, map sg_pdu ws').
Proof.
  intros [I M O W N S] SE DE. unfold receive, part_count, part_no.
  assert (SING : exists s' d err ws' l, (s, CReturn (Some [Some g]) None) = (s', CReturn d err) /\ holds s' ws' po /\
    sd_report d err = Some l /\ (said (sg_pdu g) [Some (sg_pdu g)], map sg_pdu ws) = (l, map sg_pdu ws')).
  { destruct (sd_report_some [g] None ltac:(discriminate)) as (l & HL). exists s, (Some [Some g]), None, ws, l.
    split; [reflexivity|]. split; [constructor; assumption|]. split; [exact HL|]. f_equal.
    unfold sd_report in HL. cbn [map option_map] in HL. unfold said. destruct (decode _ _); try discriminate; cbn [app] in HL; congruence. }
  assert (NB : tpdu_concat_info (sg_pdu g) = None \/ exists n i r, tpdu_concat_info (sg_pdu g) = Some (n, i, r)).
  { destruct (tpdu_concat_info (sg_pdu g)) as [[[n i] r]|]; [right; eauto|now left]. }
  destruct NB as [HC|(n & i & r & HC)].
  { unfold collect. rewrite O, HC. change (0 <? 2) with true. cbv iota. exact SING. }
  rewrite HC. destruct (n <? 2) eqn:E2.
  { unfold collect. rewrite O, HC, E2. exact SING. }
  assert (WG : waits g).
  { destruct SE as (TY & _). split; [exact TY|]. split; [apply DE; unfold is_part; rewrite HC; lia|]. exists n, i, r. split; [exact HC|lia]. }
  destruct (waits_msg g WG) as (MO & HS & MT). unfold part_no in HS. rewrite HC in HS. unfold part_count in MT. rewrite HC in MT.
  assert (HT : tpdu_concat_info (sg_pdu g) <> None) by congruence.
  rewrite (got_exists _ _ _ W HT), (got_len _ _ W HT).
  destruct (step sd_cfg s (EvCollect g)) as [s1 o] eqn:ST.
  destruct (inv_step sd_cfg s _ s1 o I ST) as (I1 & _). pose proof (minv_step sd_cfg s _ s1 o I M (supported_typed _ SE) ST) as M1.
  destruct (sim_part sd_cfg _ MO s i g s1 o _ I M HS ST (S _ MO)) as (S1 & RO).
  assert (OTHER : forall m, m_ok m -> m <> msg_of (sg_pdu g) -> sim m s1 {| r_got := got m ws; r_late := false; r_closed := false |}).
  { intros m MO' NE. apply (sim_other sd_cfg m MO' s (EvCollect g) s1 o); auto; [now apply supported_typed|]. cbn [concerns]. now rewrite (msg_other m g WG MO' NE). }
  cbn [step] in ST. pose proof (collect_closed sd_cfg s g) as O1.
  assert (N1 : osim s1 {| o_pile := po; o_late := false; o_closed := false |}).
  { apply (osim_other sd_cfg s (EvCollect g) s1 o); auto; [now apply supported_typed|]. cbn [o_concerns].
    destruct (odd_part g) as [[n' i']|] eqn:EO; [|reflexivity]. apply odd_part_iff in EO as (NS & _). destruct NS. right. apply WG. }
  destruct (collect sd_cfg s g) as [sc rc]. injection ST as <- <-.
  cbn [fst] in O1. rewrite O in O1. cbn [react r_closed r_got r_late] in S1, RO. rewrite MT in S1, RO.
  destruct (negb ((1 <=? i) && (i <=? n))) eqn:RI.
  { cbn [fst snd] in S1, RO. injection RO as <-. exists sc, None, (Some ErrReassemblyInconsistency), ws, [SdLog ErrReassemblyInconsistency].
    split; [reflexivity|]. split; [|split; reflexivity]. constructor; auto.
    intros m MO'. destruct (msg_dec m (msg_of (sg_pdu g))) as [->|NE]; [exact S1|now apply OTHER]. }
  destruct (existsb (fun ig => fst ig =? i) (got (msg_of (sg_pdu g)) ws)) eqn:EX.
  { cbn [fst snd] in S1, RO. injection RO as <-. exists sc, None, (Some ErrDuplicateSegment), ws, [SdLog ErrDuplicateSegment].
    split; [reflexivity|]. split; [|split; reflexivity]. constructor; auto.
    intros m MO'. destruct (msg_dec m (msg_of (sg_pdu g))) as [->|NE]; [exact S1|now apply OTHER]. }
  destruct (len (got (msg_of (sg_pdu g)) ws) + 1 =? n) eqn:EL; cbn [fst snd] in S1, RO; injection RO as <-.
  - (* complete *)
    assert (HG : (i, g) :: got (msg_of (sg_pdu g)) ws = got (msg_of (sg_pdu g)) (g :: ws)).
    { unfold got at 2. cbn [flat_map]. now rewrite HS. }
    assert (W' : Forall waits (g :: ws)) by (constructor; assumption).
    pose proof (order_parts (sg_pdu g) (g :: ws) W' HT) as OP. rewrite <- HG, MT in OP.
    set (d := in_order n ((i, g) :: got (msg_of (sg_pdu g)) ws)) in *.
    assert (AL : exists gs, d = map Some gs /\ gs <> []).
    { destruct (S _ MO) as (_ & NU & _). cbn [r_got] in NU.
      assert (NU1 : numbered (total (msg_of (sg_pdu g))) (rev ((i, g) :: got (msg_of (sg_pdu g)) ws))).
      { apply numbered_rev_cons. split; [exact NU|]. split; [unfold total; rewrite MT; lia|exact EX]. }
      assert (ED : d = place (total (msg_of (sg_pdu g))) (rev ((i, g) :: got (msg_of (sg_pdu g)) ws))).
      { rewrite (place_in_order _ _ NU1), MT. reflexivity. }
      exists (somes d). split.
      - apply all_somes. rewrite ED. rewrite (place_somes _ _ NU1), rev_length, place_length.
        cbn [length]. unfold total, len in *. rewrite MT. lia.
      - intros F. assert (length (somes d) = 0%nat) as F' by now rewrite F. rewrite ED, (place_somes _ _ NU1), rev_length in F'. discriminate. }
    destruct AL as (gs & ED & NE). exists sc, (Some d), None, (filter (keep (sg_pdu g)) ws).
    destruct (sd_report_some gs None NE) as (l & HL). rewrite <- ED in HL. exists l. split; [reflexivity|]. split; [|split; [exact HL|]].
    + constructor; auto. { apply Forall_forall. intros x Hx. apply filter_In in Hx as (Hx & _). rewrite Forall_forall in W. now apply W. }
      intros m MO'. destruct (msg_dec m (msg_of (sg_pdu g))) as [->|NM].
      * rewrite (got_keep _ _ _ W HT).
        replace (flat_map _ ws) with (@nil (Z * seg)); [exact S1|]. symmetry. clear - W HT.
        induction W as [|h ws (_ & TD & _) _ IH]; [reflexivity|]. cbn [flat_map]. rewrite IH, app_nil_r.
        rewrite (siblings_msg _ _ TD HT), <- (seg_no_pdu _ h). destruct (seg_no (msg_of (sg_pdu g)) h); reflexivity.
      * rewrite (got_keep _ _ _ W HT).
        replace (flat_map _ ws) with (got m ws); [now apply OTHER|]. unfold got. clear - W HT NM MO' WG.
        induction W as [|h ws WH _ IH]; [reflexivity|]. cbn [flat_map]. rewrite IH. f_equal.
        destruct (seg_no m h) as [j|] eqn:E; [|reflexivity]. destruct WH as (_ & TD & _).
        rewrite (siblings_msg _ _ TD HT), <- (seg_no_pdu _ h). destruct (seg_no (msg_of (sg_pdu g)) h) as [j'|] eqn:E'; [|reflexivity].
        exfalso. apply NM. apply seg_no_iff in E, E'. now destruct (segment_message _ _ _ _ _ E E').
    + rewrite keep_map. f_equal. cbn [map] in OP. rewrite <- OP. unfold sd_report in HL. unfold said.
      destruct (decode _ _) as [msg|e| |]; try discriminate.
      * destruct gs as [|g0 gs]; [congruence|]. rewrite ED in HL. cbn [map] in HL. injection HL as <-. cbn [app]. f_equal. f_equal. f_equal.
        symmetry. transitivity {| a_toa := a_toa (OA (sg_pdu g)); a_addr := a_addr (OA (sg_pdu g)) |}; [|now destruct (OA (sg_pdu g))].
        pose proof (in_order_sender (msg_of (sg_pdu g)) _ d (got_seg _ (g :: ws))) as SN. rewrite <- HG, MT in SN.
        assert (TM : msg_of (sg_pdu g) = {| m_type := SmsDeliver; m_toa := a_toa (OA (sg_pdu g)); m_addr := a_addr (OA (sg_pdu g)); m_ref := r; m_total := n |}).
        { unfold msg_of. now rewrite HC. }
        specialize (SN ltac:(now rewrite TM) eq_refl g0). rewrite TM in SN. apply SN. rewrite ED. now left.
      * cbn [app] in HL. congruence.
  - (* kept *)
    exists sc, None, None, (g :: ws), []. split; [reflexivity|]. split; [|split; reflexivity]. constructor; auto.
    intros m MO'. destruct (msg_dec m (msg_of (sg_pdu g))) as [->|NE].
    + unfold got. cbn [flat_map]. rewrite HS. exact S1.
    + rewrite (got_other m g ws); [now apply OTHER|]. now apply msg_other.
Qed.

(** ** Parts of other types *)
Definition pdus (l : list (option seg)) : list (option tpdu) := map (option_map sg_pdu) l.
Lemma pdus_put l i g : pdus (put l i g) = put (pdus l) i (sg_pdu g).
Proof. unfold pdus, put. rewrite !map_app, <- firstn_map, <- skipn_map. reflexivity. Qed.
Lemma pdus_empty n : pdus (repeat None n) = repeat None n.
Proof. induction n as [|n IH]; [reflexivity|]. cbn [repeat pdus map option_map]. f_equal. exact IH. Qed.
Lemma pdus_nth l k : nth k (pdus l) None = option_map sg_pdu (nth k l None).
Proof. exact (map_nth (option_map sg_pdu) l None k). Qed.
Lemma pdus_somes l : somes (pdus l) = map sg_pdu (somes l).
Proof. induction l as [|[g|] l IH]; cbn; [reflexivity| |exact IH]. f_equal. exact IH. Qed.

Lemma collect_other s ws po g : holds s ws po -> typed g -> ~ supported g -> other_part (sg_pdu g) = true ->
  match receive_other (option_map pdus po) (sg_pdu g) with
  | Some (l, o') => exists s' d err po', collect sd_cfg s g = (s', CReturn d err) /\ sd_report d err = Some l /\
      o' = option_map pdus po' /\ holds s' ws po'
  | None => exists s', collect sd_cfg s g = (s', CPanic) \/
      exists d err, collect sd_cfg s g = (s', CReturn d err) /\ sd_report d err = None
  end.
Proof.
  intros [I M O W P S] TY NS OP. unfold other_part in OP. apply andb_prop in OP as (N2 & _).
  unfold receive_other. unfold part_count, part_no in *.
  destruct (tpdu_concat_info (sg_pdu g)) as [[[n i] ref]|] eqn:HC; [|discriminate].
  assert (OD : odd_part g = Some (n, i)) by (apply odd_part_iff; split; [exact NS|split; [lia|eauto]]).
  destruct (step sd_cfg s (EvCollect g)) as [s1 o] eqn:ST.
  destruct (inv_step sd_cfg s _ s1 o I ST) as (I1 & _). pose proof (minv_step sd_cfg s (EvCollect g) s1 o I M TY ST) as M1.
  destruct (osim_part sd_cfg s n i g s1 o _ I M OD ST P) as (P1 & RO).
  assert (S1 : forall m, m_ok m -> sim m s1 {| r_got := got m ws; r_late := false; r_closed := false |}).
  { intros m MO. apply (sim_other sd_cfg m MO s (EvCollect g) s1 o); auto. cbn [concerns].
    destruct (seg_no m g) as [j|] eqn:EJ; [|reflexivity]. apply seg_no_iff in EJ. destruct NS.
    destruct EJ as (_ & [(_ & A & _)|(_ & A & _)]); unfold supported; auto. }
  cbn [step] in ST. pose proof (collect_closed sd_cfg s g) as O1.
  destruct (collect sd_cfg s g) as [sc rc]. injection ST as <- <-. cbn [fst] in O1. rewrite O in O1.
  cbn [o_react o_closed o_pile o_late] in P1, RO.
  destruct (negb ((1 <=? i) && (i <=? n))) eqn:RI.
  { cbn [fst snd] in *. injection RO as <-. exists sc, None, (Some ErrReassemblyInconsistency), po. repeat (split; [reflexivity|]).
    constructor; assumption. }
  destruct po as [l|]; cbn [option_map].
  2:{ cbn [fst snd] in *. injection RO as <-. eexists sc, None, _, _. split; [reflexivity|]. split; [reflexivity|]. split.
      2:{ constructor; try assumption. exact P1. }
      cbn [option_map]. now rewrite pdus_put, pdus_empty. }
  assert (LL : len (pdus l) = len l) by (unfold len, pdus; now rewrite map_length). rewrite LL.
  destruct (len l <? i) eqn:EL.
  { cbn [fst snd] in *. injection RO as <-. exists sc. now left. }
  rewrite pdus_nth. destruct (nth (Z.to_nat (i - 1)) l None) as [old|]; cbn [option_map].
  { cbn [fst snd] in *. injection RO as <-. exists sc, None, (Some ErrDuplicateSegment), (Some l). repeat (split; [reflexivity|]).
    constructor; assumption. }
  rewrite <- pdus_put, pdus_somes. replace (len (map sg_pdu (somes (put l i g)))) with (len (somes (put l i g))) by (unfold len; now rewrite map_length).
  destruct (len (somes (put l i g)) =? n) eqn:EN; cbn [fst snd] in *; injection RO as <-.
  - assert (H1 : holds sc ws None) by (constructor; assumption).
    assert (SR : sd_report (Some (put l i g)) None = match decode (pdus (put l i g)) [], pdus (put l i g) with
      | Ok msg, Some u :: _ => Some [SdPrint (addr_number (OA u)) msg]
      | Err e, _ => Some [SdLog e]
      | _, _ => None
      end).
    { unfold sd_report. change (map (option_map sg_pdu) (put l i g)) with (pdus (put l i g)).
      destruct (decode (pdus (put l i g)) []); try reflexivity. destruct (put l i g) as [|[h|] l']; reflexivity. }
    destruct (decode (pdus (put l i g)) []) as [msg|e| |];
      [destruct (pdus (put l i g)) as [|[u|] l']| | |];
      try (exists sc; right; exists (Some (put l i g)), None; split; [reflexivity|exact SR]);
      (exists sc, (Some (put l i g)), None, None; split; [reflexivity|]; split; [exact SR|]; split; [reflexivity|exact H1]).
  - eexists sc, None, _, (Some (put l i g)). split; [reflexivity|]. split; [reflexivity|]. split; [reflexivity|].
    constructor; assumption.
Qed.

(** ** The loop over the arguments *)
Lemma octets_none pm a e : sd_octets pm a = Err e -> no_octets pm a e.
Proof.
  unfold sd_octets, no_octets. destruct (hex_decode a) as [b|eb| |] eqn:E; try discriminate; cbn [bind].
  - destruct pm; [|discriminate]. intros H. right. split; [reflexivity|]. exists b. split; [reflexivity|].
    destruct (pdu_unmarshal b); cbn [bind] in H; congruence.
  - intros H. left. congruence.
Qed.

(** No SUBMIT TPDU is read. *)
Lemma not_submit tb t : unmarshal tb false = Ok t -> tpdu_type t <> SmsSubmit.
Proof.
  intros H. destruct (tpdu_unmarshal_type _ _ _ H) as (HD & _).
  change (Direction (set_Direction zero_tpdu MT)) with MT in HD. unfold tpdu_type, sms_type. rewrite HD. intros F.
  apply (f_equal Z.odd) in F. vm_compute (Z.odd SmsSubmit) in F. rewrite <- Z.bit0_odd, Z.lor_spec in F.
  unfold to_byte in F. change 256 with (2 ^ 8) in F. rewrite !Z.mod_pow2_bits_low in F by lia.
  rewrite Z.shiftl_spec_low in F by lia. vm_compute in F. discriminate.
Qed.

Lemma loop_session pm : forall args n s ws po, holds s ws po ->
  exists z, session pm args (map sg_pdu ws) (option_map pdus po) (fst (smsdeliver_loop pm args n s)) z /\
    match snd (smsdeliver_loop pm args n s) with
    | SdDone s' => exists ws' po', z = Left_over (map sg_pdu ws') (option_map pdus po') /\ holds s' ws' po'
    | SdFatal e => z = Stopped e
    | SdPanic => z = Crashed
    | SdHang => False
    end.
Proof.
  induction args as [|a args IH]; intros n s ws po H; cbn [smsdeliver_loop].
  { eexists. split; [constructor|]. exists ws, po. auto. }
  pose proof (sd_octets_safe pm a) as HO. destruct (sd_octets pm a) as [tb|e| |] eqn:EO; try contradiction.
  2:{ exists (Stopped e). cbn [fst snd]. split; [|reflexivity]. apply se_stop. now apply octets_none. }
  apply payload_octets in EO. pose proof (payload_bytes _ _ _ EO) as HB.
  pose proof (tpdu_unmarshal_safe (set_Direction zero_tpdu MT) tb HB) as HS.
  change (tpdu_unmarshal (set_Direction zero_tpdu MT) tb) with (unmarshal tb false) in HS.
  destruct (unmarshal tb false) as [t|e| |] eqn:EU; try contradiction.
  2:{ specialize (IH n s ws po H). destruct (smsdeliver_loop pm args n s) as [ls z0]. cbn [fst snd] in *.
      destruct IH as (z & A & B). exists z. split; [|exact B]. eapply se_unread; [exact EO| |exact A].
      now apply (C79_error tb false e HB). }
  assert (SH : shows pm a t) by (exists tb; now split).
  pose proof (read_typed tb n t HB EU) as TY.
  destruct (other_part t) eqn:OP.
  - pose proof (collect_other s ws po {| sg_id := n; sg_pdu := t |} H TY) as CO. cbn [sg_pdu] in CO.
    assert (NS : ~ supported {| sg_id := n; sg_pdu := t |}).
    { unfold supported. cbn [sg_pdu]. unfold other_part in OP. apply andb_prop in OP as (_ & ND).
      intros [F|F]; [now apply (not_submit tb t EU)|rewrite F in ND; discriminate]. }
    specialize (CO NS OP). destruct (receive_other (option_map pdus po) t) as [[l o']|] eqn:ER.
    + destruct CO as (s' & d & err & po' & E1 & E2 & -> & H'). rewrite E1, E2. specialize (IH (S n) s' ws po' H').
      destruct (smsdeliver_loop pm args (S n) s') as [ls z0]. cbn [fst snd] in *.
      destruct IH as (z & A & B). exists z. split; [|exact B]. eapply se_other; eassumption.
    + exists Crashed. destruct CO as (s' & [E1|(d & err & E1 & E2)]); rewrite E1; [|rewrite E2]; cbn [fst snd];
        (split; [eapply se_crash; eassumption|reflexivity]).
  - assert (DE : is_part {| sg_id := n; sg_pdu := t |} = true -> tpdu_type t = SmsDeliver).
    { unfold is_part. cbn [sg_pdu]. intros HP. unfold other_part, part_count in OP.
      destruct (tpdu_concat_info t) as [[[k i] r]|] eqn:EC; [|discriminate].
      destruct (Z.eqb_spec (tpdu_type t) SmsDeliver) as [E|NE]; [exact E|]. exfalso. cbn [negb] in OP. lia. }
    destruct (collect_receive s ws po {| sg_id := n; sg_pdu := t |} H) as (s' & d & err & ws' & l & E1 & H' & E2 & E3); [|exact DE|].
    { split; [exact TY|]. intros HP. right. now apply DE. }
    rewrite E1, E2. specialize (IH (S n) s' ws' po H'). destruct (smsdeliver_loop pm args (S n) s') as [ls z0]. cbn [fst snd] in *.
    destruct IH as (z & A & B). exists z. split; [|exact B]. eapply se_read; eassumption.
Qed.

(** What is said is determined by the arguments. *)
Lemma octets_fun pm a tb tb' : payload pm a tb -> payload pm a tb' -> tb = tb'.
Proof. intros H H'. apply payload_octets in H, H'. congruence. Qed.
Lemma no_octets_payload pm a e tb : no_octets pm a e -> payload pm a tb -> False.
Proof.
  intros [H|(-> & b & H & H')] (b' & E & P); [congruence|]. destruct P as (smsc & P). assert (b' = b) by congruence. subst. congruence.
Qed.
Lemma no_octets_fun pm a e e' : no_octets pm a e -> no_octets pm a e' -> e = e'.
Proof. intros [H|(_ & b & H & K)] [H'|(_ & b' & H' & K')]; congruence. Qed.
Lemma session_fun pm args w o ls z : session pm args w o ls z -> forall ls' z', session pm args w o ls' z' -> ls = ls' /\ z = z'.
Proof.
  assert (ONE : forall a t t', shows pm a t -> shows pm a t' -> t = t').
  { intros a t t' (tb & HP & HU) (tb' & HP' & HU'). rewrite (octets_fun _ _ _ _ HP' HP) in HU'. congruence. }
  assert (NONE : forall a t e, shows pm a t -> no_octets pm a e -> False).
  { intros a t e (tb & HP & _) HN. exact (no_octets_payload _ _ _ _ HN HP). }
  assert (UN : forall a t tb e, shows pm a t -> payload pm a tb -> unreadable false tb e -> False).
  { intros a t tb e (tb' & HP' & HU') HP HU. pose proof (payload_bytes _ _ _ HP) as HB. rewrite (octets_fun _ _ _ _ HP' HP) in HU'.
    apply (C79_error _ _ _ HB) in HU. congruence. }
  induction 1 as [w o|a args w o e HN|a tb e args w o ls z HP HU _ IH|a t args w o l w' ls z HS HO HR _ IH
    |a t args w o l o' ls z HS HO HR _ IH|a t args w o HS HO HR]; intros ls' z' H'.
  - inversion H'; auto.
  - inversion H' as [|? ? ? ? e' HN'|? tb' ? ? ? ? ? ? HP'|? t' ? ? ? ? ? ? ? HS'|? t' ? ? ? ? ? ? ? HS'|? t' ? ? ? HS']; subst.
    + split; [reflexivity|]. f_equal. now apply (no_octets_fun pm a).
    + destruct (no_octets_payload _ _ _ _ HN HP').
    + destruct (NONE _ _ _ HS' HN).
    + destruct (NONE _ _ _ HS' HN).
    + destruct (NONE _ _ _ HS' HN).
  - pose proof (payload_bytes _ _ _ HP) as HB.
    inversion H' as [|? ? ? ? e' HN'|? tb' e' ? ? ? ls1 ? HP' HU' HT|? t' ? ? ? ? ? ? ? HS'|? t' ? ? ? ? ? ? ? HS'|? t' ? ? ? HS']; subst.
    + destruct (no_octets_payload _ _ _ _ HN' HP).
    + rewrite (octets_fun _ _ _ _ HP' HP) in HU'. apply (C79_error _ _ _ HB) in HU, HU'. destruct (IH _ _ HT) as (-> & ->).
      split; [|reflexivity]. f_equal. congruence.
    + destruct (UN _ _ _ _ HS' HP HU).
    + destruct (UN _ _ _ _ HS' HP HU).
    + destruct (UN _ _ _ _ HS' HP HU).
  - inversion H' as [|? ? ? ? e' HN'|? tb' e' ? ? ? ls1 ? HP' HU' HT|? t' ? ? ? l1 w1 ls1 ? HS' HO' HR' HT
      |? t' ? ? ? ? ? ? ? HS' HO'|? t' ? ? ? HS' HO']; subst;
      try (destruct (NONE _ _ _ HS HN')); try (destruct (UN _ _ _ _ HS HP' HU')); rewrite <- (ONE _ _ _ HS HS') in *; try congruence.
    rewrite HR in HR'. injection HR' as <- <-. destruct (IH _ _ HT) as (-> & ->). auto.
  - inversion H' as [|? ? ? ? e' HN'|? tb' e' ? ? ? ls1 ? HP' HU' HT|? t' ? ? ? l1 w1 ls1 ? HS' HO'
      |? t' ? ? ? ? ? ? ? HS' HO' HR' HT|? t' ? ? ? HS' HO' HR']; subst;
      try (destruct (NONE _ _ _ HS HN')); try (destruct (UN _ _ _ _ HS HP' HU')); rewrite <- (ONE _ _ _ HS HS') in *; try congruence.
    rewrite HR in HR'. injection HR' as <- <-. destruct (IH _ _ HT) as (-> & ->). auto.
  - inversion H' as [|? ? ? ? e' HN'|? tb' e' ? ? ? ls1 ? HP' HU' HT|? t' ? ? ? l1 w1 ls1 ? HS' HO'
      |? t' ? ? ? ? ? ? ? HS' HO' HR' HT|? t' ? ? ? HS' HO' HR']; subst;
      try (destruct (NONE _ _ _ HS HN')); try (destruct (UN _ _ _ _ HS HP' HU')); rewrite <- (ONE _ _ _ HS HS') in *; try congruence.
    auto.
Qed.

(** ** Siblings *)
Lemma siblings_iff t u : siblings t u = true <-> exists n i j r, tpdu_concat_info t = Some (n, i, r) /\
  tpdu_concat_info u = Some (n, j, r) /\ OA t = OA u.
Proof.
  unfold siblings. destruct (tpdu_concat_info t) as [[[n i] r]|]; [|split; [discriminate|intros (? & ? & ? & ? & F & _); discriminate]].
  destruct (tpdu_concat_info u) as [[[n' j] r']|]; [|split; [discriminate|intros (? & ? & ? & ? & _ & F & _); discriminate]].
  split.
  - intros H. destruct (list_eq_dec Z.eq_dec (a_addr (OA t)) (a_addr (OA u))) as [E|E]; [|rewrite andb_false_r in H; discriminate].
    exists n, i, j, r. rewrite andb_true_r in H. split; [reflexivity|].
    assert (n = n' /\ r = r' /\ a_toa (OA t) = a_toa (OA u)) as (-> & -> & A) by lia. split; [reflexivity|].
    destruct (OA t), (OA u); cbn in *; congruence.
  - intros (n0 & i0 & j0 & r0 & A & B & C). injection A as <- <- <-. injection B as -> <- ->. rewrite C, !Z.eqb_refl.
    destruct (list_eq_dec _ _ _); [reflexivity|congruence].
Qed.
Lemma siblings_refl t : tpdu_concat_info t <> None -> siblings t t = true.
Proof. intros H. apply siblings_iff. destruct (tpdu_concat_info t) as [[[n i] r]|]; [|congruence]. exists n, i, i, r. auto. Qed.
Lemma siblings_sym t u : siblings t u = true -> siblings u t = true.
Proof. rewrite !siblings_iff. intros (n & i & j & r & A & B & C). exists n, j, i, r. auto. Qed.
Lemma siblings_same t u v : siblings t u = true -> siblings t v = siblings u v.
Proof.
  intros H. pose proof H as (n & i & j & r & A & B & C)%siblings_iff. unfold siblings. now rewrite A, B, C.
Qed.
Lemma siblings_count t u : siblings t u = true -> part_count t = part_count u.
Proof. rewrite siblings_iff. intros (n & i & j & r & A & B & _). unfold part_count. now rewrite A, B. Qed.
Lemma siblings_key t u : siblings t u = true -> msg_of t = msg_of u.
Proof. rewrite siblings_iff. intros (n & i & j & r & A & B & C). unfold msg_of. now rewrite A, B, C. Qed.

(** ** The report *)
Lemma pipe_shown s ws po k l : holds s ws po -> In (k, l) (shown_pipes s) -> k <> [] ->
  exists g, In g ws /\ k = key_of (msg_of (sg_pdu g)) /\ map (option_map sg_pdu) l = the_parts (map sg_pdu ws) (sg_pdu g).
Proof.
  intros [I M O W N S] H NK. apply in_map_iff in H as ((k' & id) & E & H). cbn [fst snd] in E. injection E as -> <-. unfold pipes in H.
  destruct (proj1 (M _ _ H) NK) as (m & p & MO & EK & HP & _). pose proof (klookup_nodup _ _ _ (i_keys _ _ _ I) H) as LK. rewrite EK in LK.
  destruct (S m MO) as (_ & NU & _ & [(_ & _ & F)|(NE & id' & p' & (LK' & HP') & PS & _)]); [unfold absent in F; congruence|].
  cbn [r_got] in *. assert (id' = id) by congruence. subst id'. assert (p' = p) by congruence. subst p'.
  destruct (got m ws) as [|[i g] l] eqn:EG; [congruence|].
  assert (IG : In (i, g) (got m ws)) by (rewrite EG; now left).
  assert (In g ws /\ seg_no m g = Some i) as (HI & HN).
  { unfold got in IG. apply in_flat_map in IG as (h & HI & HX). destruct (seg_no m h) as [j|] eqn:EN; [|contradiction].
    destruct HX as [HX|[]]. injection HX as <- <-. auto. }
  rewrite Forall_forall in W. pose proof (W _ HI) as WG. destruct (waits_msg g WG) as (_ & HN' & _).
  assert (EM : m = msg_of (sg_pdu g)). { apply seg_no_iff in HN, HN'. now destruct (segment_message _ _ _ _ _ HN HN'). }
  exists g. split; [exact HI|]. split; [now rewrite EK, EM|]. unfold pipe_segs. rewrite HP, PS, (place_in_order m _ NU), <- EG, EM.
  apply order_parts; [now apply Forall_forall|]. destruct WG as (_ & _ & n & j & r & HC & _). congruence.
Qed.
Lemma all_shown s ws po g : holds s ws po -> In g ws -> exists l, In (key_of (msg_of (sg_pdu g)), l) (shown_pipes s).
Proof.
  intros [I M O W N S] HI. rewrite Forall_forall in W. destruct (waits_msg g (W _ HI)) as (MO & HN & _).
  destruct (S _ MO) as (_ & _ & _ & [(F & _)|(_ & id & p & (LK & _) & _)]).
  - exfalso. cbn [r_got] in F. assert (IG : In (part_no (sg_pdu g), g) (got (msg_of (sg_pdu g)) ws)).
    { unfold got. apply in_flat_map. exists g. split; [exact HI|]. rewrite HN. now left. }
    rewrite F in IG. contradiction.
  - exists (pipe_segs s id). apply in_map_iff. exists (key_of (msg_of (sg_pdu g)), id). split; [reflexivity|]. now apply klookup_in.
Qed.
Lemma shown_keys s ws po : holds s ws po -> NoDup (map fst (shown_pipes s)).
Proof.
  intros [I _ _ _ _ _]. unfold shown_pipes. rewrite map_map. cbn [fst]. exact (i_keys _ _ _ I).
Qed.

Lemma spaced_eq ws : spaced ws = with_spaces ws.
Proof.
  induction ws as [|w [|x ws] IH]; [reflexivity|cbn; now rewrite app_nil_r|]. cbn [spaced with_spaces] in *. rewrite IH. reflexivity.
Qed.
Lemma pile_shown s ws po l : holds s ws po -> (In ([], l) (shown_pipes s) <-> po = Some l).
Proof.
  intros [I M O W P S]. pose proof P as (_ & P2). cbn [o_pile o_late] in P2. split.
  - intros H. apply in_map_iff in H as ((k' & id) & E & H). cbn [fst snd] in E. injection E as -> <-. unfold pipes in H.
    apply (klookup_nodup _ _ _ (i_keys _ _ _ I)) in H. destruct po as [l|]; [|destruct P2; congruence].
    destruct P2 as (id' & p & LK & HP & PS & _). assert (id' = id) by congruence. subst id'. now rewrite (pipe_segs_nth _ _ _ HP), PS.
  - intros ->. destruct P2 as (id & p & LK & HP & PS & _). apply in_map_iff. exists ([], id). cbn [fst snd].
    rewrite (pipe_segs_nth _ _ _ HP), PS. split; [reflexivity|]. now apply klookup_in.
Qed.
Lemma words_ok at_ l : (forall g : seg, 0 < at_ g) -> Forall2 word (pdus l) (map (pointer at_) l).
Proof.
  intros AT. induction l as [|[g|] l IH]; cbn [pdus map option_map]; constructor; try exact IH; cbn; [|reflexivity].
  exists (at_ g). auto.
Qed.
Lemma report_ok s ws po at_ k l : holds s ws po -> (forall g, 0 < at_ g) -> In (k, l) (shown_pipes s) -> k <> [] ->
  exists g, In g ws /\ k = key_of (msg_of (sg_pdu g)) /\ reports (map sg_pdu ws) (sg_pdu g) (report_pipe at_ (k, l)).
Proof.
  intros H AT HI NK. destruct (pipe_shown s ws po k l H HI NK) as (g & HG & EK & EL). exists g. split; [exact HG|]. split; [exact EK|].
  exists k, (map (pointer at_) l). split; [|split].
  - pose proof (h_waits _ _ _ H) as W. rewrite Forall_forall in W. destruct (W _ HG) as (_ & _ & n & i & r & HC & _).
    exists n, i, r. split; [exact HC|]. rewrite EK. unfold key_of, msg_of. rewrite HC. reflexivity.
  - rewrite <- EL. now apply words_ok.
  - unfold report_pipe. cbn [fst snd]. rewrite spaced_eq. reflexivity.
Qed.

Lemma report_all s ws po at_ kvs : holds s ws po -> (forall g, 0 < at_ g) ->
  (forall kv, In kv kvs <-> In kv (shown_pipes s) /\ fst kv <> []) -> NoDup (map fst kvs) ->
  exists ts, one_each (map sg_pdu ws) ts /\ Forall2 (reports (map sg_pdu ws)) ts (map (report_pipe at_) kvs).
Proof.
  intros H AT PE NDK.
  assert (CH : exists gs, Forall2 (fun kv g => In g ws /\ fst kv = key_of (msg_of (sg_pdu g)) /\ reports (map sg_pdu ws) (sg_pdu g) (report_pipe at_ kv)) kvs gs).
  { assert (F : forall kv, In kv kvs -> In kv (shown_pipes s) /\ fst kv <> []) by (intros kv; apply PE).
    clear PE NDK. induction kvs as [|[k l] kvs IH]; [exists []; constructor|].
    destruct IH as (gs & IH); [intros; apply F; now right|]. destruct (F _ (or_introl eq_refl)) as (F1 & F2). destruct (report_ok s ws po at_ k l H AT F1 F2) as (g & X).
    exists (g :: gs). constructor; [exact X|exact IH]. }
  destruct CH as (gs & CH). exists (map sg_pdu gs).
  assert (KEYS : map fst kvs = map (fun g => key_of (msg_of (sg_pdu g))) gs).
  { clear - CH. induction CH as [|kv g kvs gs (_ & A & _) _ IH]; [reflexivity|]. cbn [map]. now rewrite A, IH. }
  assert (ND : NoDup (map (fun g => key_of (msg_of (sg_pdu g))) gs)).
  { now rewrite <- KEYS. }
  split.
  - split; [|split].
    + apply Forall_map. clear - CH. induction CH as [|kv g kvs gs (A & _) _ IH]; constructor; [now apply in_map|exact IH].
    + intros i j t u Hi Hj SB. rewrite nth_error_map in Hi, Hj. destruct (nth_error gs i) as [g|] eqn:Ei; [|discriminate].
      destruct (nth_error gs j) as [h|] eqn:Ej; [|discriminate]. injection Hi as <-. injection Hj as <-.
      apply siblings_key in SB. rewrite NoDup_nth_error in ND. apply ND.
      * rewrite map_length. apply nth_error_Some. congruence.
      * rewrite !nth_error_map, Ei, Ej. cbn [option_map]. now rewrite SB.
    + intros u HU. apply in_map_iff in HU as (h & <- & HI). destruct (all_shown s ws po h H HI) as (l & HL).
      assert (HL' : In (key_of (msg_of (sg_pdu h)), l) kvs) by (apply PE; split; [exact HL|exact (key_nonempty _)]). clear HL. rename HL' into HL. apply (in_map fst) in HL. rewrite KEYS in HL. cbn [fst] in HL.
      apply in_map_iff in HL as (g & EK & HG). exists (sg_pdu g). split; [now apply in_map|].
      assert (IG : In g ws). { clear - CH HG. induction CH as [|kv g' kvs gs (A & _) _ IH]; [contradiction|]. destruct HG as [<-|HG]; auto. }
      pose proof (h_waits _ _ _ H) as W. rewrite Forall_forall in W. destruct (waits_msg g (W _ IG)) as (MG & _).
      destruct (waits_msg h (W _ HI)) as (MH & _). pose proof (key_inj _ _ MG MH EK) as EM.
      destruct (W _ IG) as (_ & _ & n & i & r & HC & _). destruct (W _ HI) as (_ & _ & n' & i' & r' & HC' & _).
      unfold msg_of in EM. rewrite HC, HC' in EM. injection EM as E1 E2 -> ->.
      apply siblings_iff. exists n', i, i', r'. split; [exact HC|]. split; [exact HC'|].
      destruct (OA (sg_pdu g)), (OA (sg_pdu h)); cbn in *; congruence.
  - clear - CH. induction CH as [|kv g kvs gs (_ & _ & A) _ IH]; cbn [map]; constructor; assumption.
Qed.

(** With the pile. *)
Lemma report_ends s ws po at_ kvs : holds s ws po -> (forall g, 0 < at_ g) -> Permutation kvs (shown_pipes s) ->
  ends (Left_over (map sg_pdu ws) (option_map pdus po)) (report_text at_ kvs) 0.
Proof.
  intros H AT PE. split; [reflexivity|].
  assert (ND : NoDup (map fst kvs)).
  { eapply Permutation_NoDup; [|exact (shown_keys s ws po H)]. apply Permutation_map. now symmetry. }
  assert (IN : forall kv, In kv kvs <-> In kv (shown_pipes s)).
  { intros kv. split; apply Permutation_in; [exact PE|now symmetry]. }
  unfold report_text. rewrite flat_map_concat_map. destruct po as [l|]; cbn [option_map].
  - assert (HL : In ([], l) kvs) by (apply IN; now apply (pile_shown s ws (Some l) l H)).
    apply in_split in HL as (k1 & k2 & ->).
    rewrite map_app in ND. cbn [map fst] in ND. pose proof (NoDup_remove_1 _ _ _ ND) as ND1. pose proof (NoDup_remove_2 _ _ _ ND) as ND2.
    rewrite <- map_app in ND1, ND2.
    destruct (report_all s ws (Some l) at_ (k1 ++ k2) H AT) as (ts & O1 & O2); [|exact ND1|].
    { intros kv. split.
      - intros HI. split.
        + apply IN. apply in_app_iff in HI. apply in_app_iff. cbn [In]. tauto.
        + intros E. apply ND2. rewrite <- E. now apply in_map.
      - intros (HI & NK). apply IN in HI. apply in_app_iff in HI. apply in_app_iff. destruct HI as [HI|[<-|HI]]; [auto| |auto]. now destruct NK. }
    rewrite map_app in O2. exists ts, (map (report_pipe at_) k1), (map (report_pipe at_) k2), (report_pipe at_ ([], l)).
    split; [exact O1|]. split; [exact O2|]. split.
    + exists (map (pointer at_) l). split; [now apply words_ok|]. unfold report_pipe. cbn [fst snd]. rewrite spaced_eq. reflexivity.
    + rewrite map_app, concat_app. reflexivity.
  - destruct (report_all s ws None at_ kvs H AT) as (ts & O1 & O2); [|exact ND|].
    { intros [k l]. rewrite IN. cbn [fst]. split; [|tauto]. intros HI. split; [exact HI|]. intros ->.
      apply (pile_shown s ws None l H) in HI. discriminate. }
    exists ts, (map (report_pipe at_) kvs), [], []. rewrite app_nil_r. split; [exact O1|]. split; [exact O2|]. split; [reflexivity|].
    cbn [concat app]. now rewrite app_nil_r.
Qed.

(** ** What waits is incomplete *)
Definition fits (w : list tpdu) (t : tpdu) : Prop :=
  2 <= part_count t /\ 1 <= part_no t <= part_count t /\ len (filter (siblings t) w) < part_count t /\
  the_part w t (part_no t) = Some t.
Definition all_fit (w : list tpdu) : Prop := forall t, In t w -> fits w t.

Lemma count_info t : 2 <= part_count t -> tpdu_concat_info t <> None.
Proof. unfold part_count. destruct (tpdu_concat_info t); [discriminate|lia]. Qed.
Lemma filter_other t u w : siblings u t = false -> filter (siblings u) (filter (fun x => negb (siblings t x)) w) = filter (siblings u) w.
Proof.
  intros N. induction w as [|x w IH]; [reflexivity|]. cbn [filter]. destruct (siblings t x) eqn:E; cbn [negb].
  - destruct (siblings u x) eqn:F; [|exact IH]. apply siblings_sym in F. apply siblings_sym in E.
    rewrite (siblings_same x u t F) in E. congruence.
  - cbn [filter]. now rewrite IH.
Qed.
Lemma part_other t u k w : siblings u t = false -> the_part (filter (fun x => negb (siblings t x)) w) u k = the_part w u k.
Proof.
  intros N. unfold the_part. induction w as [|x w IH]; [reflexivity|]. cbn [filter find]. destruct (siblings t x) eqn:E; cbn [negb].
  - destruct (siblings u x) eqn:F; [|exact IH]. apply siblings_sym in F. apply siblings_sym in E.
    rewrite (siblings_same x u t F) in E. congruence.
  - cbn [find]. now rewrite IH.
Qed.
Lemma receive_fits w t l w' : all_fit w -> receive w t = (l, w') -> all_fit w'.
Proof.
  intros A H. unfold receive in H. destruct (part_count t <? 2) eqn:E2; [injection H as _ <-; exact A|].
  destruct (negb ((1 <=? part_no t) && (part_no t <=? part_count t))) eqn:RI; [injection H as _ <-; exact A|].
  destruct (existsb _ (filter (siblings t) w)) eqn:EX; [injection H as _ <-; exact A|].
  assert (HT : tpdu_concat_info t <> None) by (apply count_info; lia).
  destruct (len (filter (siblings t) w) + 1 =? part_count t) eqn:EL; injection H as _ <-.
  - intros u HU. apply filter_In in HU as (HU & NS). apply negb_true_iff in NS.
    assert (NS' : siblings u t = false) by (destruct (siblings u t) eqn:F; [apply siblings_sym in F; congruence|reflexivity]).
    destruct (A u HU) as (A1 & A2 & A3 & A4). split; [exact A1|]. split; [exact A2|]. now rewrite filter_other, part_other.
  - assert (LT : len (filter (siblings t) w) + 1 < part_count t).
    { destruct (filter (siblings t) w) as [|u l0] eqn:EF; [change (len (@nil tpdu)) with 0 in *; lia|].
      assert (HU : In u (filter (siblings t) w)) by (rewrite EF; now left). apply filter_In in HU as (HU & SU).
      destruct (A u HU) as (_ & _ & A3 & _). rewrite (siblings_count t u SU).
      assert (EE : filter (siblings u) w = u :: l0). { rewrite <- EF. apply filter_ext. intros x. symmetry. now apply siblings_same. }
      rewrite EE in A3. rewrite (siblings_count t u SU) in EL. lia. }
    intros u [<-|HU].
    + split; [lia|]. split; [lia|]. cbn [filter the_part find]. unfold the_part. cbn [find]. rewrite (siblings_refl t HT), Z.eqb_refl. cbn [andb].
      split; [|reflexivity]. rewrite len_cons. lia.
    + destruct (A u HU) as (A1 & A2 & A3 & A4). split; [exact A1|]. split; [exact A2|]. unfold the_part. cbn [filter find].
      destruct (siblings u t) eqn:SU; [|cbn [andb]; auto]. pose proof (siblings_sym _ _ SU) as SU'. split.
      * rewrite len_cons. rewrite <- (siblings_count t u SU').
        assert (EE : filter (siblings u) w = filter (siblings t) w). { apply filter_ext. intros x. now apply siblings_same. }
        rewrite EE. lia.
      * destruct (part_no t =? part_no u) eqn:EN; cbn [andb]; [|exact A4]. exfalso. rewrite <- not_true_iff_false in EX. apply EX.
        apply existsb_exists. exists u. split; [apply filter_In; auto|]. lia.
Qed.
Lemma session_fits pm args w o ls z : session pm args w o ls z -> all_fit w -> forall w' o', z = Left_over w' o' -> all_fit w'.
Proof.
  induction 1 as [w o|a args w o e HN|a tb e args w o ls z HP HU _ IH|a t args w o l w1 ls z HS HO HR _ IH
    |a t args w o l o1 ls z HS HO HR _ IH|a t args w o HS HO HR]; intros A w' o' E; try discriminate.
  - injection E as <- <-. exact A.
  - now apply (IH A w' o').
  - apply (IH (receive_fits w t l w1 A HR) w' o' E).
  - now apply (IH A w' o').
Qed.
Lemma fits_missing w t : fits w t -> exists k, 1 <= k <= part_count t /\ the_part w t k = None.
Proof.
  intros (A1 & _ & A3 & _).
  destruct (existsb (fun k => match the_part w t (Z.of_nat k) with None => true | _ => false end) (seq 1 (Z.to_nat (part_count t)))) eqn:E.
  - apply existsb_exists in E as (k & HK & E). apply in_seq in HK. exists (Z.of_nat k). split; [lia|]. now destruct (the_part _ _ _).
  - exfalso. rewrite <- not_true_iff_false in E.
    assert (IN : incl (seq 1 (Z.to_nat (part_count t))) (map (fun u => Z.to_nat (part_no u)) (filter (siblings t) w))).
    { intros k HK. destruct (the_part w t (Z.of_nat k)) as [u|] eqn:EP.
      - unfold the_part in EP. apply find_some in EP as (HI & HS). apply andb_prop in HS as (HS & HN).
        apply in_map_iff. exists u. split; [lia|]. apply filter_In. auto.
      - exfalso. apply E, existsb_exists. exists k. split; [exact HK|]. now rewrite EP. }
    apply NoDup_incl_length in IN; [|apply seq_NoDup]. rewrite seq_length, map_length in IN. unfold len in A3. lia.
Qed.
