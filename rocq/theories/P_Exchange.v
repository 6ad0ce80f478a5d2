(** C98: many messages, encoded at the same time, mixed up on the way, and
    collected by one Collector. *)
From Coq Require Import Permutation.
From Verif Require Import GoBase GoLemmas SafeLemmas Dcs FirstOctet UserData Tpdu Segment Sms SpecSms SmsProofs Charset SpecText SpecSelect SpecDcs SpecTpdu
  Collector SpecCollect CollectorProofs CollectorMsgProofs SpecFlow FlowProofs SharedCount SpecShared SharedCountProofs
  SpecExchange ExchangeProofs SpecAlone SpecClock ClockProofs P_Clock P_Sms P_Flow P_SharedCount CountProofs.

(** ** What is known of each message *)
Lemma flow_at e calls sched n cs k msg opts pdus text : interleaved e calls sched n cs ->
  nth_error calls k = Some (msg, opts) -> option_map returned (nth_error cs k) = Some (Some (Ok pdus)) ->
  template_ok (e_pdu (with_options e opts)) ->
  meant (DCS (e_pdu (with_options e opts))) (e_eopts (with_options e opts)) msg text ->
  (forall s, In s pdus -> tpdu_wf s) /\
  (forall dopts, decodes_with (e_eopts (with_options e opts)) dopts ->
     decode_loop (map Some (map received pdus)) None dopts = Ok text) /\
  (len pdus = 1 -> forall s, In s pdus -> tpdu_concat_info s = None) /\
  (1 < len pdus -> exists da oa ref st, forall k s, nth_error pdus k = Some s ->
     tpdu_concat_info s = Some (len pdus mod 256, (Z.of_nat k + 1) mod 256, ref) /\ DA s = da /\ OA s = oa /\ tpdu_type s = st) /\
  (forall s, In s pdus -> Forall ie_fits (ies (UDH s))).
Proof.
  intros I K R HT HM. destruct (nth_error cs k) as [c|] eqn:C; [|discriminate].
  destruct c as [| |r']; cbn in R; try discriminate. injection R as ->.
  destruct (shared_at _ _ _ _ _ _ _ _ _ I K C) as (ps & qs & _ & T).
  unfold begin_encode in T. fold (with_options e opts) in T.
  destruct (encode_prepare (with_options e opts) msg) as [[t d]|x| |] eqn:EP; [|destruct T as (E & _ & _ & O); injection E as E; subst; discriminate E..].
  destruct T as (q & HS & _). symmetry in HS.
  exact (segment_flow _ _ _ _ _ _ _ _ EP HS ltac:(discriminate) HT HM).
Qed.

Definition cls (t : tpdu) : option Z := match tpdu_concat_info t with Some (_, _, r) => Some r | None => None end.
Lemma option_Z_dec (a b : option Z) : {a = b} + {a <> b}.
Proof. decide equality. apply Z.eq_dec. Defined.

Lemma received_info s : tpdu_concat_info (received s) = tpdu_concat_info s.
Proof. unfold tpdu_concat_info. now rewrite (proj1 (proj2 (received_ud s))). Qed.
Lemma last_info s l r n q : UDH s = Some (l ++ [{| ie_id := 0; ie_data := [r; n; q] |}]) -> tpdu_concat_info s = Some (n, q, r).
Proof.
  intros H. unfold tpdu_concat_info. rewrite H. cbn [ies]. rewrite concat_info_last, SmsProofs.find_ie_last.
  change 0 with (ie_id {| ie_id := 0; ie_data := [r; n; q] |}) at 1. now rewrite SegmentFitProofs.find_ie_last.
Qed.
Lemma reference_class e calls sched n cs k pdus : interleaved e calls sched n cs ->
  option_map returned (nth_error cs k) = Some (Some (Ok pdus)) -> 1 < len pdus ->
  forall s, In s pdus -> cls s = reference_of pdus /\ reference_of pdus <> None.
Proof.
  intros I R L s H. destruct (C97_numbers _ _ _ _ _ _ _ I R) as (ps & q & _ & _ & _ & N). specialize (N L).
  assert (reference_of pdus = Some ((e_concat_ref e + 1 + Z.of_nat q) mod 256)) as E.
  { destruct pdus as [|a l]; [discriminate L|]. destruct (N 0%nat a eq_refl) as (h & HU). unfold reference_of. rewrite HU.
    cbn [ies]. rewrite rev_app_distr. reflexivity. }
  rewrite E. split; [|discriminate]. apply In_nth_error in H as [i H]. destruct (N i s H) as (h & HU).
  unfold cls. now rewrite (last_info _ _ _ _ _ HU).
Qed.

Lemma received_typed p g : tpdu_wf p -> Forall ie_fits (ies (UDH p)) -> sg_pdu g = received p -> typed g.
Proof.
  intros HWp HFp Hp. unfold typed. rewrite Hp, (proj1 (proj2 (received_ud p))).
  assert (Forall (fun i => Forall is_byte (ie_data i)) (ies (UDH p))) as HB.
  { eapply Forall_impl; [|exact HFp]. intros i Hi. apply Hi. }
  unfold received. destruct HWp as [Hw|Hw].
  - assert (Direction p = MO /\ fo_mti (FO p) = 1) as [-> _] by (split; apply Hw).
    change (MO =? MO) with true. cbv iota. cbn [DA OA submit_fields].
    split; [|split; [unfold is_byte; cbn; lia|exact HB]]. apply addr_value_toa, Hw.
  - assert (Direction p = MT /\ fo_mti (FO p) = 0) as [-> _] by (split; apply Hw).
    change (MT =? MO) with false. cbv iota. cbn [DA OA deliver_fields].
    split; [unfold is_byte; cbn; lia|split; [|exact HB]]. apply addr_value_toa, Hw.
Qed.

(** ** Lists *)
Lemma filter_none {A} (f : A -> bool) l : (forall a, In a l -> f a = false) -> filter f l = [].
Proof. induction l as [|a l IH]; intros H; [reflexivity|]. cbn. rewrite (H a) by now left. apply IH. intros b B. apply H. now right. Qed.
Lemma filter_all {A} (f : A -> bool) l : (forall a, In a l -> f a = true) -> filter f l = l.
Proof. induction l as [|a l IH]; intros H; [reflexivity|]. cbn. rewrite (H a) by now left. f_equal. apply IH. intros b B. apply H. now right. Qed.
Lemma filter_concat_at {A} (f : A -> bool) : forall (l : list (list A)) k x, nth_error l k = Some x ->
  (forall a, In a x -> f a = true) -> (forall j y a, j <> k -> nth_error l j = Some y -> In a y -> f a = false) ->
  filter f (concat l) = x.
Proof.
  induction l as [|b l IH]; intros [|k] x K X Y; cbn in K; try discriminate; cbn [concat]; rewrite filter_app.
  - injection K as ->. rewrite (filter_all _ _ X), (filter_none f (concat l)), app_nil_r; [reflexivity|].
    intros a I. apply in_concat in I as (y & I & J). apply In_nth_error in I as [j I]. now apply (Y (S j) y a).
  - rewrite (filter_none f b) by (intros a I; now apply (Y 0%nat b a)). cbn [app].
    apply (IH k x K X). intros j y a N. apply (Y (S j)). lia.
Qed.
Lemma nodup_map_filter {A B} (p : A -> bool) (f : A -> B) : forall l,
  (forall j k a b, j <> k -> nth_error l j = Some a -> nth_error l k = Some b -> p a = true -> p b = true -> f a <> f b) ->
  NoDup (map f (filter p l)).
Proof.
  induction l as [|a l IH]; intros H; [constructor|]. cbn [filter].
  assert (NoDup (map f (filter p l))) as ND.
  { apply IH. intros j k x y N. apply (H (S j) (S k)). lia. }
  destruct (p a) eqn:EA; [|exact ND]. cbn [map]. constructor; [|exact ND]. intros I.
  apply in_map_iff in I as (b & E & I). apply filter_In in I as [I PB]. apply In_nth_error in I as [k K].
  apply (H 0%nat (S k) a b); auto.
Qed.
Lemma flat_map_concat_l {A B} (f : A -> list B) L : flat_map f (concat L) = concat (map (flat_map f) L).
Proof. induction L as [|l L IH]; [reflexivity|]. cbn. now rewrite flat_map_app, IH. Qed.
Lemma filter_map_comm {A B} (f : A -> B) (p : B -> bool) l : filter p (map f l) = map f (filter (fun x => p (f x)) l).
Proof. induction l as [|a l IH]; [reflexivity|]. cbn. destruct (p (f a)); cbn; now rewrite IH. Qed.
Lemma split_parts (l : list (list tpdu)) :
  Permutation (filter (fun x => negb (len x =? 0)) l) (filter (fun x => len x =? 1) l ++ filter multi_part l).
Proof.
  induction l as [|a l IH]; [constructor|]. cbn [filter]. unfold multi_part at 1. pose proof (len_nonneg a).
  destruct (len a =? 0) eqn:E0, (len a =? 1) eqn:E1, (1 <? len a) eqn:E2; cbn [negb app]; try lia; auto.
  now rewrite <- Permutation_middle, <- IH.
Qed.
Lemma hands_single l : (forall t o, In (t, o) l -> hands o = [[Some t]]) ->
  flat_map (fun p => hands (snd p)) l = map (fun t => [Some t]) (map fst l).
Proof.
  induction l as [|[t o] l IH]; intros H; [reflexivity|]. cbn [flat_map map snd fst]. rewrite (H t o) by now left. cbn [app].
  f_equal. apply IH. intros t' o' I. apply H. now right.
Qed.
Lemma map_fst_filter {A B} (f : A -> bool) (l : list (A * B)) : map fst (filter (fun p => f (fst p)) l) = filter f (map fst l).
Proof. induction l as [|[a b] l IH]; [reflexivity|]. cbn. destruct (f a); cbn; now rewrite IH. Qed.
Lemma singles_concat (l : list (list tpdu)) (f : tpdu -> bool) :
  (forall x a, In x l -> len x = 1 -> In a x -> f a = true) -> (forall x a, In x l -> 1 < len x -> In a x -> f a = false) ->
  map (fun t => [Some t]) (filter f (concat l)) = map (map Some) (filter (fun x => len x =? 1) l).
Proof.
  induction l as [|x l IH]; intros H1 H2; [reflexivity|]. cbn [concat filter]. rewrite filter_app, map_app, IH.
  - destruct x as [|a [|b x]].
    + reflexivity.
    + cbn [filter]. rewrite (H1 [a] a) by (cbn; auto). reflexivity.
    + rewrite filter_none.
      * destruct (len (a :: b :: x) =? 1) eqn:E; [unfold len in E; cbn [length] in E; lia|reflexivity].
      * intros c C. apply (H2 (a :: b :: x)); [now left|unfold len; cbn [length]; lia|exact C].
  - intros y a Y. apply H1. now right.
  - intros y a Y. apply H2. now right.
Qed.

Lemma numbers_of m rcvd es : (forall k g, nth_error rcvd k = Some (sg_pdu g) -> is_segment m (Z.of_nat k + 1) g) ->
  m_total m = len rcvd -> 1 < len rcvd -> Forall typed_event es ->
  Permutation (map (fun p => sg_pdu (snd p)) (parts m es)) rcvd ->
  proper_message m /\ Permutation (map fst (parts m es)) (map Z.of_nat (seq 1 (Z.to_nat (m_total m)))).
Proof.
  intros HSeg MT LN SE PE.
  assert (HP : forall i g, In (i, g) (parts m es) -> seg_no m g = Some i /\ typed g).
  { intros i g Hi. unfold parts in Hi. apply in_flat_map in Hi as (ev & HV & Hi). rewrite Forall_forall in SE.
    specialize (SE ev HV). destruct ev as [g'| | |?|?|?]; try contradiction.
    destruct (seg_no m g') as [i'|] eqn:EN; [|contradiction]. destruct Hi as [Hi|[]]. injection Hi as -> ->. auto. }
  split.
  { destruct (parts m es) as [|[i g] ps] eqn:EP.
    { apply Permutation_length in PE. cbn in PE. unfold len in LN. lia. }
    destruct (HP i g (or_introl eq_refl)) as (SN & TY). apply seg_no_iff in SN.
    assert (SU : supported g) by (destruct SN as (_ & [(_ & A & _)|(_ & A & _)]); unfold supported; auto).
    destruct (part_message g _ _ _ TY SU (proj1 SN) ltac:(unfold len in *; lia)) as (m' & MO' & _ & SG & _).
    destruct (segment_message _ _ _ _ _ SN SG) as (-> & _). exact MO'. }
  set (num := fun r => match tpdu_concat_info r with Some (_, i, _) => i | None => 0 end).
  assert (HN1 : map fst (parts m es) = map num (map (fun p => sg_pdu (snd p)) (parts m es))).
  { rewrite map_map. apply map_ext_in. intros [i g] Hi. cbn [fst snd]. apply HP in Hi as (Hi & _). apply seg_no_iff in Hi as [Hi _].
    unfold num. now rewrite Hi. }
  assert (HN3 : map num rcvd = map Z.of_nat (seq 1 (Z.to_nat (m_total m)))).
  { rewrite MT. replace (Z.to_nat (len rcvd)) with (length rcvd) by (unfold len; lia).
    apply nth_error_ext; [now rewrite !map_length, seq_length|]. intros k x Hx. rewrite nth_error_map in *.
    destruct (nth_error rcvd k) as [r|] eqn:ER; [|discriminate]. cbn [option_map] in Hx. injection Hx as <-.
    destruct (HSeg k {| sg_pdu := r; sg_id := 0 |} ER) as (X & _). cbn [sg_pdu] in X. unfold num. rewrite X.
    assert (k < length rcvd)%nat as Lk by (apply nth_error_Some; congruence).
    rewrite (nth_error_nth' _ 0%nat) by (rewrite seq_length; exact Lk). rewrite seq_nth by exact Lk.
    cbn [option_map]. f_equal. lia. }
  rewrite HN1, <- HN3. now apply Permutation_map.
Qed.

(** ** All the messages *)
Section Exchange.
  Variables (e : sms_encoder) (calls : list (bytes * list encoder_opt)) (texts : list bytes) (sched : list nat)
    (n : counters) (cs : list counting) (outs : list (list tpdu)) (cfg : ccfg) (es : list event).
  Hypotheses (HI : interleaved e calls sched n cs) (HN : len calls <= 256)
    (HR : map returned cs = map (fun p => Some (Ok p)) outs)
    (HC : Forall2 (fun c text => let e' := with_options e (snd c) in
       template_ok (e_pdu e') /\ meant (DCS (e_pdu e')) (e_eopts e') (fst c) text) calls texts)
    (HL : Forall (fun p => len p <= 255) outs)
    (HP : Permutation (collected es) (concat (map (map received) outs)))
    (HO : Forall (fun ev => ev <> EvClose) es)
    (HT : forall m, proper_message m -> Permutation (map fst (parts m es)) (map Z.of_nat (seq 1 (Z.to_nat (m_total m)))) ->
       no_timeout cfg m new_collector es).

  Lemma outs_length : length outs = length calls.
  Proof.
    destruct (interleaved_shared _ _ _ _ _ HI) as (? & ? & ? & ? & L & _). rewrite map_length in L.
    rewrite <- L, <- (map_length returned cs), HR, map_length. reflexivity.
  Qed.
  Lemma out_returned k out : nth_error outs k = Some out -> option_map returned (nth_error cs k) = Some (Some (Ok out)).
  Proof. intros K. rewrite <- nth_error_map, HR, nth_error_map, K. reflexivity. Qed.
  Lemma Forall2_nth {A B} (P : A -> B -> Prop) l l' : Forall2 P l l' -> forall k a, nth_error l k = Some a ->
    exists b, nth_error l' k = Some b /\ P a b.
  Proof.
    induction 1 as [|a b l l' H _ IH]; intros k x K; [destruct k; discriminate|]. destruct k as [|k]; cbn in *; [|now apply IH].
    injection K as <-. eauto.
  Qed.
  Lemma out_flow k out : nth_error outs k = Some out ->
    exists msg opts text, nth_error calls k = Some (msg, opts) /\ nth_error texts k = Some text /\
    (forall s, In s out -> tpdu_wf s) /\
    (forall dopts, decodes_with (e_eopts (with_options e opts)) dopts ->
       decode_loop (map Some (map received out)) None dopts = Ok text) /\
    (len out = 1 -> forall s, In s out -> tpdu_concat_info s = None) /\
    (1 < len out -> exists da oa ref st, forall k s, nth_error out k = Some s ->
       tpdu_concat_info s = Some (len out mod 256, (Z.of_nat k + 1) mod 256, ref) /\ DA s = da /\ OA s = oa /\ tpdu_type s = st) /\
    (forall s, In s out -> Forall ie_fits (ies (UDH s))).
  Proof.
    intros K. destruct (nth_error_ex calls k (length calls) eq_refl) as [[msg opts] EK].
    { rewrite <- outs_length. apply nth_error_Some. congruence. }
    destruct (Forall2_nth _ _ _ HC _ _ EK) as (text & ET & T1 & T2). cbn [fst snd] in *.
    exists msg, opts, text. split; [exact EK|]. split; [exact ET|].
    exact (flow_at _ _ _ _ _ _ _ _ _ _ HI EK (out_returned _ _ K) T1 T2).
  Qed.

  (** The class of each received TPDU. *)
  Lemma class_one k out t : nth_error outs k = Some out -> len out = 1 -> In t (map received out) -> tpdu_concat_info t = None.
  Proof.
    intros K L I. apply in_map_iff in I as (s & <- & I). rewrite received_info.
    destruct (out_flow _ _ K) as (_ & _ & _ & _ & _ & _ & _ & H & _). now apply H.
  Qed.
  Lemma class_many k out t : nth_error outs k = Some out -> 1 < len out -> In t (map received out) ->
    cls t = reference_of out /\ reference_of out <> None.
  Proof.
    intros K L I. apply in_map_iff in I as (s & <- & I). unfold cls. rewrite received_info. fold (cls s).
    exact (reference_class _ _ _ _ _ _ _ HI (out_returned _ _ K) L s I).
  Qed.
  Lemma refs_apart j k a b : j <> k -> nth_error outs j = Some a -> nth_error outs k = Some b ->
    multi_part a = true -> multi_part b = true -> reference_of a <> reference_of b.
  Proof.
    intros N J K MA MB. destruct (C97_distinct _ _ _ _ _ j k a b HI HN N (out_returned _ _ J) MA (out_returned _ _ K) MB)
      as (r & r' & -> & -> & D). congruence.
  Qed.
  Lemma in_outs t : In t (collected es) -> exists k out, nth_error outs k = Some out /\ In t (map received out).
  Proof.
    intros I. apply (Permutation_in _ HP) in I. apply in_concat in I as (r & R & I). apply in_map_iff in R as (out & <- & R).
    apply In_nth_error in R as [k R]. eauto.
  Qed.
  Lemma all_typed : Forall typed_event es.
  Proof.
    apply Forall_forall. intros ev I. destruct ev; cbn; auto.
    destruct (in_outs (sg_pdu g)) as (k & out & K & T).
    { apply in_flat_map. exists (EvCollect g). split; [exact I|now left]. }
    apply in_map_iff in T as (s & E & T). destruct (out_flow _ _ K) as (_ & _ & _ & _ & _ & H1 & _ & _ & _ & H2).
    eapply received_typed; eauto.
  Qed.

  (** What Collect says of the parts of one message. *)
  Lemma many_replies k out : nth_error outs k = Some out -> 1 < len out ->
    exists m gs, map sg_pdu gs = map received out /\
      (forall t, In t (collected es) -> part_of m t = in_class option_Z_dec cls (reference_of out) t) /\
      replies m es (snd (run cfg new_collector es)) =
        repeat (OCollect (CReturn None None)) (length out - 1) ++ [OCollect (CReturn (Some (map Some gs)) None)].
  Proof.
    intros K L. assert (len out <= 255) as L2 by (rewrite Forall_forall in HL; apply HL; eapply nth_error_In; eauto).
    destruct (out_flow _ _ K) as (_ & _ & _ & _ & _ & HW & _ & _ & H2 & HF).
    assert (H2' : exists da oa ref st, forall k s, nth_error out k = Some s ->
     tpdu_concat_info s = Some (len out, Z.of_nat k + 1, ref) /\ DA s = da /\ OA s = oa /\ tpdu_type s = st).
    { destruct (H2 L) as (da & oa & ref & st & X). exists da, oa, ref, st. intros i s Hi. destruct (X i s Hi) as (C & R).
      split; [|exact R]. assert (Z.of_nat i < len out) by (unfold len; apply inj_lt, nth_error_Some; congruence).
      now rewrite !Z.mod_small in C by lia. }
    destruct (numbered_reassembled out HW HF L H2') as (m & MT & MS & MR).
    assert (forall t, In t (map received out) -> part_of m t = true) as P1.
    { intros t I. apply In_nth_error in I as [i I]. unfold part_of.
      assert (seg_no m {| sg_id := 0; sg_pdu := t |} = Some (Z.of_nat i + 1)) as -> by (apply seg_no_iff, MS; exact I). reflexivity. }
    assert (forall t, part_of m t = true -> cls t = Some (m_ref m)) as P2.
    { intros t. unfold part_of. destruct (seg_no m {| sg_id := 0; sg_pdu := t |}) as [i|] eqn:E; [|discriminate]. intros _.
      apply seg_no_iff in E as [E _]. cbn [sg_pdu] in E. unfold cls. now rewrite E. }
    assert (reference_of out = Some (m_ref m)) as RF.
    { destruct out as [|s out']; [discriminate L|]. assert (In (received s) (map received (s :: out'))) as I by now left.
      rewrite <- (proj1 (class_many _ _ _ K L I)). apply P2, P1, I. }
    assert (forall t, In t (collected es) -> part_of m t = in_class option_Z_dec cls (reference_of out) t) as PC.
    { intros t I. destruct (in_outs t I) as (j & o & J & T). unfold in_class. rewrite RF.
      destruct (part_of m t) eqn:E.
      - rewrite (P2 t E). destruct option_Z_dec; congruence.
      - destruct option_Z_dec as [Q|Q]; [|reflexivity]. exfalso. destruct (Nat.eq_dec j k) as [->|NE].
        + assert (o = out) by congruence. subst o. rewrite (P1 t T) in E. discriminate.
        + assert (len o = 1 \/ 1 < len o) as [L1|L1].
          { destruct o as [|a [|b o]]; [destruct T|left; reflexivity|right; unfold len; cbn [length]; lia]. }
          * unfold cls in Q. rewrite (class_one _ _ _ J L1 T) in Q. discriminate.
          * apply (refs_apart j k o out); auto; try (unfold multi_part; now apply Z.ltb_lt).
            rewrite RF, <- Q. symmetry. eapply class_many; eauto. }
    assert (Permutation (map (fun p => sg_pdu (snd p)) (parts m es)) (map received out)) as PE.
    { rewrite parts_collected. rewrite (filter_perm _ _ _ HP).
      rewrite (filter_concat_at (part_of m) (map (map received) outs) k (map received out)); [reflexivity| | |].
      - now rewrite nth_error_map, K.
      - exact P1.
      - intros j y a NE J I. rewrite nth_error_map in J. destruct (nth_error outs j) as [o|] eqn:EJ; [|discriminate].
        cbn in J. injection J as <-. destruct (part_of m a) eqn:E; [|reflexivity]. exfalso. apply P2 in E.
        assert (len o = 1 \/ 1 < len o) as [L1|L1].
        { destruct o as [|x [|z o]]; [destruct I|left; reflexivity|right; unfold len; cbn [length]; lia]. }
        + unfold cls in E. rewrite (class_one _ _ _ EJ L1 I) in E. discriminate.
        + apply (refs_apart j k o out); auto; try (unfold multi_part; now apply Z.ltb_lt).
          rewrite RF, <- E. symmetry. eapply class_many; eauto. }
    destruct (numbers_of m (map received out) es MS) as (NM1 & NM2); [rewrite len_map; exact MT|now rewrite len_map|exact all_typed|exact PE|].
    destruct (MR cfg new_collector es) as (gs & G1 & G2).
    - exists []. split; [constructor|reflexivity].
    - reflexivity.
    - intros g [].
    - eapply Forall_impl; [|exact all_typed]. auto.
    - exact HO.
    - now apply HT.
    - exact PE.
    - exists m, gs. split; [exact G2|]. split; [exact PC|]. rewrite map_length in G1. exact G1.
  Qed.

  Let l := pairs es (snd (run cfg new_collector es)).
  Lemma l_collected : map fst l = collected es.
  Proof. apply pairs_collected, run_length. Qed.
  Lemma in_l t o : In (t, o) l -> In t (collected es).
  Proof. intros I. rewrite <- l_collected. now apply (in_map fst) in I. Qed.

  Lemma filter_ext_in' {A} (f g : A -> bool) x : (forall a, In a x -> f a = g a) -> filter f x = filter g x.
  Proof. apply filter_ext_in. Qed.

  Lemma many_handed k out : nth_error outs k = Some out -> 1 < len out ->
    flat_map (fun p => hands (snd p)) (filter (in_class option_Z_dec (fun p => cls (fst p)) (reference_of out)) l) =
    [map Some (map received out)].
  Proof.
    intros K L. destruct (many_replies k out K L) as (m & gs & G1 & PC & RP).
    rewrite replies_pairs in RP. fold l in RP.
    rewrite (filter_ext_in' _ (fun p => part_of m (fst p))).
    2:{ intros [t o] I. cbn [fst]. rewrite (PC t (in_l _ _ I)). reflexivity. }
    rewrite flat_map_concat_map. rewrite <- (map_map snd hands). rewrite RP. rewrite map_app, concat_app. cbn [map concat hands].
    rewrite app_nil_r. replace (concat (map hands (repeat _ _))) with (@nil (list (option tpdu))).
    - cbn [app]. rewrite <- G1. rewrite !map_map. reflexivity.
    - generalize (length out - 1)%nat. intros c. induction c as [|c IHc]; [reflexivity|]. cbn. exact IHc.
  Qed.

  Lemma exchange_handed : Permutation (handed_out (snd (run cfg new_collector es)))
    (map (map Some) (filter (fun r => negb (len r =? 0)) (map (map received) outs))).
  Proof.
    rewrite run_handed. fold l.
    set (classes_of := None :: map reference_of (filter multi_part outs)).
    assert (NoDup classes_of) as ND.
    { constructor.
        - intros I. apply in_map_iff in I as (out & E & I). apply filter_In in I as [I M]. apply In_nth_error in I as [k K].
          unfold multi_part in M. apply Z.ltb_lt in M. destruct out as [|s out']; [discriminate M|].
          apply (proj2 (class_many k (s :: out') (received s) K M ltac:(now left))). exact E.
        - apply nodup_map_filter. intros j k a b. apply refs_apart. }
    assert (forall x : tpdu * output, In x l -> In (cls (fst x)) classes_of) as EX.
    { intros [t o] I. cbn [fst]. destruct (in_outs t (in_l _ _ I)) as (k & out & K & T).
        assert (len out = 1 \/ 1 < len out) as [L1|L1].
        { destruct out as [|x [|z o']]; [destruct T|left; reflexivity|right; unfold len; cbn [length]; lia]. }
        - left. unfold cls. now rewrite (class_one _ _ _ K L1 T).
        - right. rewrite (proj1 (class_many _ _ _ K L1 T)). apply in_map, filter_In. split; [eapply nth_error_In; eauto|].
          unfold multi_part. now apply Z.ltb_lt. }
    rewrite (flat_map_perm _ _ _ (classes option_Z_dec (fun p : tpdu * output => cls (fst p)) classes_of l ND EX)).
    rewrite flat_map_concat_l. unfold classes_of. cbn [map concat].
    rewrite (Permutation_map (map Some) (split_parts (map (map received) outs))), map_app.
    apply Permutation_app.
    - assert (HS : forall t o, In (t, o) l -> cls t = None -> hands o = [[Some t]]).
      { intros t o I Q. apply (single_returned cfg es new_collector HO eq_refl t o I).
        unfold cls in Q. destruct tpdu_concat_info as [[[? ?] ?]|]; [discriminate|reflexivity]. }
      rewrite hands_single.
      + change (in_class option_Z_dec (fun p : tpdu * output => cls (fst p)) None) with
          (fun p : tpdu * output => in_class option_Z_dec cls None (fst p)).
        rewrite map_fst_filter, l_collected, (filter_perm _ _ _ HP). rewrite singles_concat; [reflexivity| |].
        * intros x a X L A. apply in_map_iff in X as (out & <- & X). apply In_nth_error in X as [k K]. rewrite len_map in L.
          unfold in_class, cls. rewrite (class_one _ _ _ K L A). reflexivity.
        * intros x a X L A. apply in_map_iff in X as (out & <- & X). apply In_nth_error in X as [k K]. rewrite len_map in L.
          unfold in_class. destruct (class_many _ _ _ K L A) as [-> N]. destruct option_Z_dec; [contradiction|reflexivity].
      + intros t o I. apply filter_In in I as [I Q]. apply HS; [exact I|]. unfold in_class in Q. cbn [fst] in Q.
        destruct option_Z_dec; [assumption|discriminate].
    - rewrite !map_map, filter_map_comm, map_map.
      assert (filter (fun x => multi_part (map received x)) outs = filter multi_part outs) as ->.
      { apply filter_ext. intros x. unfold multi_part. now rewrite len_map. }
      assert (forall ms, (forall out, In out ms -> exists k, nth_error outs k = Some out /\ 1 < len out) ->
        concat (map (fun x => flat_map (fun p => hands (snd p)) (filter (in_class option_Z_dec (fun p => cls (fst p)) (reference_of x)) l)) ms) =
        map (fun x => map Some (map received x)) ms) as E.
      { induction ms as [|out ms IH]; intros H; [reflexivity|]. cbn [map concat].
        destruct (H out (or_introl eq_refl)) as (k & K & L). rewrite (many_handed k out K L), IH by (intros o O; apply H; now right). reflexivity. }
      rewrite E; [reflexivity|]. intros out I. apply filter_In in I as [I M]. apply In_nth_error in I as [k K]. exists k.
      split; [exact K|]. unfold multi_part in M. lia.
  Qed.

  Lemma exchange_no_failure : Forall (fun o => ~ failed o) (snd (run cfg new_collector es)).
  Proof.
    apply Forall_forall. intros o I F. destruct (run_failed _ _ _ _ I F) as (t & J). fold l in J.
    destruct (in_outs t (in_l _ _ J)) as (k & out & K & T).
    assert (len out = 1 \/ 1 < len out) as [L1|L1].
    { destruct out as [|x [|z o']]; [destruct T|left; reflexivity|right; unfold len; cbn [length]; lia]. }
    - exact (proj2 (single_returned cfg es new_collector HO eq_refl t o J (class_one _ _ _ K L1 T)) F).
    - destruct (many_replies k out K L1) as (m & gs & G1 & PC & RP).
      assert (In o (replies m es (snd (run cfg new_collector es)))) as R.
      { rewrite replies_pairs. fold l. apply in_map_iff. exists (t, o). split; [reflexivity|]. apply filter_In. split; [exact J|].
        cbn [fst]. rewrite (PC t (in_l _ _ J)). unfold in_class. rewrite (proj1 (class_many _ _ _ K L1 T)).
        destruct option_Z_dec; congruence. }
      rewrite RP in R. apply in_app_iff in R as [R|[R|[]]].
      + apply repeat_spec in R. subst o. destruct F as [F|(? & ? & F)]; discriminate.
      + subst o. destruct F as [F|(? & ? & F)]; discriminate.
  Qed.
End Exchange.

Lemma carried_all outs rcvds : (forall out s, In out outs -> In s out -> tpdu_wf s) -> Forall2 (Forall2 carried) outs rcvds ->
  rcvds = map (map received) outs.
Proof.
  intros W H. induction H as [|out r outs rcvds H _ IH]; [reflexivity|]. cbn [map]. f_equal.
  - assert (forall s, In s out -> tpdu_wf s) as W' by (intros s; apply W; now left). clear - H W'.
    induction H as [|s t out r H _ IH]; [reflexivity|]. cbn [map]. f_equal.
    + apply (carried_fun s); [exact H|]. apply carried_ok, W'. now left.
    + apply IH. intros x X. apply W'. now right.
  - apply IH. intros o s O. apply W. now right.
Qed.

Lemma exchange_all : forall e calls texts sched n cs outs rcvds cfg es,
  interleaved e calls sched n cs -> len calls <= 256 ->
  map returned cs = map (fun p => Some (Ok p)) outs ->
  Forall2 (fun c text => let e' := with_options e (snd c) in
     template_ok (e_pdu e') /\ meant (DCS (e_pdu e')) (e_eopts e') (fst c) text) calls texts ->
  Forall (fun p => len p <= 255) outs ->
  Forall2 (Forall2 carried) outs rcvds ->
  Permutation (collected es) (concat rcvds) ->
  Forall (fun ev => ev <> EvClose) es ->
  (Forall typed_event es -> forall m, proper_message m -> Permutation (map fst (parts m es)) (map Z.of_nat (seq 1 (Z.to_nat (m_total m)))) ->
     no_timeout cfg m new_collector es) ->
  Permutation (handed_out (snd (run cfg new_collector es)))
    (map (map Some) (filter (fun r => negb (len r =? 0)) rcvds)) /\
  Forall (fun o => ~ failed o) (snd (run cfg new_collector es)) /\
  (forall k msg opts text rcvd dopts, nth_error calls k = Some (msg, opts) -> nth_error texts k = Some text ->
     nth_error rcvds k = Some rcvd -> dopts = [] \/ decodes_with (e_eopts (with_options e opts)) dopts ->
     decode (map Some rcvd) dopts = Ok text).
Proof.
  intros e calls texts sched n cs outs rcvds cfg es HI HN HR HC HL HV HP HO HT.
  assert (forall out s, In out outs -> In s out -> tpdu_wf s) as W.
  { intros out s O. apply In_nth_error in O as [k K].
    destruct (out_flow e calls texts sched n cs outs HI HR HC k out K) as (_ & _ & _ & _ & _ & H & _). apply H. }
  rewrite (carried_all _ _ W HV) in *. clear HV.
  assert (Forall typed_event es) as TY by (eapply all_typed; eauto). specialize (HT TY). split; [|split].
  - eapply exchange_handed; eauto.
  - eapply exchange_no_failure; eauto.
  - intros k msg opts text rcvd dopts K KT KR HD. rewrite nth_error_map in KR.
    destruct (nth_error outs k) as [out|] eqn:KO; [|discriminate]. cbn in KR. injection KR as <-.
    destruct (out_flow e calls texts sched n cs outs HI HR HC k out KO) as (msg' & opts' & text' & K' & KT' & _ & H & _).
    assert (opts' = opts /\ text' = text) as [-> ->] by (split; congruence).
    unfold decode. apply H. destruct HD as [-> |HD]; [right; now left|]. destruct dopts; [right; now left|exact HD].
Qed.

(** Up to 256 messages, encoded by calls of Encode in any interleaving; their
    TPDUs, up to 255 each, sent, and collected in any order, none lost or doubled,
    and among any other events but Close and the firing of the timer of one of
    them: Collect returns each message once, whole and in order, and nothing else,
    and never an error; and each decodes to its text. *)
Theorem C98_every_text : forall e calls texts sched n cs outs rcvds cfg es,
  interleaved e calls sched n cs -> len calls <= 256 ->
  map returned cs = map (fun p => Some (Ok p)) outs ->
  Forall2 (fun c text => let e' := with_options e (snd c) in
     template_ok (e_pdu e') /\ meant (DCS (e_pdu e')) (e_eopts e') (fst c) text) calls texts ->
  Forall (fun p => len p <= 255) outs ->
  Forall2 (Forall2 carried) outs rcvds ->
  Permutation (collected es) (concat rcvds) ->
  Forall (fun ev => ev <> EvClose) es -> (forall m, no_timeout cfg m new_collector es) ->
  Permutation (handed_out (snd (run cfg new_collector es)))
    (map (map Some) (filter (fun r => negb (len r =? 0)) rcvds)) /\
  Forall (fun o => ~ failed o) (snd (run cfg new_collector es)) /\
  (forall k msg opts text rcvd dopts, nth_error calls k = Some (msg, opts) -> nth_error texts k = Some text ->
     nth_error rcvds k = Some rcvd -> dopts = [] \/ decodes_with (e_eopts (with_options e opts)) dopts ->
     decode (map Some rcvd) dopts = Ok text).
Proof. intros e calls texts sched n cs outs rcvds cfg es HI HN HR HC HL HV HP HO HT. eapply exchange_all; eauto. Qed.
Print Assumptions C98_every_text.

(** In particular no timer fires on them if timers are not early and the parts of
    each message come less than the timeout after each other. *)
Theorem C98_in_time : forall e calls texts sched n cs outs rcvds cfg d h,
  let es := map snd h in
  interleaved e calls sched n cs -> len calls <= 256 ->
  map returned cs = map (fun p => Some (Ok p)) outs ->
  Forall2 (fun c text => let e' := with_options e (snd c) in
     template_ok (e_pdu e') /\ meant (DCS (e_pdu e')) (e_eopts e') (fst c) text) calls texts ->
  Forall (fun p => len p <= 255) outs ->
  Forall2 (Forall2 carried) outs rcvds ->
  Permutation (collected es) (concat rcvds) ->
  Forall (fun ev => ev <> EvClose) es ->
  history (not_early d) cfg h -> (forall m, close_together d (arrivals m h)) ->
  Permutation (handed_out (snd (run cfg new_collector es)))
    (map (map Some) (filter (fun r => negb (len r =? 0)) rcvds)) /\
  Forall (fun o => ~ failed o) (snd (run cfg new_collector es)) /\
  (forall k msg opts text rcvd dopts, nth_error calls k = Some (msg, opts) -> nth_error texts k = Some text ->
     nth_error rcvds k = Some rcvd -> dopts = [] \/ decodes_with (e_eopts (with_options e opts)) dopts ->
     decode (map Some rcvd) dopts = Ok text).
Proof.
  intros e calls texts sched n cs outs rcvds cfg d h es HI HN HR HC HL HV HP HO HH HD. eapply exchange_all; eauto.
  intros TY m PM PN. now apply (C87_no_timer cfg d m h PM TY HO HH).
Qed.
Print Assumptions C98_in_time.

(** Two messages of two TPDUs, encoded in turns and collected out of order. *)
Definition exchange_encoder : sms_encoder :=
  {| e_eopts := []; e_pdu := set_DCSf flow_template 4; e_msg_count := 0; e_concat_ref := 255 |}.
Definition exchange_calls : list (bytes * list encoder_opt) := [(repeat 1 150, []); (repeat 2 140, [])].
Example C98_instance : exists n a b c d ra rb rc rd,
  let outs := [[a; b]; [c; d]] in
  let rcvds := [[ra; rb]; [rc; rd]] in
  let es := [EvCollect {| sg_id := 0; sg_pdu := rd |}; EvCollect {| sg_id := 1; sg_pdu := ra |}; EvPipes;
             EvCollect {| sg_id := 2; sg_pdu := rc |}; EvCollect {| sg_id := 3; sg_pdu := rb |}] in
  let cfg := {| cf_timeout := true; cf_handler := true |} in
  let cs := [CDone (Ok [a; b]); CDone (Ok [c; d])] in
  interleaved exchange_encoder exchange_calls [0; 1; 1; 0; 0; 1; 0; 1]%nat n cs /\
  map returned cs = map (fun p => Some (Ok p)) outs /\
  Forall2 (fun c text => let e' := with_options exchange_encoder (snd c) in
     template_ok (e_pdu e') /\ meant (DCS (e_pdu e')) (e_eopts e') (fst c) text) exchange_calls [repeat 1 150; repeat 2 140] /\
  Forall (fun p => len p <= 255) outs /\
  Forall2 (Forall2 carried) outs rcvds /\
  Permutation (collected es) (concat rcvds) /\
  Forall (fun ev => ev <> EvClose) es /\ (forall m, no_timeout cfg m new_collector es) /\
  handed_out (snd (run cfg new_collector es)) = [[Some rc; Some rd]; [Some ra; Some rb]] /\
  (let h := combine [0; 2; 3; 4; 6] es ++ [(10, EvFire 0)] in
   history (not_early 10) cfg h /\ (forall m, close_together 10 (arrivals m h)) /\
   handed_out (snd (run cfg new_collector (map snd h))) = [[Some rc; Some rd]; [Some ra; Some rb]]).
Proof.
  eexists _, _, _, _, _, _, _, _, _. cbv zeta.
  split; [vm_compute; reflexivity|]. split; [reflexivity|].
  assert (T : template_ok (set_DCSf flow_template 4)).
  { destruct (proj1 C41_template_instance) as (H1 & H2 & _ & H4 & H5).
    split; [exact H1|]. split; [exact H2|]. split; [unfold is_byte; cbn; lia|]. split; [exact H4|exact H5]. }
  split; [repeat (constructor; [split; [exact T|split; [apply Forall_forall; intros x X; apply repeat_spec in X; subst x; unfold is_byte; lia|reflexivity]]|]); constructor|].
  split; [repeat constructor; vm_compute; discriminate|].
  split.
  { repeat (apply Forall2_cons || apply Forall2_nil);
    (eexists; split; [vm_compute; reflexivity|]; split; [|vm_compute; reflexivity]);
    repeat (apply Forall_cons; [unfold is_byte; lia|]); apply Forall_nil. }
  split.
  { cbn [collected flat_map sg_pdu app concat].
    match goal with |- Permutation [?d; ?a; ?c; ?b] _ => transitivity (a :: b :: [c; d]); [|reflexivity] end.
    etransitivity; [apply perm_swap|]. apply perm_skip. 
    match goal with |- Permutation [?d; ?c; ?b] _ => apply (Permutation_rev [d; c; b]) end. }
  split; [repeat (constructor; [discriminate|]); constructor|].
  split; [intros m; cbn [no_timeout]; repeat split|].
  split; [vm_compute; reflexivity|]. cbv zeta. split; [|split].
  - exists 0. apply (keeps_b_ok _ (early_b 10)); [apply early_b_ok|vm_compute; reflexivity].
  - intros m. cbn [combine app arrivals flat_map fst snd].
    repeat match goal with |- context [seg_no ?a ?b] => destruct (seg_no a b) end; cbn; lia.
  - vm_compute. reflexivity.
Qed.
