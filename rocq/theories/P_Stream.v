(** C91: messages of one Encoder that arrive in each other's midst.  SpecStream.v
    says what arrives and which messages are complete; Readme.v models the loops. *)
From Coq Require Import Permutation.
From Verif Require Import GoBase GoLemmas Utf SpecText Charset Gsm7 Dcs FirstOctet SpecDigits
  UserData Tpdu Segment Sms SpecSelect SpecDcs SpecSms SpecTime SpecVP SpecTpdu Address GoTime ValidityPeriod
  Collector SpecCollect SpecFlow SafeLemmas SegmentProofs SmsProofs FlowProofs Readme SpecReadme P_Readme SpecStream StreamProofs.

(** Whichever TPDUs of the messages arrive, in whatever order, the receiving loop
    handles the messages of which all arrive, once and when the last does, and
    nothing else.  The messages of different senders may be mixed as well.
    Left out: what C90_stream_partial leaves out; and schedules by which a message
    is overtaken by the 256th after it of the same sender (see
    [C91_interleaved_refuted]). *)
Theorem C91_senders_partial : forall mo posts sched,
  Forall (posted mo) posts -> NoDup (map (fun p => peer (e_pdu (p_encoder p))) posts) ->
  let arrived := concat (map p_arrived posts) in
  in_window (within256_of (map (fun p => length (p_arrived p)) posts)) arrived arrived sched ->
  readme_receive mo new_collector 0 (arrival arrived sched) = (completed arrived (concat (map p_texts posts)) sched, Waits).
Proof.
  intros mo posts sched FP ND arrived W.
  assert (FSS : exists fss, map (map fl_arr) fss = map p_arrived posts /\ map (map fl_text) fss = map p_texts posts /\
    Forall (Forall (good_flight mo)) fss /\ Forall (spaced within256) fss /\
    Forall2 (fun fs a => forall f m, In f fs -> fl_msg f = Some m -> m_toa m = a_toa a /\ m_addr m = a_addr a) fss
      (map (fun p => peer (e_pdu (p_encoder p))) posts)).
  { clear - FP. induction FP as [|p posts (HT & HD & HM & sent & HS & LN & PE) _ (fss & A & B & C & D & E)].
    - exists []. cbn [map]. repeat split; constructor.
    - destruct (all_flights mo (p_msgs p) (p_texts p) (p_encoder p) sent (p_arrived p) HD HT HM HS LN PE) as (fs & F1 & F2 & F3 & F4).
      exists (fs :: fss). cbn [map]. split; [congruence|]. split; [congruence|]. split; [constructor; assumption|].
      split; constructor; auto.
      + apply (refs_spaced (e_concat_ref (p_encoder p))). intros j f m H1 H2. now apply (F4 j f m).
      + intros f m H1 H2. apply In_nth_error in H1 as (j & H1). now apply (F4 j f m). }
  destruct FSS as (fss & A & B & C & D & E).
  assert (EA : arrived = map fl_arr (concat fss)) by (unfold arrived; rewrite <- A; symmetry; apply concat_map).
  assert (EC : map (fun p => length (p_arrived p)) posts = map (@length flight) fss).
  { rewrite <- (map_map p_arrived (@length (list bytes))), <- A, map_map. apply map_ext. intros l. apply map_length. }
  assert (concat (map p_texts posts) = map fl_text (concat fss)) as -> by (rewrite <- B; symmetry; apply concat_map).
  rewrite EC in W. rewrite EA in *.
  assert (GOOD : Forall (good_flight mo) (concat fss)) by (clear - C; induction C; cbn [concat]; [constructor|apply Forall_app; auto]).
  apply (stream_loop mo (within256_of (map (@length flight) fss)) (concat fss) GOOD (senders_spaced _ _ D E ND)); [apply (stream_start mo (concat fss) GOOD)|exact W].
Qed.
Print Assumptions C91_senders_partial.

(** The same for one sender. *)
Theorem C91_interleaved_partial : forall e msgs texts sent arrived sched,
  template_posted (e_pdu e) -> Forall2 (meant (DCS (e_pdu e)) (e_eopts e)) msgs texts ->
  readme_send e msgs = Ok sent -> Forall (fun bs => 1 <= len bs <= 255) sent ->
  Forall2 (@Permutation bytes) sent arrived -> in_window within256 arrived arrived sched ->
  readme_receive (Direction (e_pdu e) =? MO) new_collector 0 (arrival arrived sched) =
    (completed arrived texts sched, Waits).
Proof.
  intros e msgs texts sent arrived sched HT HM HS LN PE W.
  destruct (all_flights _ msgs texts e sent arrived eq_refl HT HM HS LN PE) as (fs & <- & <- & GOOD & REF).
  apply (stream_loop _ within256 fs GOOD).
  - apply (refs_spaced (e_concat_ref e)). intros j f m H1 H2. now apply (REF j f m).
  - apply (stream_start _ fs GOOD).
  - exact W.
Qed.
Print Assumptions C91_interleaved_partial.

(** With no more than 256 messages every schedule will do. *)
Theorem C91_few_partial : forall e msgs texts sent arrived sched, (length msgs <= 256)%nat ->
  template_posted (e_pdu e) -> Forall2 (meant (DCS (e_pdu e)) (e_eopts e)) msgs texts ->
  readme_send e msgs = Ok sent -> Forall (fun bs => 1 <= len bs <= 255) sent ->
  Forall2 (@Permutation bytes) sent arrived ->
  readme_receive (Direction (e_pdu e) =? MO) new_collector 0 (arrival arrived sched) =
    (completed arrived texts sched, Waits).
Proof.
  intros e msgs texts sent arrived sched L HT HM HS LN PE. apply (C91_interleaved_partial e msgs texts sent); auto.
  assert (LA : length arrived = length msgs).
  { transitivity (length sent); [clear - PE; induction PE; cbn [length]; congruence|].
    clear - HS. revert e sent HS. induction msgs as [|m msgs IH]; intros e sent HS; cbn [readme_send] in HS.
    - apply ok_inj in HS. now subst.
    - apply bind_ok in HS as ([bs e'] & _ & HS). apply bind_ok in HS as (sent' & H2 & HS). apply ok_inj in HS. subst sent. cbn [length]. f_equal. eauto. }
  assert (W : forall sched way, length way = length arrived -> in_window within256 arrived way sched); [|now apply W].
  clear - LA L. induction sched as [|i sched IH]; intros way LW; cbn [in_window]; [exact I|].
  destruct (nth_error way i) as [[|b q]|] eqn:E; try now apply IH.
  assert (i < length way)%nat by (apply nth_error_Some; congruence). split.
  - intros j (q0 & q1 & A & _). assert (j < length arrived)%nat by (apply nth_error_Some; congruence). unfold within256. lia.
  - apply IH. unfold put. rewrite app_length, firstn_length. cbn [length]. rewrite skipn_length. lia.
Qed.
Print Assumptions C91_few_partial.

(** A message whose TPDUs all arrive, however late, is handled. *)
Lemma completed_all texts : forall sched way i q x, nth_error way i = Some q -> q <> [] -> nth_error texts i = Some x ->
  (length q <= count_occ Nat.eq_dec sched i)%nat -> In x (completed way texts sched).
Proof.
  induction sched as [|j sched IH]; intros way i q x HW NE HX L; [destruct q; [congruence|cbn in L; lia]|]. cbn [completed count_occ] in *.
  destruct (Nat.eq_dec j i) as [->|N].
  - rewrite HW. destruct q as [|b q]; [congruence|]. cbn [length] in L. destruct q as [|b' q]; [rewrite HX; now left|].
    apply (IH _ i (b' :: q)); auto; [|discriminate|lia]. now rewrite (nth_put way i _ _ i HW), Nat.eqb_refl.
  - assert (K : forall q' x', nth_error way j = Some x' -> In x (completed (put way j q') texts sched)).
    { intros q' x' HJ. apply (IH _ i q); auto. rewrite (nth_put way j _ _ i HJ). apply Nat.eqb_neq in N. rewrite Nat.eqb_sym in N. now rewrite N. }
    destruct (nth_error way j) as [[|b [|b' q']]|]; eauto. destruct (nth_error texts j); [right|]; eauto.
Qed.
Theorem C91_none_lost_partial : forall e msgs texts sent arrived sched,
  template_posted (e_pdu e) -> Forall2 (meant (DCS (e_pdu e)) (e_eopts e)) msgs texts ->
  readme_send e msgs = Ok sent -> Forall (fun bs => 1 <= len bs <= 255) sent ->
  Forall2 (@Permutation bytes) sent arrived -> in_window within256 arrived arrived sched ->
  forall i q text, nth_error arrived i = Some q -> nth_error texts i = Some text ->
  (length q <= count_occ Nat.eq_dec sched i)%nat ->
  In text (fst (readme_receive (Direction (e_pdu e) =? MO) new_collector 0 (arrival arrived sched))).
Proof.
  intros e msgs texts sent arrived sched HT HM HS LN PE W i q text HI HX L.
  rewrite (C91_interleaved_partial e msgs texts sent arrived sched HT HM HS LN PE W). cbn [fst]. apply (completed_all texts sched arrived i q); auto.
  clear - LN PE HI. revert i HI. induction PE as [|a b sent arrived P _ IH]; intros [|i] HI; cbn [nth_error] in HI; try discriminate.
  - injection HI as ->. apply Forall_inv in LN. intros ->. apply Permutation_sym, Permutation_nil in P. subst a. cbn in LN. lia.
  - apply Forall_inv_tail in LN. eauto.
Qed.
Print Assumptions C91_none_lost_partial.

(** Beyond: the reference of eight bits comes again.  If of a message of two TPDUs
    the first arrives, and then the second of the 256th message after it, a
    message is handled that was never sent. *)
Definition octets_encoder : sms_encoder := sms_new_encoder [AsSubmit; To [54; 51; 57; 49]; As8Bit].
Definition ex_texts : list bytes := repeat 97 141 :: repeat (repeat 98 141) 256.
Definition ex_sent : list (list bytes) := match readme_send octets_encoder ex_texts with Ok s => s | _ => [] end.
Definition ex_arrived : list (list bytes) := match ex_sent with [] => [] | bs :: l => bs :: map (@rev bytes) l end.
Definition ex_chimera : bytes := repeat 97 134 ++ repeat 98 7.

Lemma octets_posted : template_posted (e_pdu octets_encoder).
Proof.
  left. left. unfold template_ok, header_ok. change (FO (e_pdu octets_encoder)) with 1. change (PID (e_pdu octets_encoder)) with 0.
  change (DCS (e_pdu octets_encoder)) with 4. change (UDH (e_pdu octets_encoder)) with (@None (list ie)).
  split; [unfold is_byte; lia|]. split; [unfold is_byte; lia|]. split; [unfold is_byte; lia|]. split; [reflexivity|]. left.
  split; [reflexivity|]. split; [reflexivity|]. split; [|split; [exact vv_none|reflexivity]].
  apply (av_num 145 [54; 51; 57; 49]); [unfold is_byte; lia|discriminate| |cbn; lia]. repeat apply Forall_cons; try apply Forall_nil; vm_compute; auto 20.
Qed.
Lemma octets_meant ms : Forall (Forall is_byte) ms -> Forall2 (meant (DCS (e_pdu octets_encoder)) (e_eopts octets_encoder)) ms ms.
Proof.
  intros H. induction H as [|m ms H _ IH]; constructor; auto. change (DCS (e_pdu octets_encoder)) with 4. unfold meant. change (alphabet_of 4) with (Some 1). cbv iota. auto.
Qed.
Lemma bytes_repeat n x : is_byte x -> Forall is_byte (repeat x n).
Proof. intros H. induction n; cbn [repeat]; constructor; auto. Qed.

Theorem C91_interleaved_refuted : exists e msgs texts sent arrived sched text,
  template_posted (e_pdu e) /\ Forall2 (meant (DCS (e_pdu e)) (e_eopts e)) msgs texts /\
  readme_send e msgs = Ok sent /\ Forall (fun bs => 1 <= len bs <= 255) sent /\
  Forall2 (@Permutation bytes) sent arrived /\
  fst (readme_receive (Direction (e_pdu e) =? MO) new_collector 0 (arrival arrived sched)) = [text] /\
  completed arrived texts sched = [] /\ ~ In text texts.
Proof.
  exists octets_encoder, ex_texts, ex_texts, ex_sent, ex_arrived, [0; 256]%nat, ex_chimera.
  split; [exact octets_posted|]. split.
  { apply octets_meant. unfold ex_texts. constructor; [apply bytes_repeat; unfold is_byte; lia|].
    apply Forall_forall. intros m Hm. apply repeat_spec in Hm as ->. apply bytes_repeat. unfold is_byte. lia. }
  split; [vm_compute; reflexivity|]. split.
  { apply Forall_forall. intros bs H. apply (proj1 (forallb_forall (fun bs => (1 <=? len bs) && (len bs <=? 255)) ex_sent)) in H; [lia|vm_compute; reflexivity]. }
  split.
  { unfold ex_arrived. destruct ex_sent as [|bs l]; constructor; [reflexivity|]. induction l as [|x l IH]; cbn [map]; constructor; [apply Permutation_rev|exact IH]. }
  split; [vm_compute; reflexivity|]. split; [vm_compute; reflexivity|].
  intros [H|H]; [discriminate H|]. apply repeat_spec in H. discriminate H.
Qed.
Print Assumptions C91_interleaved_refuted.

(** Two messages of two TPDUs and a short one, in each other's midst; of the third
    long one half is lost. *)
Definition ex_four : list bytes := [repeat 97 141; repeat 98 150; [1; 2]; repeat 99 141].
Example C91_instance : exists a b c d e f g, readme_send octets_encoder ex_four = Ok [[a; b]; [c; d]; [e]; [f; g]] /\
  let arrived := [[b; a]; [c; d]; [e]; [g; f]] in let sched := [1; 0; 3; 2; 1; 0]%nat in
  arrival arrived sched = [c; b; g; e; d; a] /\
  readme_receive true new_collector 0 (arrival arrived sched) = ([[1; 2]; repeat 98 150; repeat 97 141], Waits) /\
  completed arrived ex_four sched = [[1; 2]; repeat 98 150; repeat 97 141] /\ in_window within256 arrived arrived [1; 0]%nat.
Proof.
  eexists _, _, _, _, _, _, _. split; [vm_compute; reflexivity|]. cbv zeta. split; [reflexivity|]. split; [vm_compute; reflexivity|]. split; [reflexivity|].
  cbn [in_window nth_error]. unfold within256. repeat split; destruct j as [|[|[|[|j]]]]; try lia; destruct H as (q0 & q & A & _); now destruct j.
Qed.
(** Two senders whose messages have the same reference. *)
Definition sender_encoder (number : bytes) : sms_encoder := sms_new_encoder [AsDeliver; From number; As8Bit].
Example C91_senders_instance : exists a b c d, 
  readme_send (sender_encoder [54; 51; 57; 49]) [repeat 97 141] = Ok [[a; b]] /\
  readme_send (sender_encoder [54; 51; 57; 50]) [repeat 98 141] = Ok [[c; d]] /\
  readme_receive false new_collector 0 [a; c; d; b] = ([repeat 98 141; repeat 97 141], Waits) /\
  completed [[a; b]; [c; d]] [repeat 97 141; repeat 98 141] [0; 1; 1; 0]%nat = [repeat 98 141; repeat 97 141] /\
  peer (e_pdu (sender_encoder [54; 51; 57; 49])) <> peer (e_pdu (sender_encoder [54; 51; 57; 50])).
Proof.
  eexists _, _, _, _. split; [vm_compute; reflexivity|]. split; [vm_compute; reflexivity|]. split; [vm_compute; reflexivity|].
  split; [reflexivity|]. vm_compute. discriminate.
Qed.
