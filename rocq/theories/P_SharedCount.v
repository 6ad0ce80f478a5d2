(** C97: calls of Encode on one Encoder that run at the same time. *)
From Coq Require Import Permutation Sorted.
From Verif Require Import GoBase GoLemmas SafeLemmas Dcs UserData Tpdu Segment SegmentProofs SegmentFitProofs SpecSegTpdu Sms SpecSms SmsProofs EncodeProofs
  Heap HeapProofs HeapEncoderProofs SharedCount SpecShared SharedCountProofs Charset SpecText SpecSelect SpecDcs
  SpecFlow FlowProofs P_Sms P_Flow CountProofs.

Lemma interleaved_shared e calls sched n cs : interleaved e calls sched n cs ->
  exists pss qss N M, shared {| ct_msg := e_msg_count e; ct_concat := e_concat_ref e |}
    (map (fun c => begin_encode e (fst c) (snd c)) calls) n cs pss qss N M.
Proof.
  intros H. eapply run_shared; [|exact H]. apply start_shared. apply Forall_forall. intros c I.
  apply in_map_iff in I as ([m o] & <- & _). apply begin_fresh.
Qed.

Lemma shared_at e calls sched n cs k msg opts c : interleaved e calls sched n cs ->
  nth_error calls k = Some (msg, opts) -> nth_error cs k = Some c ->
  exists ps qs, StronglySorted lt ps /\
    tracked {| ct_msg := e_msg_count e; ct_concat := e_concat_ref e |} (begin_encode e msg opts) c ps qs.
Proof.
  intros I K C. destruct (interleaved_shared _ _ _ _ _ I) as (pss & qss & N & M & L1 & L2 & L3 & _ & _ & _ & F & T).
  rewrite map_length in *. assert (k < length calls)%nat as L by (apply nth_error_Some; congruence).
  destruct (nth_error_ex pss k _ L2 L) as [ps EP]. destruct (nth_error_ex qss k _ L3 L) as [qs EQ].
  exists ps, qs. split; [rewrite Forall_forall in F; apply F; eapply nth_error_In; eauto|].
  apply (T k); auto. rewrite nth_error_map, K. reflexivity.
Qed.

Lemma prepare_options e opts msg : encode_prepare (fold_left apply_encoder_opt opts e) msg = encode_prepare (with_options e opts) msg.
Proof. reflexivity. Qed.

(** Whatever else runs at the same time, a call of Encode returns what it would
    alone, but for the numbers. *)
Theorem C97_call : forall e calls sched n cs k msg opts r,
  interleaved e calls sched n cs ->
  nth_error calls k = Some (msg, opts) -> option_map returned (nth_error cs k) = Some (Some r) ->
  same_outcome r (encoder_encode e msg opts).
Proof.
  intros e calls sched n cs k msg opts r I K R. destruct (nth_error cs k) as [c|] eqn:C; [|discriminate].
  destruct c as [| |r']; cbn in R; try discriminate. injection R as ->.
  destruct (shared_at _ _ _ _ _ _ _ _ _ I K C) as (ps & qs & _ & T).
  unfold begin_encode in T. unfold encoder_encode. destruct encode_prepare as [[t d]|x| |]; cbn [bind].
  - destruct T as (q & -> & _). unfold encoder_seg_cfg.
    pose proof (segment_same t d (fun i => counter_nth (e_msg_count e) (nth i ps 0%nat))
      (counter_nth (e_msg_count (fold_left apply_encoder_opt opts e)))
      (Some (fun _ => counter_nth (e_concat_ref e) q)) (Some (counter_nth (e_concat_ref (fold_left apply_encoder_opt opts e))))) as S.
    unfold cfg_at. cbn [ct_msg ct_concat]. unfold same_res in S.
    destruct (segment t d {| sc_wide := false; sc_cr := Some (fun _ => _); sc_mr := _ |}) as [l|x| |];
    destruct (segment t d {| sc_wide := false; sc_cr := Some (counter_nth _); sc_mr := _ |}) as [l'|x'| |]; cbn; auto.
  - destruct T as (E & _). injection E as ->. reflexivity.
  - destruct T as (E & _). injection E as ->. exact Logic.I.
  - destruct T as (E & _). injection E as ->. exact Logic.I.
Qed.
Print Assumptions C97_call.

Lemma numbers_at n0 t d ps q pdus : segment t d (cfg_at n0 ps q) = Ok pdus ->
  (forall i s, nth_error pdus i = Some s -> MR s = (ct_msg n0 + 1 + Z.of_nat (nth i ps 0%nat)) mod 256) /\
  (1 < len pdus -> forall i s, nth_error pdus i = Some s -> exists l, UDH s = Some (l ++
     [{| ie_id := 0; ie_data := [(ct_concat n0 + 1 + Z.of_nat q) mod 256; len pdus mod 256; (Z.of_nat i + 1) mod 256] |}])).
Proof.
  intros HS. split.
  - intros k s Hk. pose proof (segment_inherits _ _ _ _ HS k s Hk) as HI. unfold inherits in HI.
    destruct HI as (_ & _ & _ & _ & _ & _ & _ & _ & _ & _ & _ & _ & _ & HM & _).
    rewrite HM. cbn [cfg_at sc_mr]. now rewrite counter_nth_eq, wrap64_mod256.
  - intros HL k s Hk. pose proof (segment_inherits _ _ _ _ HS k s Hk) as HI. unfold inherits in HI.
    destruct HI as (_ & _ & _ & _ & _ & _ & _ & _ & _ & _ & _ & _ & _ & _ & HX).
    destruct (len d <=? ud_block_size t) eqn:EL.
    + destruct (segment_lossless _ _ _ _ HS) as (_ & _ & HN).
      assert (length pdus <= 1)%nat by (apply HN; left; lia). unfold len in HL. lia.
    + destruct HX as (_ & _ & i & HU & HI). cbn [cfg_at sc_wide sc_cr] in HI.
      destruct HI as [HI1 HI2]. exists (ies (UDH t)). rewrite HU. do 3 f_equal.
      destruct i as [id dd]; cbn [ie_id ie_data] in *. subst. now rewrite counter_nth_eq, wrap64_mod256.
Qed.

Lemma tracked_numbers e msg opts c ps qs :
  let n0 := {| ct_msg := e_msg_count e; ct_concat := e_concat_ref e |} in
  tracked n0 (begin_encode e msg opts) c ps qs -> returned c <> None ->
  length ps = length (returned_tpdus c) /\
  exists q, qs = (if multi_part (returned_tpdus c) then [q] else []) /\
  (forall i s, nth_error (returned_tpdus c) i = Some s -> MR s = (e_msg_count e + 1 + Z.of_nat (nth i ps 0%nat)) mod 256) /\
  (1 < len (returned_tpdus c) -> forall i s, nth_error (returned_tpdus c) i = Some s -> exists l, UDH s = Some (l ++
     [{| ie_id := 0; ie_data := [(e_concat_ref e + 1 + Z.of_nat q) mod 256; len (returned_tpdus c) mod 256; (Z.of_nat i + 1) mod 256] |}])).
Proof.
  intros n0 T R. destruct c as [| |r]; cbn in R; try congruence. unfold begin_encode in T.
  assert (forall r' : res (list tpdu), oks r' = [] -> CDone r = CDone r' -> ps = [] -> qs = [] ->
    length ps = length (returned_tpdus (CDone r)) /\ exists q, qs = (if multi_part (returned_tpdus (CDone r)) then [q] else []) /\
    (forall i s, nth_error (returned_tpdus (CDone r)) i = Some s -> MR s = (e_msg_count e + 1 + Z.of_nat (nth i ps 0%nat)) mod 256) /\
    (1 < len (returned_tpdus (CDone r)) -> forall i s, nth_error (returned_tpdus (CDone r)) i = Some s -> exists l, UDH s = Some (l ++
     [{| ie_id := 0; ie_data := [(e_concat_ref e + 1 + Z.of_nat q) mod 256; len (returned_tpdus (CDone r)) mod 256; (Z.of_nat i + 1) mod 256] |}]))) as HN.
  { intros r' O E -> ->. injection E as ->. change (returned_tpdus (CDone r')) with (oks r'). rewrite O.
    split; [reflexivity|]. exists 0%nat. split; [reflexivity|]. split; intros; destruct i; discriminate. }
  destruct encode_prepare as [[t d]|x| |].
  - destruct T as (q & HS & HL & HQ). change (returned_tpdus (CDone r)) with (oks r). split; [exact HL|]. exists q.
    split; [exact HQ|]. destruct r as [pdus|x| |]; cbn [oks].
    { symmetry in HS. exact (numbers_at n0 _ _ _ _ _ HS). }
    all: split; intros; destruct i; discriminate.
  - destruct T as (E & Hp & Hq & O). eapply HN; eauto.
  - destruct T as (E & Hp & Hq & O). eapply HN; eauto.
  - destruct T as (E & Hp & Hq & O). eapply HN; eauto.
Qed.

(** Its message references are, in order, values the counter took one after the
    other, though perhaps not next to each other; and all the parts of a longer
    message have the same reference number, with their total and numbers. *)
Theorem C97_numbers : forall e calls sched n cs k pdus,
  interleaved e calls sched n cs ->
  option_map returned (nth_error cs k) = Some (Some (Ok pdus)) ->
  exists ps q, StronglySorted lt ps /\ length ps = length pdus /\
    (forall i p s, nth_error ps i = Some p -> nth_error pdus i = Some s ->
       MR s = (e_msg_count e + 1 + Z.of_nat p) mod 256) /\
    (1 < len pdus -> forall i s, nth_error pdus i = Some s -> exists l, UDH s = Some (l ++
       [{| ie_id := 0;
           ie_data := [(e_concat_ref e + 1 + Z.of_nat q) mod 256; len pdus mod 256; (Z.of_nat i + 1) mod 256] |}])).
Proof.
  intros e calls sched n cs k pdus I R. destruct (nth_error cs k) as [c|] eqn:C; [|discriminate].
  assert (exists mo, nth_error calls k = Some mo) as ([msg opts] & K).
  { destruct (interleaved_shared _ _ _ _ _ I) as (? & ? & ? & ? & L & _). rewrite map_length in L.
    apply (nth_error_ex calls k _ eq_refl). rewrite <- L. apply nth_error_Some. congruence. }
  destruct (shared_at _ _ _ _ _ _ _ _ _ I K C) as (ps & qs & S & T).
  destruct c as [| |r]; cbn in R; try discriminate. injection R as ->.
  destruct (tracked_numbers _ _ _ _ _ _ T ltac:(discriminate)) as (HL & q & _ & H1 & H2). cbn [returned_tpdus] in *.
  exists ps, q. split; [exact S|]. split; [exact HL|]. split; [|exact H2].
  intros i p s P Q. rewrite (H1 _ _ Q). now rewrite (nth_error_nth _ _ _ P).
Qed.
Print Assumptions C97_numbers.

Lemma list_ext {A} (l : list A) : forall l', length l = length l' ->
  (forall k x y, nth_error l k = Some x -> nth_error l' k = Some y -> x = y) -> l = l'.
Proof.
  induction l as [|a l IH]; intros [|b l'] L H; cbn in L; try discriminate; [reflexivity|]. f_equal.
  - now apply (H 0%nat).
  - apply IH; [lia|]. intros k x y. apply (H (S k)).
Qed.

Definition mr_at (e : sms_encoder) (p : nat) : Z := (e_msg_count e + 1 + Z.of_nat p) mod 256.
Definition ref_at (e : sms_encoder) (p : nat) : Z := (e_concat_ref e + 1 + Z.of_nat p) mod 256.

Lemma shared_values e calls sched n cs : interleaved e calls sched n cs -> Forall (fun c => returned c <> None) cs ->
  exists pss qss N M,
    map (map MR) (map returned_tpdus cs) = map (map (mr_at e)) pss /\
    map (fun l => if multi_part l then [reference_of l] else []) (map returned_tpdus cs) =
      map (map (fun q => Some (ref_at e q))) qss /\
    Permutation (concat pss) (seq 0 N) /\ Permutation (concat qss) (seq 0 M) /\
    n = {| ct_msg := counter_after (e_msg_count e) N; ct_concat := counter_after (e_concat_ref e) M |}.
Proof.
  intros I F. destruct (interleaved_shared _ _ _ _ _ I) as (pss & qss & N & M & L1 & L2 & L3 & -> & P1 & P2 & _ & T).
  exists pss, qss, N, M. rewrite map_length in *. rewrite Forall_forall in F.
  assert (forall k c ps, nth_error cs k = Some c -> nth_error pss k = Some ps -> exists msg opts qs, nth_error qss k = Some qs /\
    tracked {| ct_msg := e_msg_count e; ct_concat := e_concat_ref e |} (begin_encode e msg opts) c ps qs) as HT.
  { intros k c ps C P. assert (k < length calls)%nat as L by (rewrite <- L1; apply nth_error_Some; congruence).
    destruct (nth_error_ex calls k _ eq_refl L) as [[msg opts] K].
    destruct (nth_error_ex qss k _ L3 L) as [qs Q]. exists msg, opts, qs. split; [exact Q|].
    apply (T k); auto. now rewrite nth_error_map, K. }
  split; [|split; [|auto]].
  - apply list_ext; [rewrite !map_length; lia|]. intros k x y. rewrite !nth_error_map.
    destruct (nth_error cs k) as [c|] eqn:C; [|discriminate]. destruct (nth_error pss k) as [ps|] eqn:P; [|discriminate].
    intros X Y. cbn in X, Y. injection X as <-. injection Y as <-.
    destruct (HT _ _ _ C P) as (msg & opts & qs & _ & T').
    destruct (tracked_numbers _ _ _ _ _ _ T' (F c (nth_error_In _ _ C))) as (HL & q & _ & H1 & _).
    apply list_ext; [rewrite !map_length; lia|]. intros i x y. rewrite !nth_error_map.
    destruct (nth_error (returned_tpdus c) i) as [s|] eqn:ES; [|discriminate].
    destruct (nth_error ps i) as [p|] eqn:EP; [|discriminate]. cbn. intros X Y. injection X as <-. injection Y as <-.
    rewrite (H1 _ _ ES). now rewrite (nth_error_nth _ _ _ EP).
  - apply list_ext; [rewrite !map_length; lia|]. intros k x y. rewrite !nth_error_map.
    destruct (nth_error cs k) as [c|] eqn:C; [|discriminate]. destruct (nth_error qss k) as [qs|] eqn:Q; [|discriminate].
    intros X Y. cbn in X, Y. injection X as <-. injection Y as <-.
    destruct (nth_error_ex pss k (length calls) L2) as [ps P]; [rewrite <- L1; apply nth_error_Some; congruence|].
    destruct (HT _ _ _ C P) as (msg & opts & qs' & Q' & T'). assert (qs' = qs) by congruence. subst qs'.
    destruct (tracked_numbers _ _ _ _ _ _ T' (F c (nth_error_In _ _ C))) as (HL & q & -> & _ & H2).
    destruct (multi_part (returned_tpdus c)) eqn:EM; [|reflexivity]. cbn [map]. f_equal.
    unfold multi_part in EM. apply Z.ltb_lt in EM. specialize (H2 EM).
    destruct (returned_tpdus c) as [|s l]; [discriminate EM|].
    destruct (H2 0%nat s eq_refl) as (h & HU). unfold reference_of. rewrite HU. cbn [ies]. rewrite rev_app_distr. reflexivity.
Qed.

(** When all the calls have returned, their TPDUs between them have the message
    references the counter gives out next, each once. *)
Theorem C97_message_references : forall e calls sched n cs,
  interleaved e calls sched n cs -> Forall (fun c => returned c <> None) cs ->
  let all := concat (map returned_tpdus cs) in
  Permutation (map MR all) (map (fun j => (e_msg_count e + 1 + Z.of_nat j) mod 256) (seq 0 (length all))) /\
  (ct_msg n - (e_msg_count e + len all)) mod 2 ^ 64 = 0.
Proof.
  intros e calls sched n cs I F all. destruct (shared_values _ _ _ _ _ I F) as (pss & qss & N & M & HM & _ & P1 & _ & ->).
  assert (map MR all = map (mr_at e) (concat pss)) as E.
  { unfold all. rewrite !concat_map, HM. reflexivity. }
  assert (length all = N) as L.
  { rewrite <- (map_length MR all), E, map_length, (Permutation_length P1). apply seq_length. }
  split.
  - rewrite E, L. now apply Permutation_map.
  - cbn [ct_msg]. unfold len. rewrite L. apply counter_after_mod.
Qed.
Print Assumptions C97_message_references.

Lemma filter_values {A B} (p : A -> bool) (f : A -> B) l :
  concat (map (fun x => if p x then [f x] else []) l) = map f (filter p l).
Proof. induction l as [|a l IH]; [reflexivity|]. cbn. rewrite IH. now destruct (p a). Qed.

(** Those of more than one part have the reference numbers the other counter
    gives out next, each once, and each message has one. *)
Theorem C97_concat_references : forall e calls sched n cs,
  interleaved e calls sched n cs -> Forall (fun c => returned c <> None) cs ->
  let multi := filter multi_part (map returned_tpdus cs) in
  Permutation (map reference_of multi)
    (map (fun j => Some ((e_concat_ref e + 1 + Z.of_nat j) mod 256)) (seq 0 (length multi))) /\
  (ct_concat n - (e_concat_ref e + len multi)) mod 2 ^ 64 = 0.
Proof.
  intros e calls sched n cs I F multi. destruct (shared_values _ _ _ _ _ I F) as (pss & qss & N & M & _ & HM & _ & P2 & ->).
  assert (map reference_of multi = map (fun q => Some (ref_at e q)) (concat qss)) as E.
  { unfold multi. rewrite <- filter_values, HM, concat_map. reflexivity. }
  assert (length multi = M) as L.
  { rewrite <- (map_length reference_of multi), E, map_length, (Permutation_length P2). apply seq_length. }
  split.
  - rewrite E, L. now apply Permutation_map with (f := fun q => Some (ref_at e q)).
  - cbn [ct_concat]. unfold len. rewrite L. apply counter_after_mod.
Qed.
Print Assumptions C97_concat_references.

Lemma concat_apart {A} : forall (l : list (list A)) j k x y a, NoDup (concat l) -> j <> k ->
  nth_error l j = Some x -> nth_error l k = Some y -> In a x -> In a y -> False.
Proof.
  induction l as [|b l IH]; intros j k x y a ND NE J K X Y; [destruct j; discriminate|].
  cbn in ND. assert (forall c i z, nth_error l i = Some z -> In c z -> In c b -> False) as AP.
  { intros c i z Z1 Z2 Z3. apply in_split in Z3 as (b1 & b2 & ->). rewrite <- app_assoc in ND. cbn in ND.
    apply NoDup_remove_2 in ND. apply ND. rewrite !in_app_iff. right. right. eapply in_concat_nth; eauto. }
  destruct j as [|j], k as [|k]; cbn in J, K; try congruence.
  - injection J as ->. eapply AP; eauto.
  - injection K as ->. eapply AP; eauto.
  - eapply (IH j k); eauto. clear - ND. induction b as [|c b IHb]; [exact ND|]. cbn in ND. inversion ND; auto.
Qed.
Lemma tracked_one n0 e msg opts c ps qs : tracked n0 (begin_encode e msg opts) c ps qs -> (length qs <= 1)%nat.
Proof.
  unfold begin_encode. destruct encode_prepare as [[t d]|x| |]; cbn; [|intros (_ & _ & -> & _); cbn; lia..].
  destruct c; [intros (_ & _ & _ & ->); cbn; lia| |].
  - intros (? & ? & _ & _ & _ & _ & -> & _). cbn. lia.
  - intros (? & _ & _ & ->). destruct (1 <? _); cbn; lia.
Qed.
Lemma length_concat_one {A} (l : list (list A)) : Forall (fun x => (length x <= 1)%nat) l -> (length (concat l) <= length l)%nat.
Proof. induction 1; cbn; [lia|]. rewrite app_length. lia. Qed.

(** As long as no more than 256 calls share the counters, no two messages of
    several parts get the same reference number; even while others go on. *)
Theorem C97_distinct : forall e calls sched n cs j k p q,
  interleaved e calls sched n cs -> len calls <= 256 -> j <> k ->
  option_map returned (nth_error cs j) = Some (Some (Ok p)) -> multi_part p = true ->
  option_map returned (nth_error cs k) = Some (Some (Ok q)) -> multi_part q = true ->
  exists r r', reference_of p = Some r /\ reference_of q = Some r' /\ r <> r'.
Proof.
  intros e calls sched n cs j k p q I LC NE J MJ K MK.
  destruct (interleaved_shared _ _ _ _ _ I) as (pss & qss & N & M & L1 & L2 & L3 & -> & P1 & P2 & _ & T).
  rewrite map_length in *.
  assert (forall i c, nth_error cs i = Some c -> exists msg opts ps qs, nth_error qss i = Some qs /\
    tracked {| ct_msg := e_msg_count e; ct_concat := e_concat_ref e |} (begin_encode e msg opts) c ps qs) as HT.
  { intros i c C. assert (i < length calls)%nat as L by (rewrite <- L1; apply nth_error_Some; congruence).
    destruct (nth_error_ex calls i _ eq_refl L) as [[msg opts] EK].
    destruct (nth_error_ex pss i _ L2 L) as [ps EP]. destruct (nth_error_ex qss i _ L3 L) as [qs EQ].
    exists msg, opts, ps, qs. split; [exact EQ|]. apply (T i); auto. now rewrite nth_error_map, EK. }
  assert (length (concat qss) <= 256)%nat as LQ.
  { transitivity (length qss); [|unfold len in LC; lia]. apply length_concat_one. apply Forall_forall. intros qs Q.
    apply In_nth_error in Q as [i Q].
    destruct (nth_error_ex cs i _ L1) as [c C]; [rewrite <- L3; apply nth_error_Some; congruence|].
    destruct (HT i c C) as (msg & opts & ps & qs' & Q' & T'). assert (qs' = qs) by congruence. subst qs'.
    eapply tracked_one; eauto. }
  assert (length (concat qss) = M) as LM by (rewrite (Permutation_length P2); apply seq_length).
  assert (forall i p, option_map returned (nth_error cs i) = Some (Some (Ok p)) -> multi_part p = true ->
    exists x, nth_error qss i = Some [x] /\ (x < 256)%nat /\ reference_of p = Some (ref_at e x)) as HR.
  { intros i p0 R MP. destruct (nth_error cs i) as [c|] eqn:C; [|discriminate].
    destruct (HT i c C) as (msg & opts & ps & qs & Q & T'). destruct c as [| |r]; cbn in R; try discriminate. injection R as ->.
    destruct (tracked_numbers _ _ _ _ _ _ T' ltac:(discriminate)) as (_ & x & HQ & _ & H2). cbn [returned_tpdus] in *.
    rewrite MP in HQ. subst qs. exists x. split; [exact Q|]. split.
    - assert (In x (seq 0 M)) as IX by (eapply Permutation_in; [exact P2|]; eapply in_concat_nth; [exact Q|now left]).
      apply in_seq in IX. lia.
    - unfold multi_part in MP. apply Z.ltb_lt in MP. destruct p0 as [|s l]; [discriminate MP|].
      destruct (H2 MP 0%nat s eq_refl) as (h & HU). unfold reference_of. rewrite HU. cbn [ies]. rewrite rev_app_distr. reflexivity. }
  destruct (HR _ _ J MJ) as (x & QX & BX & RX). destruct (HR _ _ K MK) as (y & QY & BY & RY).
  exists (ref_at e x), (ref_at e y). split; [exact RX|]. split; [exact RY|]. intros E.
  assert (x = y) as <-.
  { unfold ref_at in E. set (b := e_concat_ref e + 1) in *.
    pose proof (Z.div_mod (b + Z.of_nat x) 256 ltac:(lia)). pose proof (Z.div_mod (b + Z.of_nat y) 256 ltac:(lia)). lia. }
  refine (concat_apart qss j k _ _ x _ NE QX QY (or_introl eq_refl) (or_introl eq_refl)).
  eapply Permutation_NoDup; [apply Permutation_sym, P2|apply seq_NoDup].
Qed.
Print Assumptions C97_distinct.

Lemma Forall2_len {A B} (R : A -> B -> Prop) l l' : Forall2 R l l' -> length l = length l'.
Proof. induction 1; cbn; auto. Qed.

(** No call waits for another: one that gets two turns, and one for each TPDU it
    would return alone, has returned. *)
Theorem C97_ends : forall e calls sched n cs k msg opts,
  interleaved e calls sched n cs -> nth_error calls k = Some (msg, opts) ->
  (2 + match encoder_encode e msg opts with Ok (pdus, _) => length pdus | _ => 0 end <= count_occ Nat.eq_dec sched k)%nat ->
  exists r, option_map returned (nth_error cs k) = Some (Some r).
Proof.
  intros e calls sched n cs k msg opts I K H.
  destruct (run_left _ _ _ _ _ k (begin_encode e msg opts) I) as (c & C & L); [now rewrite nth_error_map, K|].
  assert (left_over (begin_encode e msg opts) <=
    2 + match encoder_encode e msg opts with Ok (pdus, _) => length pdus | _ => 0 end)%nat as B.
  { unfold begin_encode, encoder_encode. destruct encode_prepare as [[t d]|x| |]; cbn [bind left_over]; try lia.
    unfold encoder_seg_cfg, cfg_at.
    pose proof (segment_same t d (fun i => counter_nth (ct_msg {| ct_msg := 0; ct_concat := 0 |}) (nth i [] 0%nat))
      (counter_nth (e_msg_count (fold_left apply_encoder_opt opts e)))
      (Some (fun _ => counter_nth (ct_concat {| ct_msg := 0; ct_concat := 0 |}) 0))
      (Some (counter_nth (e_concat_ref (fold_left apply_encoder_opt opts e))))) as S.
    unfold same_res in S.
    destruct (segment t d {| sc_wide := false; sc_cr := Some (fun _ => _); sc_mr := _ |}) as [l|x| |];
    destruct (segment t d {| sc_wide := false; sc_cr := Some (counter_nth _); sc_mr := _ |}) as [l'|x'| |]; cbn [bind oks length];
      try contradiction; try lia.
    rewrite (Forall2_len _ _ _ S). lia. }
  destruct c as [| |r]; cbn [left_over] in L; [lia|lia|]. exists r. now rewrite C.
Qed.
Print Assumptions C97_ends.

(** A call with the counters to itself is Encode as the other theorems have it. *)
Theorem C97_one : forall e msg opts sched n c r,
  interleaved e [(msg, opts)] sched n [c] -> returned c = Some r ->
  r = (x <- encoder_encode e msg opts ;; Ok (fst x)) /\
  forall pdus e', encoder_encode e msg opts = Ok (pdus, e') ->
    ct_msg n = e_msg_count e' /\ ct_concat n = e_concat_ref e'.
Proof.
  intros e msg opts sched n c r I R.
  destruct (interleaved_shared _ _ _ _ _ I) as (pss & qss & N & M & _ & L2 & L3 & -> & P1 & P2 & F & T).
  cbn [map length fst snd] in *.
  destruct pss as [|ps [|? ?]]; try discriminate. destruct qss as [|qs [|? ?]]; try discriminate.
  specialize (T 0%nat _ _ _ _ eq_refl eq_refl eq_refl eq_refl). cbn [concat] in P1, P2. rewrite app_nil_r in *.
  assert (ps = seq 0 N) as -> by (apply sorted_unique; [now inversion F|apply sorted_seq|exact P1]).
  destruct c as [| |r']; cbn in R; try discriminate. injection R as ->.
  unfold begin_encode in T. unfold encoder_encode.
  destruct (with_options_counters opts e) as [C1 C2]. unfold with_options in C1, C2.
  destruct encode_prepare as [[t d]|x| |]; cbn [bind]; [|destruct T as (E & _); injection E as ->; split; [reflexivity|discriminate]..].
  destruct T as (q & HS & HL & HQ). unfold encoder_seg_cfg. rewrite C1, C2.
  destruct r as [pdus|x| |].
  - cbn [oks] in *. rewrite seq_length in HL. symmetry in HS.
    assert (segment t d {| sc_wide := false; sc_cr := Some (counter_nth (e_concat_ref e)); sc_mr := Some (counter_nth (e_msg_count e)) |} = Ok pdus) as E.
    { eapply segment_ext; [exact HS| |].
      - intros i Hi. cbn [ct_msg]. rewrite seq_nth by lia. reflexivity.
      - intros H2. cbn [ct_concat]. apply Z.ltb_lt in H2. rewrite H2 in HQ. subst qs.
        destruct M as [|M]; [now apply Permutation_sym, Permutation_nil in P2|].
        destruct M; [|now apply Permutation_length in P2]. apply Permutation_length_1 in P2. now subst q. }
    rewrite E. cbn [bind fst]. split; [reflexivity|]. intros p e' H. apply ok_pair in H as [<- <-].
    unfold advance. cbn [ct_msg ct_concat e_msg_count e_concat_ref]. subst N. split; [reflexivity|].
    apply Permutation_length in P2. rewrite seq_length in P2. subst qs. destruct (1 <? len pdus); cbn in P2; subst M; reflexivity.
  - exfalso. symmetry in HS. eapply EncodeProofs.segment_not_err; eauto.
  - pose proof (segment_same t d (fun i => counter_nth (e_msg_count e) (nth i (seq 0 N) 0%nat)) (counter_nth (e_msg_count e))
      (Some (fun _ => counter_nth (e_concat_ref e) q)) (Some (counter_nth (e_concat_ref e)))) as S.
    unfold cfg_at in HS. cbn [ct_msg ct_concat] in HS. rewrite <- HS in S. cbn [same_res] in S.
    destruct (segment t d {| sc_wide := false; sc_cr := Some (counter_nth _); sc_mr := _ |}); try contradiction. split; [reflexivity|discriminate].
  - pose proof (segment_same t d (fun i => counter_nth (e_msg_count e) (nth i (seq 0 N) 0%nat)) (counter_nth (e_msg_count e))
      (Some (fun _ => counter_nth (e_concat_ref e) q)) (Some (counter_nth (e_concat_ref e)))) as S.
    unfold cfg_at in HS. cbn [ct_msg ct_concat] in HS. rewrite <- HS in S. cbn [same_res] in S.
    destruct (segment t d {| sc_wide := false; sc_cr := Some (counter_nth _); sc_mr := _ |}); try contradiction. split; [reflexivity|discriminate].
Qed.
Print Assumptions C97_one.

(** So what a call returned arrives as C41 has it: each TPDU is received as it was
    sent, and together they decode to the text, whatever ran at the same time. *)
Theorem C97_text : forall e calls sched n cs k msg opts pdus text dopts,
  let charsets := e_eopts (with_options e opts) in
  interleaved e calls sched n cs -> nth_error calls k = Some (msg, opts) ->
  option_map returned (nth_error cs k) = Some (Some (Ok pdus)) ->
  template_ok (e_pdu (with_options e opts)) ->
  meant (DCS (e_pdu (with_options e opts))) charsets msg text ->
  dopts = [] \/ decodes_with charsets dopts ->
  exists rcvd, Forall2 carried pdus rcvd /\ decode (map Some rcvd) dopts = Ok text.
Proof.
  intros e calls sched n cs k msg opts pdus text dopts charsets I K R HT HM HD. unfold charsets in *. clear charsets.
  destruct (nth_error cs k) as [c|] eqn:C; [|discriminate].
  destruct c as [| |r']; cbn in R; try discriminate. injection R as ->.
  destruct (shared_at _ _ _ _ _ _ _ _ _ I K C) as (ps & qs & _ & T).
  unfold begin_encode in T. fold (with_options e opts) in T.
  destruct (encode_prepare (with_options e opts) msg) as [[t d]|x| |] eqn:EP; [|destruct T as (E & _ & _ & O); injection E as E; subst; discriminate E..].
  destruct T as (q & HS & _). symmetry in HS.
  destruct (segment_flow _ _ _ _ _ _ _ _ EP HS ltac:(discriminate) HT HM) as (HW & HDec & _).
  exists (map received pdus). split.
  - clear - HW. induction pdus as [|s pdus IH]; cbn [map]; constructor.
    + apply carried_ok, HW. now left.
    + apply IH. intros x Hx. apply HW. now right.
  - unfold decode. apply HDec. destruct HD as [-> |HD]; [right; now left|]. destruct dopts; [right; now left|exact HD].
Qed.
Print Assumptions C97_text.

(** Two messages of two TPDUs and one of one, their calls taking turns. *)
Example C97_instance :
  let e := {| e_eopts := []; e_pdu := plain_submit; e_msg_count := 254; e_concat_ref := 255 |} in
  let calls := [(repeat 97 161, []); ([104; 105], []); (repeat 98 200, [])] in
  exists n a b c d f,
    interleaved e calls [0; 2; 2; 0; 1; 2; 0; 0; 2]%nat n [CDone (Ok [a; b]); CDone (Ok [c]); CDone (Ok [d; f])] /\
    map MR [a; b; c; d; f] = [0; 3; 1; 255; 2] /\
    map tpdu_concat_info [a; b; c; d; f] = [Some (2, 1, 0); Some (2, 2, 0); None; Some (2, 1, 1); Some (2, 2, 1)] /\
    ct_msg n = 259 /\ ct_concat n = 257 /\
    reference_of [a; b] = Some 0 /\ reference_of [d; f] = Some 1.
Proof.
  eexists _, _, _, _, _, _. split; [vm_compute; reflexivity|]. repeat (split; [vm_compute; reflexivity|]).
  vm_compute; reflexivity.
Qed.
Example C97_text_instance :
  let e := {| e_eopts := []; e_pdu := flow_template; e_msg_count := 0; e_concat_ref := 0 |} in
  exists n p q, interleaved e [([216; 61; 222; 0], []); ([216; 61; 222; 0], [])] [1; 0]%nat n [CDone (Ok [p]); CDone (Ok [q])] /\
    MR p = 2 /\ MR q = 1 /\ template_ok (e_pdu (with_options e [])) /\
    meant (DCS (e_pdu (with_options e []))) (e_eopts (with_options e [])) [216; 61; 222; 0] [240; 159; 152; 128].
Proof.
  eexists _, _, _. split; [vm_compute; reflexivity|]. split; [vm_compute; reflexivity|]. split; [vm_compute; reflexivity|].
  exact C41_template_instance.
Qed.
