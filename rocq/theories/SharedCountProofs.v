(** Lemmas for calls of Encode that share counters (C97). *)
From Coq Require Import Permutation Sorted.
From Verif Require Import GoBase GoLemmas Dcs UserData Tpdu Segment SegmentProofs Sms SpecSms SmsProofs Heap HeapProofs HeapEncoderProofs
  SharedCount SpecShared.

(** ** Counters *)
Lemma counter_after_S c : forall n, counter_after c (S n) = counter_count (counter_after c n).
Proof. intros n. revert c. induction n as [|n IH]; intros c; [reflexivity|]. cbn [counter_after] in *. now rewrite IH. Qed.
Lemma counter_nth_after c : forall n, counter_count (counter_after c n) = counter_nth c n.
Proof. intros n. revert c. induction n as [|n IH]; intros c; [reflexivity|]. cbn [counter_after counter_nth]. apply IH. Qed.

Lemma counter_after_mod c : forall n, (counter_after c n - (c + Z.of_nat n)) mod 2 ^ 64 = 0.
Proof.
  induction n as [|n IH]; [cbn [counter_after]; now replace (c - (c + Z.of_nat 0)) with 0 by lia|].
  rewrite counter_after_S. unfold counter_count. destruct (wrap64_eq (counter_after c n + 1)) as [k ->].
  replace (counter_after c n + 1 + k * 2 ^ 64 - (c + Z.of_nat (S n))) with (counter_after c n - (c + Z.of_nat n) + k * 2 ^ 64) by lia.
  rewrite Z.mod_add by lia. exact IH.
Qed.

(** ** Lists *)
Lemma concat_update {A} : forall (l : list (list A)) k x y, nth_error l k = Some x ->
  Permutation (concat (update l k (x ++ [y]))) (concat l ++ [y]).
Proof.
  induction l as [|a l IH]; intros [|k] x y H; cbn in H; try discriminate.
  - injection H as ->. cbn [update concat]. rewrite <- !app_assoc. apply Permutation_app_head. cbn.
    apply Permutation_cons_append.
  - cbn [update concat]. rewrite <- app_assoc. apply Permutation_app_head. now apply IH.
Qed.
Lemma in_concat_nth {A} (l : list (list A)) k x y : nth_error l k = Some x -> In y x -> In y (concat l).
Proof. intros H I. apply in_concat. exists x. split; [eapply nth_error_In; eauto|exact I]. Qed.
Lemma sorted_snoc l n : StronglySorted lt l -> (forall x, In x l -> (x < n)%nat) -> StronglySorted lt (l ++ [n]).
Proof.
  induction 1 as [|a l H IH F]; intros B; cbn.
  - repeat constructor.
  - constructor; [apply IH; intros x I; apply B; now right|].
    apply Forall_app. split; [exact F|]. constructor; [|constructor]. apply B. now left.
Qed.
Lemma sorted_unique l : StronglySorted lt l -> forall l', StronglySorted lt l' -> Permutation l l' -> l = l'.
Proof.
  induction 1 as [|a l H IH F]; intros l' H' P.
  - apply Permutation_nil in P. now subst.
  - destruct H' as [|b l' H' F']; [now apply Permutation_sym, Permutation_nil in P|].
    assert (a = b) as <-.
    { rewrite Forall_forall in F, F'.
      assert (In a (b :: l')) as [->|I] by (eapply Permutation_in; [exact P|now left]); [reflexivity|].
      assert (In b (a :: l)) as [->|I'] by (eapply Permutation_in; [apply Permutation_sym, P|now left]); [reflexivity|].
      apply F' in I. apply F in I'. lia. }
    f_equal. apply IH; [exact H'|]. eapply Permutation_cons_inv; eauto.
Qed.
Lemma sorted_seq n : forall s, StronglySorted lt (seq s n).
Proof.
  induction n as [|n IH]; intros s; cbn; constructor; [apply IH|].
  apply Forall_forall. intros x I. apply in_seq in I. lia.
Qed.

(** ** The segments made so far *)
Lemma make_segments_ext t w cr cr' mr mr' ref count cs : forall i,
  (forall j, (i <= j < i + length cs)%nat -> mr j = mr' j) ->
  make_segments t {| sc_wide := w; sc_cr := cr; sc_mr := Some mr |} ref count i cs =
  make_segments t {| sc_wide := w; sc_cr := cr'; sc_mr := Some mr' |} ref count i cs.
Proof.
  induction cs as [|c cs IH]; intros i H; [reflexivity|]. cbn [make_segments length] in *. f_equal.
  - unfold make_segment, with_mr; cbn [sc_mr sc_wide]. rewrite (H i) by lia. reflexivity.
  - apply IH. intros j J. apply H. lia.
Qed.
Lemma make_segments_snoc t cfg ref count c cs : forall i,
  make_segments t cfg ref count i (cs ++ [c]) =
  make_segments t cfg ref count i cs ++ [make_segment t cfg ref count (i + length cs) c].
Proof.
  induction cs as [|c0 cs IH]; intros i; cbn [make_segments app length].
  - now rewrite Nat.add_0_r.
  - rewrite IH. now rewrite Nat.add_succ_r.
Qed.

(** The numbers at positions [ps] of the message counter, and position [q] of the other. *)
Definition cfg_at (n : counters) (ps : list nat) (q : nat) : seg_cfg :=
  {| sc_wide := false; sc_cr := Some (fun _ => counter_nth (ct_concat n) q);
     sc_mr := Some (fun i => counter_nth (ct_msg n) (nth i ps 0%nat)) |}.
Definition oks {A} (r : res (list A)) : list A := match r with Ok l => l | _ => [] end.
Definition trial_size (t : tpdu) : Z := ud_block_size (set_udh t (Some (ies (UDH t) ++ [new_ie false 0 0 0]))).

Definition tracked (n0 : counters) (c0 c : counting) (ps qs : list nat) : Prop :=
  match c0 with
  | CBefore t d =>
      match c with
      | CBefore t' d' => t' = t /\ d' = d /\ ps = [] /\ qs = []
      | CLoop T ref count i rest pdus => exists dn q,
          len d <> 0 /\ ud_block_size t < len d /\ T = multi_template t false /\
          chunk d (dcs_alpha (DCS T)) (trial_size t) = Ok (dn ++ rest) /\
          qs = [q] /\ ref = counter_nth (ct_concat n0) q /\ count = len (dn ++ rest) /\ i = length dn /\
          length ps = length dn /\ pdus = make_segments T (cfg_at n0 ps q) ref count 0 dn
      | CDone r => exists q, r = segment t d (cfg_at n0 ps q) /\ length ps = length (oks r) /\
          qs = if 1 <? len (oks r) then [q] else []
      end
  | CLoop _ _ _ _ _ _ => False
  | CDone r => c = CDone r /\ ps = [] /\ qs = [] /\ oks r = []
  end.

Lemma segment_multi t d cfg : len d <> 0 -> ud_block_size t < len d -> sc_wide cfg = false ->
  segment t d cfg = (cs <- chunk d (dcs_alpha (DCS (multi_template t false))) (trial_size t) ;;
    Ok (make_segments (multi_template t false) cfg (seg_ref cfg) (len cs) 0 cs)).
Proof.
  intros H0 H1 HW. unfold segment. rewrite HW.
  destruct (len d =? 0) eqn:E; [lia|]. destruct (len d <=? ud_block_size t) eqn:E1; [lia|]. reflexivity.
Qed.

Lemma multi_two t d cfg segs : len d <> 0 -> ud_block_size t < len d -> segment t d cfg = Ok segs -> 1 < len segs.
Proof.
  intros H0 H1 HS. destruct (segment_lossless _ _ _ _ HS) as (_ & _ & HN).
  destruct (Z_lt_dec 1 (len segs)) as [L|L]; [exact L|]. exfalso.
  assert (length segs <= 1)%nat as L' by (unfold len in L; lia). apply HN in L' as [L'|L']; [lia|]. subst d. now apply H0.
Qed.

(** One step of a call, with the positions it takes. *)
Lemma tracked_step n0 c0 c ps qs N M n' c' : tracked n0 c0 c ps qs ->
  count_step {| ct_msg := counter_after (ct_msg n0) N; ct_concat := counter_after (ct_concat n0) M |} c = (n', c') ->
  exists ps' qs' N' M', tracked n0 c0 c' ps' qs' /\
    n' = {| ct_msg := counter_after (ct_msg n0) N'; ct_concat := counter_after (ct_concat n0) M' |} /\
    (ps' = ps /\ N' = N \/ ps' = ps ++ [N] /\ N' = S N) /\ (qs' = qs /\ M' = M \/ qs' = qs ++ [M] /\ M' = S M).
Proof.
  intros T S. destruct c0 as [t d| |r]; cbn [tracked] in T; [|contradiction|].
  2:{ destruct T as (-> & -> & -> & R). cbn in S. injection S as <- <-. exists [], [], N, M. cbn. auto 10. }
  destruct c as [t' d'|T0 ref count i [|c rest] pdus|r].
  - destruct T as (-> & -> & -> & ->). cbn [count_step ct_msg ct_concat] in S.
    destruct (len d =? 0) eqn:E0.
    { injection S as <- <-. exists [], [], N, M. split; [|auto]. exists 0%nat. unfold segment. rewrite E0. auto. }
    destruct (len d <=? ud_block_size t) eqn:E1.
    { injection S as <- <-. exists [N], [], (Datatypes.S N), M. split; [|now rewrite counter_after_S; auto].
      exists 0%nat. unfold segment. rewrite E0, E1. cbn [cfg_at sc_mr with_mr nth oks length].
      rewrite counter_nth_after. auto. }
    fold (multi_template t false) (trial_size t) in S.
    pose proof (fun ps q => segment_multi t d (cfg_at n0 ps q) ltac:(lia) ltac:(lia) eq_refl) as SM.
    destruct (chunk d (dcs_alpha (DCS (multi_template t false))) (trial_size t)) as [cs|x| |] eqn:EC; cbn [bind] in SM;
      injection S as <- <-.
    + exists [], [M], N, (Datatypes.S M). split; [|now rewrite counter_after_S; auto].
      exists [], M. cbn [app length make_segments]. rewrite counter_nth_after. repeat split; auto; lia.
    + exists [], [], N, M. split; [|auto]. exists 0%nat. rewrite SM. auto.
    + exists [], [], N, M. split; [|auto]. exists 0%nat. rewrite SM. auto.
    + exists [], [], N, M. split; [|auto]. exists 0%nat. rewrite SM. auto.
  - destruct T as (dn & q & H0 & H1 & -> & HC & -> & -> & -> & -> & HL & ->). rewrite app_nil_r in *.
    injection S as <- <-. exists ps, [q], N, M. split; [|auto]. exists q.
    pose proof (segment_multi t d (cfg_at n0 ps q) H0 H1 eq_refl) as SM. rewrite HC in SM. cbn [bind] in SM.
    assert (HT := multi_two _ _ _ _ H0 H1 SM). cbn [seg_ref cfg_at sc_cr] in SM, HT. fold (cfg_at n0 ps q) in SM, HT.
    rewrite SM. cbn [oks]. split; [reflexivity|]. split; [now rewrite make_segments_length|].
    apply Z.ltb_lt in HT. change (@len bytes dn) with (@len (list Z) dn). now rewrite HT.
  - destruct T as (dn & q & H0 & H1 & -> & HC & -> & -> & -> & -> & HL & ->).
    cbn [count_step ct_msg ct_concat] in S. injection S as <- <-.
    exists (ps ++ [N]), [q], (Datatypes.S N), M. split; [|now rewrite counter_after_S; auto].
    exists (dn ++ [c]), q. rewrite <- !app_assoc. cbn [app]. repeat split; auto.
    + rewrite app_length; cbn; lia.
    + rewrite !app_length; cbn; lia.
    + rewrite make_segments_snoc. f_equal.
      * unfold cfg_at. apply make_segments_ext. intros j J. now rewrite app_nth1 by lia.
      * unfold make_segment. cbn [cfg_at sc_mr sc_wide with_mr Nat.add]. rewrite app_nth2, HL, Nat.sub_diag by lia.
        cbn [nth]. rewrite counter_nth_after. now dtpdu t.
  - destruct T as (q & HR & HL & HQ). cbn in S. injection S as <- <-. exists ps, qs, N, M. split; [|auto]. exists q. auto.
Qed.

(** ** All the calls *)
Definition shared (n0 : counters) (cs0 : list counting) (n : counters) (cs : list counting)
  (pss qss : list (list nat)) (N M : nat) : Prop :=
  length cs = length cs0 /\ length pss = length cs0 /\ length qss = length cs0 /\
  n = {| ct_msg := counter_after (ct_msg n0) N; ct_concat := counter_after (ct_concat n0) M |} /\
  Permutation (concat pss) (seq 0 N) /\ Permutation (concat qss) (seq 0 M) /\ Forall (StronglySorted lt) pss /\
  forall k c0 c ps qs, nth_error cs0 k = Some c0 -> nth_error cs k = Some c -> nth_error pss k = Some ps ->
    nth_error qss k = Some qs -> tracked n0 c0 c ps qs.

Lemma nth_error_ex {A} (l : list A) k n : length l = n -> (k < n)%nat -> exists x, nth_error l k = Some x.
Proof. intros H L. destruct (nth_error l k) eqn:E; [eauto|]. apply nth_error_None in E. lia. Qed.
Lemma perm_snoc {A} k x (l : list (list nat)) (N : nat) (y : A) : nth_error l k = Some x ->
  Permutation (concat l) (seq 0 N) -> Permutation (concat (update l k (x ++ [N]))) (seq 0 (S N)).
Proof.
  intros H P. rewrite (concat_update _ _ _ _ H), seq_S. cbn. now apply Permutation_app_tail.
Qed.
Lemma Forall_update {A} (P : A -> Prop) (l : list A) : forall k x, Forall P l -> P x -> Forall P (update l k x).
Proof.
  induction l as [|a l IH]; intros k x F H; [destruct k; constructor|].
  apply Forall_cons_iff in F as [F1 F2]. destruct k; cbn; constructor; auto.
Qed.

Lemma run_shared n0 cs0 sched : forall n cs pss qss N M n' cs', shared n0 cs0 n cs pss qss N M ->
  run_counting n cs sched = (n', cs') -> exists pss' qss' N' M', shared n0 cs0 n' cs' pss' qss' N' M'.
Proof.
  induction sched as [|k sched IH]; intros n cs pss qss N M n' cs' I R; cbn [run_counting] in R.
  - injection R as <- <-. eauto.
  - destruct (nth_error cs k) as [c|] eqn:EC; [|eapply IH; eauto].
    destruct (count_step n c) as [n1 c1] eqn:ES.
    destruct I as (L1 & L2 & L3 & -> & P1 & P2 & F & T).
    assert (k < length cs)%nat as LK by (apply nth_error_Some; congruence).
    destruct (nth_error_ex cs0 k _ eq_refl ltac:(lia)) as [c0 E0].
    destruct (nth_error_ex pss k _ L2 ltac:(lia)) as [ps EP].
    destruct (nth_error_ex qss k _ L3 ltac:(lia)) as [qs EQ].
    destruct (tracked_step _ _ _ _ _ _ _ _ _ (T _ _ _ _ _ E0 EC EP EQ) ES)
      as (ps1 & qs1 & N1 & M1 & T1 & -> & HP & HQ).
    refine (IH _ _ (update pss k ps1) (update qss k qs1) N1 M1 _ _ _ R).
    unfold shared. rewrite !update_length. repeat split; auto.
    + destruct HP as [[-> ->]|[-> ->]]; [now rewrite HeapEncoderProofs.update_same|].
      now apply (perm_snoc k ps pss N tt).
    + destruct HQ as [[-> ->]|[-> ->]]; [now rewrite HeapEncoderProofs.update_same|].
      now apply (perm_snoc k qs qss M tt).
    + apply Forall_update; [exact F|]. rewrite Forall_forall in F.
      destruct HP as [[-> ->]|[-> ->]]; [apply F; eapply nth_error_In; eauto|].
      apply sorted_snoc; [apply F; eapply nth_error_In; eauto|]. intros x I.
      assert (In x (seq 0 N)) as J by (eapply Permutation_in; [exact P1|]; eapply in_concat_nth; eauto).
      apply in_seq in J. lia.
    + intros j d0 d ps2 qs2. rewrite !nth_error_update by lia. destruct (j =? k)%nat eqn:EJ.
      * apply Nat.eqb_eq in EJ. subst j. congruence.
      * intros. eapply T; eauto.
Qed.

Definition fresh (c : counting) : Prop := match c with CBefore _ _ => True | CLoop _ _ _ _ _ _ => False | CDone r => oks r = [] end.
Lemma concat_nils {A B} (l : list A) : concat (map (fun _ => @nil B) l) = [].
Proof. induction l; auto. Qed.
Lemma start_shared n cs : Forall fresh cs ->
  shared n cs n cs (map (fun _ => []) cs) (map (fun _ => []) cs) 0 0.
Proof.
  intros F. unfold shared. rewrite !map_length, !concat_nils. repeat split; auto.
  - now destruct n.
  - apply Forall_forall. intros l I. apply in_map_iff in I as (? & <- & _). constructor.
  - intros k c0 c ps qs H0 H1 H2 H3. rewrite nth_error_map in H2, H3. rewrite H0 in H1, H2, H3. cbn in H2, H3.
    injection H1 as <-. injection H2 as <-. injection H3 as <-.
    rewrite Forall_forall in F. specialize (F c0 (nth_error_In _ _ H0)).
    destruct c0; cbn in *; [auto|contradiction|]. auto.
Qed.
Lemma begin_fresh e msg opts : fresh (begin_encode e msg opts).
Proof. unfold begin_encode. destruct encode_prepare as [[t d]|x| |]; cbn; auto. Qed.

(** ** Progress *)
Definition left_over (c : counting) : nat :=
  match c with
  | CBefore t d => 2 + length (oks (segment t d (cfg_at {| ct_msg := 0; ct_concat := 0 |} [] 0)))
  | CLoop _ _ _ _ rest _ => 1 + length rest
  | CDone _ => 0
  end.
Lemma left_over_step n c n' c' : count_step n c = (n', c') -> (left_over c' <= pred (left_over c))%nat.
Proof.
  intros S. destruct c as [t d|T ref count i [|c rest] pdus|r]; cbn [count_step] in S.
  - destruct (len d =? 0) eqn:E0; [injection S as <- <-; cbn; lia|].
    destruct (len d <=? ud_block_size t) eqn:E1; [injection S as <- <-; cbn; lia|].
    fold (multi_template t false) (trial_size t) in S. cbn [left_over].
    rewrite segment_multi by (try reflexivity; lia).
    destruct (chunk d (dcs_alpha (DCS (multi_template t false))) (trial_size t)) as [cs|x| |]; injection S as <- <-;
      cbn [bind oks left_over]; rewrite ?make_segments_length; cbn [length]; lia.
  - injection S as <- <-. cbn. lia.
  - injection S as <- <-. cbn. lia.
  - injection S as <- <-. cbn. lia.
Qed.
Lemma run_left sched : forall n cs n' cs' k c, run_counting n cs sched = (n', cs') -> nth_error cs k = Some c ->
  exists c', nth_error cs' k = Some c' /\ (left_over c' <= left_over c - count_occ Nat.eq_dec sched k)%nat.
Proof.
  induction sched as [|j sched IH]; intros n cs n' cs' k c R H; cbn [run_counting] in R.
  - injection R as <- <-. exists c. cbn. split; [exact H|lia].
  - destruct (nth_error cs j) as [cj|] eqn:EJ.
    + destruct (count_step n cj) as [n1 c1] eqn:ES. pose proof (left_over_step _ _ _ _ ES) as D.
      assert (j < length cs)%nat as LJ by (apply nth_error_Some; congruence).
      cbn [count_occ]. destruct (Nat.eq_dec j k) as [->|NE].
      * assert (cj = c) by congruence. subst cj.
        destruct (IH _ _ _ _ k c1 R) as (c' & H' & L').
        { rewrite nth_error_update, Nat.eqb_refl by exact LJ. reflexivity. }
        exists c'. split; [exact H'|]. lia.
      * apply (IH _ _ _ _ k c R). rewrite nth_error_update by exact LJ. 
        destruct (k =? j)%nat eqn:E; [apply Nat.eqb_eq in E; congruence|exact H].
    + cbn [count_occ]. destruct (Nat.eq_dec j k) as [->|NE]; [congruence|]. eapply IH; eauto.
Qed.

(** ** Results that differ in their numbers *)
Lemma make_segments_same t mr mr' cr cr' ref ref' count cs : forall i,
  Forall2 same_but_numbers (make_segments t {| sc_wide := false; sc_cr := cr; sc_mr := Some mr |} ref count i cs)
    (make_segments t {| sc_wide := false; sc_cr := cr'; sc_mr := Some mr' |} ref' count i cs).
Proof.
  induction cs as [|c cs IH]; intros i; cbn [make_segments]; constructor; [|apply IH].
  unfold make_segment, with_mr. cbn [sc_mr sc_wide]. split; [now dtpdu t|]. right.
  exists (ies (UDH t)), (to_byte ref), (to_byte ref'), (to_byte count), (to_byte (Z.of_nat i + 1)). now dtpdu t.
Qed.
Definition same_res (r r' : res (list tpdu)) : Prop :=
  match r, r' with
  | Ok l, Ok l' => Forall2 same_but_numbers l l'
  | Err x, Err y => x = y
  | Panic, Panic | Diverge, Diverge => True
  | _, _ => False
  end.
Lemma segment_same t d mr mr' cr cr' :
  same_res (segment t d {| sc_wide := false; sc_cr := cr; sc_mr := Some mr |})
    (segment t d {| sc_wide := false; sc_cr := cr'; sc_mr := Some mr' |}).
Proof.
  destruct (len d =? 0) eqn:E0; [unfold segment; rewrite E0; constructor|].
  destruct (len d <=? ud_block_size t) eqn:E1.
  - unfold segment. rewrite E0, E1. cbn. constructor; [|constructor]. split; [now dtpdu t|left; now dtpdu t].
  - rewrite !segment_multi by (try reflexivity; lia).
    destruct chunk as [cs|x| |]; cbn [bind same_res]; auto. apply make_segments_same.
Qed.
Lemma segment_ext t d mr mr' cr cr' segs : segment t d {| sc_wide := false; sc_cr := Some cr; sc_mr := Some mr |} = Ok segs ->
  (forall i, (i < length segs)%nat -> mr i = mr' i) -> (1 < len segs -> cr 0%nat = cr' 0%nat) ->
  segment t d {| sc_wide := false; sc_cr := Some cr'; sc_mr := Some mr' |} = Ok segs.
Proof.
  intros H HM HC. 
  destruct (len d =? 0) eqn:E0; [unfold segment in *; rewrite E0 in *; exact H|].
  destruct (len d <=? ud_block_size t) eqn:E1.
  - unfold segment in *. rewrite E0, E1 in *. apply SafeLemmas.ok_inj in H. subst segs. cbn. rewrite (HM 0%nat) by (cbn; lia). reflexivity.
  - assert (len d <> 0) as N0 by lia. assert (ud_block_size t < len d) as N1 by lia.
    assert (H2 := multi_two _ _ _ _ N0 N1 H). rewrite segment_multi in * by (try reflexivity; lia).
    destruct chunk as [cs|x| |]; cbn [bind] in *; try discriminate. apply SafeLemmas.ok_inj in H. subst segs. f_equal.
    cbn [seg_ref sc_cr]. rewrite (HC H2). symmetry. apply make_segments_ext. intros j J. apply HM.
    rewrite make_segments_length. lia.
Qed.
