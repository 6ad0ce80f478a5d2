(** The Collector and the messages its segments belong to. *)
From Coq Require Import Permutation.
From Verif Require Import GoBase GoLemmas Utf UtfProofs UserData Tpdu Address Collector SpecCollect CollectorProofs.

(** ** Keys *)

Definition dval (l : bytes) : Z := fold_left (fun a d => a * 10 + (d - 48)) l 0.
Lemma dval_app l d : dval (l ++ [d]) = dval l * 10 + (d - 48).
Proof. unfold dval. now rewrite fold_left_app. Qed.

Lemma dec_loop_spec fuel : forall n acc, 0 <= n < 2 ^ Z.of_nat fuel -> (0 < fuel)%nat ->
  exists ds, dec_loop fuel n acc = ds ++ acc /\ dval ds = n /\ Forall (fun d => 48 <= d <= 57) ds.
Proof.
  induction fuel as [|f IH]; intros n acc HN HF; [lia|]. cbn [dec_loop].
  destruct (n <? 10) eqn:E.
  - exists [48 + n mod 10]. split; [reflexivity|]. split; [unfold dval; cbn [fold_left]; lia|].
    constructor; [lia|constructor].
  - assert (HP : 2 ^ Z.of_nat (S f) = 2 * 2 ^ Z.of_nat f) by (rewrite Nat2Z.inj_succ, Z.pow_succ_r; lia).
    destruct f as [|f]; [cbn in HN; lia|].
    destruct (IH (n / 10) (48 + n mod 10 :: acc)) as (ds & A & B & C); [lia|lia|].
    exists (ds ++ [48 + n mod 10]). rewrite A, <- app_assoc. split; [reflexivity|].
    rewrite dval_app, B. split; [lia|]. apply Forall_app. split; [assumption|]. constructor; [lia|constructor].
Qed.

Lemma fmt_d_spec n : 0 <= n -> dval (fmt_d n) = n /\ Forall (fun d => 48 <= d <= 57) (fmt_d n).
Proof.
  intros H. unfold fmt_d.
  destruct (dec_loop_spec (S (Z.to_nat (Z.log2 n))) n []) as (ds & A & B & C).
  - split; [assumption|]. rewrite Nat2Z.inj_succ, Z2Nat.id by apply Z.log2_nonneg.
    destruct (Z.eq_dec n 0) as [->|]; [reflexivity|]. apply Z.log2_spec. lia.
  - lia.
  - rewrite app_nil_r in A. rewrite A. auto.
Qed.
Lemma fmt_d_inj n n' : 0 <= n -> 0 <= n' -> fmt_d n = fmt_d n' -> n = n'.
Proof. intros A B E. rewrite <- (proj1 (fmt_d_spec n A)), <- (proj1 (fmt_d_spec n' B)). now rewrite E. Qed.
Lemma fmt_d_colon n : 0 <= n -> ~ In colon (fmt_d n).
Proof.
  intros A HI. destruct (fmt_d_spec n A) as (_ & F). rewrite Forall_forall in F. apply F in HI. unfold colon in HI. lia.
Qed.

Lemma fmt_02x_inj a b : is_byte a -> is_byte b -> fmt_02x a = fmt_02x b -> a = b.
Proof.
  unfold is_byte, fmt_02x. intros A B E. injection E as E1 E2.
  assert (F1 : Some (a / 16) = Some (b / 16)) by (rewrite <- !from_hex_digit by lia; now rewrite E1).
  assert (F2 : Some (a mod 16) = Some (b mod 16)) by (rewrite <- !from_hex_digit by lia; now rewrite E2).
  injection F1; injection F2. lia.
Qed.

Lemma split_first {A} (c : A) a a' x x' : ~ In c a -> ~ In c a' -> a ++ c :: x = a' ++ c :: x' -> a = a' /\ x = x'.
Proof.
  revert a'; induction a as [|h a IH]; intros [|h' a'] HA HA' E; cbn in E; inversion E; subst.
  - auto.
  - destruct HA'. now left.
  - destruct HA. now left.
  - destruct (IH a') as (-> & ->); cbn in *; auto.
Qed.
Lemma split_last {A} (c : A) b b' x x' : ~ In c b -> ~ In c b' -> x ++ c :: b = x' ++ c :: b' -> x = x' /\ b = b'.
Proof.
  intros HB HB' E. apply (f_equal (@rev A)) in E. rewrite !rev_app_distr in E. cbn in E. rewrite <- !app_assoc in E.
  apply split_first in E as (E1 & E2); [|now rewrite <- in_rev..].
  apply (f_equal (@rev A)) in E1. apply (f_equal (@rev A)) in E2. now rewrite !rev_involutive in *.
Qed.

Definition key_of (m : message) : bytes := fmt_key (m_type m) (m_toa m) (m_addr m) (m_ref m) (m_total m).
Definition m_ok (m : message) : Prop :=
  (m_type m = SmsSubmit \/ m_type m = SmsDeliver) /\ is_byte (m_toa m) /\ 0 <= m_ref m /\ 2 <= m_total m.

Lemma key_inj m m' : m_ok m -> m_ok m' -> key_of m = key_of m' -> m = m'.
Proof.
  intros (T & B & R & N) (T' & B' & R' & N') E. unfold key_of, fmt_key in E.
  assert (P : 0 <= m_type m) by (destruct T as [-> | ->]; cbv; discriminate).
  assert (P' : 0 <= m_type m') by (destruct T' as [-> | ->]; cbv; discriminate).
  change ([colon] ++ ?x) with (colon :: x) in E.
  apply split_first in E as (E1 & E); [|now apply fmt_d_colon..].
  apply fmt_d_inj in E1; [|assumption..].
  unfold fmt_02x in E. cbn [app] in E. injection E as E2 E3 E.
  assert (E4 : m_toa m = m_toa m') by (apply fmt_02x_inj; auto; unfold fmt_02x; congruence).
  rewrite !app_comm_cons, !app_assoc in E.
  apply split_last in E as (E & E5); [|apply fmt_d_colon; lia..].
  apply fmt_d_inj in E5; [|lia..].
  apply split_last in E as (E & E6); [|apply fmt_d_colon; lia..].
  apply fmt_d_inj in E6; [|lia..].
  destruct m, m'; cbn in *; congruence.
Qed.

(** ** Segments and messages *)

Lemma seg_no_iff m i g : seg_no m g = Some i <-> is_segment m i g.
Proof.
  unfold seg_no, is_segment. destruct (tpdu_concat_info (sg_pdu g)) as [[[n q] r]|].
  2:{ split; [discriminate|]. intros (H & _). discriminate. }
  set (t := sg_pdu g). destruct (m_type m =? SmsSubmit) eqn:EM.
  - apply Z.eqb_eq in EM. rewrite EM.
    destruct (DA t) as [ta ad]; destruct (list_eq_dec Z.eq_dec (a_addr {| a_toa := ta; a_addr := ad |}) (m_addr m)) as [EA|EA];
      cbn [a_toa a_addr] in *.
    + split.
      * destruct ((n =? m_total m) && _ && _ && _ && _ && _) eqn:EB; [|discriminate]. intros H; injection H as <-.
        split; [f_equal; f_equal; [f_equal|]; lia|]. left. repeat split; try lia. subst ad. f_equal. lia.
      * intros (H & [(_ & H2 & H3)|(F & _)]); [|discriminate F]. injection H as -> -> ->. injection H3 as -> ->.
        rewrite H2. now rewrite !Z.eqb_refl.
    + split; [now rewrite andb_false_r|]. intros (_ & [(_ & _ & H)|(F & _)]); [|discriminate F]. congruence.
  - destruct (OA t) as [ta ad]; destruct (list_eq_dec Z.eq_dec (a_addr {| a_toa := ta; a_addr := ad |}) (m_addr m)) as [EA|EA];
      cbn [a_toa a_addr] in *.
    + split.
      * destruct ((n =? m_total m) && _ && _ && _ && _ && _) eqn:EB; [|discriminate]. intros H; injection H as <-.
        split; [f_equal; f_equal; [f_equal|]; lia|]. right. repeat split; try lia. subst ad. f_equal. lia.
      * intros (H & [(F & _)|(H1 & H2 & H3)]); [lia|]. injection H as -> -> ->. injection H3 as -> ->.
        rewrite H2, H1. now rewrite !Z.eqb_refl.
    + split; [now rewrite andb_false_r|]. intros (_ & [(F & _)|(_ & _ & H)]); [lia|]. congruence.
Qed.

Lemma find_ie_in l id i : find_ie l id = Some i -> In i l.
Proof. intros H. unfold find_ie in H. apply find_some in H as (H & _). now apply in_rev. Qed.

Lemma concat_bytes l n i r : Forall (fun i => Forall is_byte (ie_data i)) l ->
  concat_info l = Some (n, i, r) -> is_byte n /\ is_byte i /\ 0 <= r.
Proof.
  intros HF H. unfold concat_info in H. destruct l as [|x l]; [discriminate|].
  rewrite Forall_forall in HF. unfold concat_info8, concat_info16 in H. unfold is_byte.
  assert (H16 : forall y, concat_info16 y = Some (n, i, r) -> y = x :: l -> is_byte n /\ is_byte i /\ 0 <= r).
  { intros y Hy ->. unfold concat_info16 in Hy. destruct (find_ie (x :: l) 8) as [e|] eqn:E; [|discriminate].
    apply find_ie_in, HF in E. destruct (ie_data e) as [|r1 [|r2 [|s1 [|n1 [|]]]]]; try discriminate.
    injection Hy as <- <- <-. repeat (apply Forall_cons_iff in E as (? & E)). unfold is_byte in *. lia. }
  unfold concat_info16 in H16. unfold is_byte in H16.
  destruct (find_ie (x :: l) 0) as [e|] eqn:E; [|now apply (H16 (x :: l))].
  apply find_ie_in, HF in E. destruct (ie_data e) as [|r1 [|s1 [|n1 [|]]]]; try (now apply (H16 (x :: l))).
  injection H as <- <- <-. repeat (apply Forall_cons_iff in E as (? & E)). unfold is_byte in *. lia.
Qed.

(** The message of a part. *)
Lemma part_message g n i r : typed g -> supported g -> tpdu_concat_info (sg_pdu g) = Some (n, i, r) -> 2 <= n ->
  exists m, m_ok m /\ m_total m = n /\ is_segment m i g /\ pdu_key (sg_pdu g) n r = (key_of m, None).
Proof.
  intros (TD & TO & TB) SU HC HN. destruct (concat_bytes _ _ _ _ TB HC) as (BN & BI & BR).
  destruct SU as [S|S].
  - exists {| m_type := SmsSubmit; m_toa := a_toa (DA (sg_pdu g)); m_addr := a_addr (DA (sg_pdu g));
              m_ref := r; m_total := n |}.
    split; [unfold m_ok; cbn; auto|]. split; [reflexivity|]. split.
    + split; [exact HC|]. left. cbn. repeat split; auto. now destruct (DA (sg_pdu g)).
    + unfold pdu_key. rewrite S. reflexivity.
  - exists {| m_type := SmsDeliver; m_toa := a_toa (OA (sg_pdu g)); m_addr := a_addr (OA (sg_pdu g));
              m_ref := r; m_total := n |}.
    split; [unfold m_ok; cbn; auto|]. split; [reflexivity|]. split.
    + split; [exact HC|]. right. cbn. repeat split; auto. now destruct (OA (sg_pdu g)).
    + unfold pdu_key. rewrite S. reflexivity.
Qed.

Lemma segment_key m i g : is_segment m i g -> pdu_key (sg_pdu g) (m_total m) (m_ref m) = (key_of m, None).
Proof.
  unfold is_segment, pdu_key, key_of. intros (_ & [(A & B & C)|(A & B & C)]); rewrite A, B, C; reflexivity.
Qed.

Lemma segment_message m m' i i' g : is_segment m i g -> is_segment m' i' g -> m = m' /\ i = i'.
Proof.
  intros (A & B) (A' & B'). rewrite A in A'. injection A' as E1 E2 E3. split; [|assumption].
  destruct B as [(B1 & B2 & B3)|(B1 & B2 & B3)]; destruct B' as [(C1 & C2 & C3)|(C1 & C2 & C3)];
    try (rewrite B2 in C2; discriminate C2); rewrite B3 in C3; injection C3 as C3 C4; destruct m, m'; cbn in *; congruence.
Qed.

(** ** What Collect does *)

Lemma klookup_kdelete_other m k k' : k <> k' -> klookup (kdelete m k') k = klookup m k.
Proof.
  intros H. induction m as [|[a b] m IH]; [reflexivity|]. rewrite kdelete_cons. cbn [klookup].
  destruct (key_eqb k' a) eqn:E; cbn [klookup]; [|now rewrite IH].
  apply key_eqb_eq in E. subst a. apply key_eqb_neq in H. now rewrite H.
Qed.
Lemma klookup_kdelete_same m k : klookup (kdelete m k) k = None.
Proof.
  apply klookup_none. intros H. apply in_map_iff in H as ((a & b) & E & H). cbn in E. subst a.
  apply in_kdelete in H as (_ & H). congruence.
Qed.
Lemma klookup_kset_other m k k' v : k <> k' -> klookup (kset m k' v) k = klookup m k.
Proof.
  intros H. unfold kset. cbn [klookup]. rewrite (klookup_kdelete_other _ _ _ H). apply key_eqb_neq in H. now rewrite H.
Qed.
Lemma klookup_kset_same m k v : klookup (kset m k v) k = Some v.
Proof. unfold kset. cbn [klookup]. now rewrite key_eqb_refl. Qed.

(** The cases of Collect on a part in an open Collector. *)
Lemma collect_cases cfg s g n q ref key err : c_closed s = false ->
  tpdu_concat_info (sg_pdu g) = Some (n, q, ref) -> 2 <= n -> 1 <= q <= n ->
  pdu_key (sg_pdu g) n ref = (key, err) ->
  let fresh := (let '(s, id) := new_pipe s key n in store cfg s id key n q g err) in
  (klookup (c_pipes s) key = None /\ collect cfg s g = fresh) \/
  (exists id p, klookup (c_pipes s) key = Some id /\ nth_error (c_heap s) id = Some p /\
     ((exists old, idx (p_segs p) (q - 1) = Ok (Some old) /\
         collect cfg s g = (s, CReturn None (Some ErrDuplicateSegment))) \/
      (idx (p_segs p) (q - 1) = Ok None /\
         ((p_cleanup p = None /\ collect cfg s g = store cfg s id key n q g err) \/
          (exists tid tm, p_cleanup p = Some tid /\ nth_error (c_timers s) tid = Some tm /\
             ((tm_state tm = TActive /\ collect cfg s g = store cfg (stopped s tid tm) id key n q g err) \/
              (tm_state tm <> TActive /\ collect cfg s g = fresh))) \/
          (exists tid, p_cleanup p = Some tid /\ nth_error (c_timers s) tid = None /\ collect cfg s g = fresh))) \/
      (idx (p_segs p) (q - 1) = Panic /\ collect cfg s g = (s, CPanic)))) \/
  (exists id, klookup (c_pipes s) key = Some id /\ nth_error (c_heap s) id = None /\ collect cfg s g = (s, CPanic)).
Proof.
  intros O C N Q K. cbv zeta. unfold collect. rewrite O, C, K.
  replace (n <? 2) with false by lia. replace ((q <? 1) || (n <? q)) with false by lia.
  destruct (klookup (c_pipes s) key) as [id|]; [|now left]. right.
  destruct (nth_error (c_heap s) id) as [p|] eqn:EP; [|right; eauto]. left. exists id, p.
  split; [reflexivity|]. split; [assumption|].
  destruct (idx (p_segs p) (q - 1)) as [[old|]|e| |] eqn:EI.
  - left. eauto.
  - right. left. split; [reflexivity|]. destruct (p_cleanup p) as [tid|]; [|now left]. right.
    unfold stop_timer. destruct (nth_error (c_timers s) tid) as [tm|] eqn:ET; [left|right; eauto].
    exists tid, tm. split; [reflexivity|]. split; [assumption|].
    destruct (tm_state tm) eqn:ES; [left|right..]; split; try discriminate; try reflexivity.
  - now apply idx_not_err in EI.
  - auto.
  - now apply idx_not_div in EI.
Qed.

(** ** The pipes hold parts of one message each, but for that of parts without a key *)

Lemma key_nonempty m : key_of m <> [].
Proof. unfold key_of, fmt_key. destruct (fmt_d _); discriminate. Qed.

Definition well (m : message) (p : pipe) : Prop :=
  length (p_segs p) = Z.to_nat (m_total m) /\
  p_frags p = Z.of_nat (length (somes (p_segs p))) /\
  forall i g, nth_error (p_segs p) i = Some (Some g) -> is_segment m (Z.of_nat i + 1) g.
Definition pile (p : pipe) : Prop :=
  p_frags p = Z.of_nat (length (somes (p_segs p))) /\ 1 <= p_frags p /\ forall g, In (Some g) (p_segs p) -> ~ supported g.
Definition entry (s : cstate) (k : bytes) (id : nat) : Prop :=
  (k <> [] -> exists m p, m_ok m /\ k = key_of m /\ nth_error (c_heap s) id = Some p /\ well m p /\ 1 <= p_frags p < m_total m) /\
  (k = [] -> exists p, nth_error (c_heap s) id = Some p /\ pile p).
Definition MInv (s : cstate) : Prop := forall k id, In (k, id) (c_pipes s) -> entry s k id.

Lemma all_somes {A} (l : list (option A)) : length (somes l) = length l -> l = map Some (somes l).
Proof.
  assert (LE : forall l : list (option A), (length (somes l) <= length l)%nat).
  { induction l0 as [|[x|] l0 IH]; [cbn; lia| |];
      [change (somes (Some x :: l0)) with (x :: somes l0)|change (somes (None :: l0)) with (somes l0)]; cbn [length]; lia. }
  induction l as [|[x|] l IH]; [reflexivity| |].
  - change (somes (Some x :: l)) with (x :: somes l). cbn [length map]. intros H. f_equal. apply IH. lia.
  - change (somes (None :: l)) with (somes l). cbn [length]. intros H. specialize (LE l). lia.
Qed.

Lemma well_upd m p i g c f : well m p -> 1 <= i <= m_total m -> nth_error (p_segs p) (Z.to_nat (i - 1)) = Some None ->
  is_segment m i g -> f = p_frags p + 1 ->
  well m {| p_cleanup := c; p_segs := upd (p_segs p) (Z.to_nat (i - 1)) (Some g); p_frags := f |}.
Proof.
  intros (A & B & C) R HN HS ->. split; [|split]; cbn [p_segs p_frags].
  - now rewrite upd_length.
  - rewrite (Permutation_length (somes_upd _ _ g HN)). cbn [length]. lia.
  - intros j x Hx. apply nth_upd_inv in Hx as [(-> & Hx & _)|(_ & Hx)]; [|now apply C].
    injection Hx as ->. now replace (Z.of_nat (Z.to_nat (i - 1)) + 1) with i by lia.
Qed.

(** Storing a segment: the complete message is returned, in order, or nothing is. *)
Lemma store_msg cfg s id m i g p s' r :
  In (key_of m, id) (c_pipes s) -> NoDup (map fst (c_pipes s)) -> NoDup (map snd (c_pipes s)) ->
  nth_error (c_heap s) id = Some p -> m_ok m -> well m p -> p_frags p < m_total m ->
  1 <= i <= m_total m -> nth_error (p_segs p) (Z.to_nat (i - 1)) = Some None -> is_segment m i g ->
  (forall k j, In (k, j) (c_pipes s) -> j <> id -> entry s k j) ->
  store cfg s id (key_of m) (m_total m) i g None = (s', r) ->
  MInv s' /\
  ((p_frags p + 1 < m_total m /\ r = CReturn None None /\ klookup (c_pipes s') (key_of m) = Some id /\
    exists c, nth_error (c_heap s') id = Some {| p_cleanup := c;
      p_segs := upd (p_segs p) (Z.to_nat (i - 1)) (Some g); p_frags := p_frags p + 1 |}) \/
   (p_frags p + 1 = m_total m /\ klookup (c_pipes s') (key_of m) = None /\
    exists gs, upd (p_segs p) (Z.to_nat (i - 1)) (Some g) = map Some gs /\
      r = CReturn (Some (map Some gs)) None /\ length gs = Z.to_nat (m_total m) /\
      forall j x, nth_error gs j = Some x -> is_segment m (Z.of_nat j + 1) x)).
Proof.
  intros HK NK NI HP MO W HF R HN HS HE H. unfold store in H. rewrite HP in H.
  pose proof (fun c => well_upd m p i g c (p_frags p + 1) W R HN HS eq_refl) as W'.
  set (segs := upd (p_segs p) (Z.to_nat (i - 1)) (Some g)) in *.
  assert (FR : 0 <= p_frags p) by (destruct W as (_ & -> & _); lia).
  assert (OTHER : forall p' k j, In (k, j) (c_pipes s) -> j <> id -> forall s2, c_heap s2 = upd (c_heap s) id p' -> entry s2 k j).
  { intros p' k j Hj NE s2 E2. unfold entry. rewrite E2, nth_upd_other by assumption. exact (HE k j Hj NE). }
  destruct (p_frags p + 1 =? m_total m) eqn:EQ.
  - injection H as <- <-. split.
    + intros k j Hj. cbn [c_pipes] in Hj. apply in_kdelete in Hj as (Hj & NE). eapply OTHER; [eassumption| |reflexivity].
      intros ->. apply NE. now apply (ids_inj _ _ _ _ NI Hj).
    + right. split; [lia|]. cbn [c_pipes]. split; [apply klookup_kdelete_same|].
      destruct (W' (p_cleanup p)) as (A & B & C). cbn [p_segs p_frags] in *.
      assert (EL : segs = map Some (somes segs)) by (apply all_somes; lia).
      exists (somes segs). split; [assumption|]. split; [now rewrite EL at 1|]. split; [lia|].
      intros j x Hx. apply C. rewrite EL, nth_error_map, Hx. reflexivity.
  - assert (MAIN : forall c tms, MInv {| c_closed := c_closed s; c_pipes := c_pipes s;
      c_heap := upd (c_heap s) id {| p_cleanup := c; p_segs := segs; p_frags := p_frags p + 1 |}; c_timers := tms |}).
    { intros c tms k j Hj. cbn [c_pipes] in Hj. destruct (Nat.eq_dec j id) as [->|NE].
      - pose proof (ids_inj _ _ _ _ NI Hj HK) as KE. split; intros NK'; [|rewrite KE in NK'; now apply key_nonempty in NK'].
        exists m, {| p_cleanup := c; p_segs := segs; p_frags := p_frags p + 1 |}. split; [assumption|].
        split; [now apply (ids_inj _ _ _ _ NI Hj)|]. cbn [c_heap]. split; [now apply nth_upd_same with (x := p)|].
        split; [apply W'|]. cbn [p_frags]. lia.
      - eapply OTHER; [eassumption|assumption|reflexivity]. }
    assert (LK : klookup (c_pipes s) (key_of m) = Some id) by (now apply klookup_nodup).
    destruct (cf_timeout cfg); injection H as <- <-; (split; [apply MAIN|]); left; (split; [lia|]);
      (split; [reflexivity|]); (split; [exact LK|]); eexists; cbn [c_heap]; apply nth_upd_same with (x := p); assumption.
Qed.

(** A message that gets a new pipe. *)
Lemma fresh_msg cfg s m i g s' r : Inv cfg None s -> MInv s -> m_ok m -> 1 <= i <= m_total m -> is_segment m i g ->
  (let '(s, id) := new_pipe s (key_of m) (m_total m) in store cfg s id (key_of m) (m_total m) i g None) = (s', r) ->
  MInv s' /\ r = CReturn None None /\ klookup (c_pipes s') (key_of m) = Some (length (c_heap s)) /\
  exists c, nth_error (c_heap s') (length (c_heap s)) = Some {| p_cleanup := c;
      p_segs := upd (repeat None (Z.to_nat (m_total m))) (Z.to_nat (i - 1)) (Some g); p_frags := 1 |}.
Proof.
  intros I M MO R HS H. unfold new_pipe in H. set (id := length (c_heap s)) in *.
  set (p0 := {| p_cleanup := None; p_segs := repeat None (Z.to_nat (m_total m)); p_frags := 0 |}) in *.
  set (s1 := {| c_closed := c_closed s; c_pipes := _; c_heap := _; c_timers := _ |}) in *.
  assert (T2 : 2 <= m_total m) by apply MO.
  assert (NI : forall k j, In (k, j) (c_pipes s) -> j <> id).
  { intros k j Hj. apply (inv_id cfg None s) in Hj; [|assumption]. unfold id. lia. }
  assert (HP : nth_error (c_heap s1) id = Some p0).
  { cbn [s1 c_heap]. rewrite nth_error_app2 by (unfold id; lia). unfold id. now rewrite Nat.sub_diag. }
  destruct (store_msg cfg s1 id m i g p0 s' r) as (A & B); try assumption.
  - cbn [s1 c_pipes]. apply in_kset. auto.
  - cbn [s1 c_pipes]. unfold kset. cbn [map fst]. constructor; [|apply kdelete_keys, I].
    intros F. apply in_map_iff in F as ((a & b) & E & F). cbn in E. subst a. apply in_kdelete in F. tauto.
  - cbn [s1 c_pipes]. unfold kset. cbn [map snd]. constructor; [|apply kdelete_ids, I].
    intros F. apply snd_in in F as (k & F). apply in_kdelete in F as (F & _). now apply NI in F.
  - split; [|split]; cbn [p0 p_segs p_frags].
    + apply repeat_length.
    + now rewrite somes_repeat_none.
    + intros j x Hx. apply nth_error_In, repeat_spec in Hx. discriminate.
  - cbn. lia.
  - cbn [p0 p_segs]. apply nth_error_repeat. lia.
  - intros k j Hj NE. cbn [s1 c_pipes] in Hj. apply in_kset in Hj as [(_ & F)|(Hj & _)]; [contradiction|].
    unfold entry. cbn [s1 c_heap]. rewrite nth_error_app1; [exact (M k j Hj)|]. now apply (inv_id cfg None s k).
  - split; [assumption|]. destruct B as [(_ & B1 & B2 & B3)|(F & _)]; [|cbn in F; lia]. auto.
Qed.

(** What Collect does with a segment of a message. *)
Lemma collect_msg cfg s m i g s' r : Inv cfg None s -> MInv s -> c_closed s = false ->
  m_ok m -> 1 <= i <= m_total m -> is_segment m i g -> collect cfg s g = (s', r) ->
  MInv s' /\
  ((s' = s /\ r = CReturn None (Some ErrDuplicateSegment)) \/ r = CReturn None None \/
   exists gs, r = CReturn (Some (map Some gs)) None /\ length gs = Z.to_nat (m_total m) /\ In g gs /\
      forall j x, nth_error gs j = Some x -> is_segment m (Z.of_nat j + 1) x).
Proof.
  intros I M O MO R HS H. pose proof (segment_key m i g HS) as HK.
  assert (HC : tpdu_concat_info (sg_pdu g) = Some (m_total m, i, m_ref m)) by apply HS.
  assert (FR : (let '(s, id) := new_pipe s (key_of m) (m_total m) in store cfg s id (key_of m) (m_total m) i g None) = (s', r) ->
    MInv s' /\ ((s' = s /\ r = CReturn None (Some ErrDuplicateSegment)) \/ r = CReturn None None \/
   exists gs, r = CReturn (Some (map Some gs)) None /\ length gs = Z.to_nat (m_total m) /\ In g gs /\
      forall j x, nth_error gs j = Some x -> is_segment m (Z.of_nat j + 1) x)).
  { intros HH. destruct (fresh_msg cfg s m i g s' r I M MO R HS HH) as (A & B & _). auto. }
  destruct (collect_cases cfg s g _ _ _ _ _ O HC (proj2 (proj2 (proj2 MO))) R HK)
    as [(_ & E)|[(id & p & LK & HP & CA)|(id & LK & HP & E)]].
  - rewrite E in H. auto.
  - pose proof (klookup_in _ _ _ LK) as IN. destruct (proj1 (M _ _ IN) (key_nonempty _)) as (m2 & p2 & MO2 & EK & HP2 & W & HF).
    assert (m2 = m) by (symmetry; now apply key_inj). subst m2. assert (p2 = p) by congruence. subst p2.
    destruct CA as [(old & _ & E)|[(HN & CA)|(HN & E)]].
    + rewrite E in H. injection H as <- <-. auto.
    + apply idx_nth in HN as (_ & HN).
      assert (ST : forall s0, c_pipes s0 = c_pipes s -> c_heap s0 = c_heap s ->
        store cfg s0 id (key_of m) (m_total m) i g None = (s', r) ->
        MInv s' /\ ((s' = s /\ r = CReturn None (Some ErrDuplicateSegment)) \/ r = CReturn None None \/
         exists gs, r = CReturn (Some (map Some gs)) None /\ length gs = Z.to_nat (m_total m) /\ In g gs /\
         forall j x, nth_error gs j = Some x -> is_segment m (Z.of_nat j + 1) x)).
      { intros s0 E1 E2 HH. destruct (store_msg cfg s0 id m i g p s' r) as (A & B); rewrite ?E1, ?E2; auto; try apply I; try lia.
        - intros k j Hj _. unfold entry. rewrite E2. exact (M k j Hj).
        - split; [assumption|]. destruct B as [(_ & B & _)|(_ & _ & gs & EG & B & C & D)]; [auto|].
          right. right. exists gs. split; [assumption|]. split; [assumption|]. split; [|exact D].
          assert (F : In (Some g) (map Some gs)).
          { rewrite <- EG. apply nth_error_In with (n := Z.to_nat (i - 1)). now apply nth_upd_same with (x := None). }
          apply in_map_iff in F as (y & F1 & F2). congruence. }
      destruct CA as [(_ & E)|[(tid & tm & _ & HT & [(_ & E)|(_ & E)])|(tid & _ & _ & E)]]; rewrite E in H.
      * now apply (ST s).
      * now apply (ST (stopped s tid tm)).
      * now apply FR.
      * now apply FR.
    + exfalso. apply idx_panic in HN. destruct W as (W & _). apply HN. unfold len. lia.
  - exfalso. apply klookup_in, M in LK. destruct (proj1 LK (key_nonempty _)) as (m2 & p2 & _ & _ & F & _). congruence.
Qed.

(** ** What a step leaves alone *)

(** No timer of pipe [id] has fired. *)
Definition live (s : cstate) (id : nat) : Prop :=
  forall j tm, nth_error (c_timers s) j = Some tm -> tm_pipe tm = id -> tm_state tm <> TFired.

Definition frame (s s' : cstate) (k : bytes) : Prop :=
  klookup (c_pipes s') k = klookup (c_pipes s) k /\
  forall id, klookup (c_pipes s) k = Some id ->
    nth_error (c_heap s') id = nth_error (c_heap s) id /\ (live s id -> live s' id).

Lemma frame_refl s k : frame s s k.
Proof. split; auto. Qed.
Lemma frame_trans s1 s2 s3 k : frame s1 s2 k -> frame s2 s3 k -> frame s1 s3 k.
Proof.
  intros (A & B) (C & D). split; [congruence|]. intros id H. destruct (B id H) as (B1 & B2).
  rewrite <- A in H. destruct (D id H) as (D1 & D2). split; [congruence|auto].
Qed.

Lemma nth_error_snoc {A} (l : list A) x j y : nth_error (l ++ [x]) j = Some y -> nth_error l j = Some y \/ y = x.
Proof.
  intros H. destruct (Nat.lt_ge_cases j (length l)) as [L|L].
  - rewrite nth_error_app1 in H by assumption. auto.
  - rewrite nth_error_app2 in H by assumption. destruct (j - length l)%nat as [|[|]]; cbn in H; try discriminate.
    right. congruence.
Qed.

Lemma store_frame cfg s id key n q g err s' r k : store cfg s id key n q g err = (s', r) -> k <> key ->
  klookup (c_pipes s) k <> Some id -> frame s s' k.
Proof.
  intros H NK NI. unfold store in H. destruct (nth_error (c_heap s) id) as [p|]; [|injection H as <- <-; apply frame_refl].
  destruct (p_frags p + 1 =? n); [|destruct (cf_timeout cfg)]; injection H as <- <-; split; cbn [c_pipes]; try reflexivity;
    try (now apply klookup_kdelete_other).
  all: intros i Hi; assert (i <> id) by congruence; cbn [c_heap]; (split; [now apply nth_upd_other|]); intros L j tm Hj HP;
    cbn [c_timers] in Hj; try (now apply (L j)).
  apply nth_error_snoc in Hj as [Hj| ->]; [now apply (L j)|]. discriminate.
Qed.

Lemma new_pipe_frame cfg s key n s' id k : Inv cfg None s -> new_pipe s key n = (s', id) -> k <> key ->
  frame s s' k /\ klookup (c_pipes s') k <> Some id.
Proof.
  intros I H NK. unfold new_pipe in H. injection H as <- <-. unfold frame. cbn [c_pipes c_heap].
  rewrite (klookup_kset_other _ _ _ _ NK). assert (LT : forall i, klookup (c_pipes s) k = Some i -> (i < length (c_heap s))%nat).
  { intros i Hi. apply klookup_in in Hi. now apply (inv_id cfg None s k). }
  split; [|intros F; apply LT in F; lia]. split; [reflexivity|]. intros i Hi. apply LT in Hi.
  split; [now apply nth_error_app1|auto].
Qed.

Lemma stopped_frame s tid tm k : nth_error (c_timers s) tid = Some tm -> frame s (stopped s tid tm) k.
Proof.
  intros HT. split; [reflexivity|]. intros id _. split; [reflexivity|]. intros L j x Hx HP.
  cbn [stopped c_timers] in Hx. apply nth_upd_inv in Hx as [(-> & -> & _)|(_ & Hx)]; [discriminate|now apply (L j)].
Qed.

Lemma collect_frame cfg s g s' r k : Inv cfg None s -> collect cfg s g = (s', r) ->
  (forall n q ref, tpdu_concat_info (sg_pdu g) = Some (n, q, ref) -> 2 <= n -> fst (pdu_key (sg_pdu g) n ref) <> k) ->
  frame s s' k.
Proof.
  intros I H HK.
  destruct (c_closed s) eqn:O; [unfold collect in H; rewrite O in H; injection H as <- <-; apply frame_refl|].
  destruct (tpdu_concat_info (sg_pdu g)) as [[[n q] ref]|] eqn:EC;
    [|unfold collect in H; rewrite O, EC in H; injection H as <- <-; apply frame_refl].
  destruct (n <? 2) eqn:E2; [unfold collect in H; rewrite O, EC, E2 in H; injection H as <- <-; apply frame_refl|].
  destruct ((q <? 1) || (n <? q)) eqn:EQ;
    [unfold collect in H; rewrite O, EC, E2, EQ in H; injection H as <- <-; apply frame_refl|].
  specialize (HK n q ref eq_refl ltac:(lia)).
  destruct (pdu_key (sg_pdu g) n ref) as [key err] eqn:EK. cbn [fst] in HK.
  assert (NK : k <> key) by congruence.
  assert (FR : (let '(s, id) := new_pipe s key n in store cfg s id key n q g err) = (s', r) -> frame s s' k).
  { intros HH. destruct (new_pipe s key n) as [s1 id] eqn:EN.
    destruct (new_pipe_frame cfg s key n s1 id k I EN NK) as (A & B).
    apply (frame_trans s s1); [assumption|]. now apply (store_frame cfg s1 id key n q g err s' r). }
  destruct (collect_cases cfg s g _ _ _ _ _ O EC ltac:(lia) ltac:(lia) EK)
    as [(_ & E)|[(id & p & LK & HP & CA)|(id & LK & HP & E)]]; [rewrite E in H; auto| |rewrite E in H; injection H as <- <-; apply frame_refl].
  assert (NI : klookup (c_pipes s) k <> Some id).
  { intros F. apply NK. apply klookup_in in F, LK. now apply (ids_inj _ _ _ _ (i_ids _ _ _ I) F). }
  destruct CA as [(old & _ & E)|[(HN & CA)|(HN & E)]]; try (rewrite E in H; injection H as <- <-; apply frame_refl).
  destruct CA as [(_ & E)|[(tid & tm & _ & HT & [(_ & E)|(_ & E)])|(tid & _ & _ & E)]]; rewrite E in H; auto.
  - now apply (store_frame cfg s id key n q g err s' r).
  - apply (frame_trans s (stopped s tid tm)); [now apply stopped_frame|].
    now apply (store_frame cfg (stopped s tid tm) id key n q g err s' r).
Qed.

(** ** Every step keeps the pipes sorted by message *)

(** A part of no message leaves the pipes with keys alone. *)
Lemma unsupported_key g n ref : ~ supported g -> pdu_key (sg_pdu g) n ref = ([], Some (ErrUnsupportedSmsType (tpdu_type (sg_pdu g)))).
Proof.
  intros N. unfold pdu_key. destruct (Z.eqb_spec (tpdu_type (sg_pdu g)) SmsSubmit) as [E|_]; [destruct N; now left|].
  destruct (Z.eqb_spec (tpdu_type (sg_pdu g)) SmsDeliver) as [E|_]; [destruct N; now right|reflexivity].
Qed.
Lemma supported_dec g : {supported g} + {~ supported g}.
Proof.
  unfold supported. destruct (Z.eq_dec (tpdu_type (sg_pdu g)) SmsSubmit); [left; auto|].
  destruct (Z.eq_dec (tpdu_type (sg_pdu g)) SmsDeliver); [left; auto|]. right. tauto.
Qed.
(** Storing such a part. *)
Definition heaped (p : pipe) : Prop :=
  p_frags p = Z.of_nat (length (somes (p_segs p))) /\ forall g, In (Some g) (p_segs p) -> ~ supported g.
Lemma store_pile cfg s id p n q g err s' r : klookup (c_pipes s) [] = Some id -> nth_error (c_heap s) id = Some p ->
  heaped p -> nth_error (p_segs p) (Z.to_nat (q - 1)) = Some None -> ~ supported g ->
  store cfg s id [] n q g err = (s', r) ->
  let segs := upd (p_segs p) (Z.to_nat (q - 1)) (Some g) in
  (p_frags p + 1 = n /\ klookup (c_pipes s') [] = None /\ r = CReturn (Some segs) None) \/
  (p_frags p + 1 <> n /\ r = CReturn None err /\ klookup (c_pipes s') [] = Some id /\
   exists p', nth_error (c_heap s') id = Some p' /\ p_segs p' = segs /\ pile p').
Proof.
  intros LK HP (HF & HS) HN NS H segs. unfold store in H. rewrite HP in H. fold segs in H.
  assert (PI : forall c, pile {| p_cleanup := c; p_segs := segs; p_frags := p_frags p + 1 |}).
  { intros c. split; [|split]; cbn [p_segs p_frags].
    - unfold segs. rewrite (Permutation_length (somes_upd _ _ g HN)). cbn [length]. lia.
    - lia.
    - intros x Hx. apply In_nth_error in Hx as (j & Hx). apply nth_upd_inv in Hx as [(_ & Hx & _)|(_ & Hx)]; [congruence|].
      apply HS. now apply nth_error_In in Hx. }
  destruct (Z.eqb_spec (p_frags p + 1) n) as [E|E].
  - injection H as <- <-. left. split; [exact E|]. split; [apply klookup_kdelete_same|reflexivity].
  - right. split; [exact E|]. destruct (cf_timeout cfg); injection H as <- <-; (split; [reflexivity|]);
      (split; [exact LK|]); eexists; cbn [c_heap]; (split; [now apply nth_upd_same with (x := p)|]);
      (split; [reflexivity|apply PI]).
Qed.
Lemma fresh_pile cfg s n q g err s' r : Inv cfg None s -> 2 <= n -> 1 <= q <= n -> ~ supported g ->
  (let '(s, id) := new_pipe s [] n in store cfg s id [] n q g err) = (s', r) ->
  r = CReturn None err /\ klookup (c_pipes s') [] = Some (length (c_heap s)) /\
  exists p', nth_error (c_heap s') (length (c_heap s)) = Some p' /\
    p_segs p' = upd (repeat None (Z.to_nat n)) (Z.to_nat (q - 1)) (Some g) /\ pile p'.
Proof.
  intros I N Q NS H. unfold new_pipe in H. set (id := length (c_heap s)) in *.
  set (p0 := {| p_cleanup := None; p_segs := repeat None (Z.to_nat n); p_frags := 0 |}) in *.
  set (s1 := {| c_closed := c_closed s; c_pipes := _; c_heap := _; c_timers := _ |}) in *.
  destruct (store_pile cfg s1 id p0 n q g err s' r) as [(E & _)|(_ & A & B & C)]; try assumption.
  - cbn [s1 c_pipes]. apply klookup_kset_same.
  - cbn [s1 c_heap]. rewrite nth_error_app2 by (unfold id; lia). unfold id. now rewrite Nat.sub_diag.
  - split; cbn [p0 p_segs p_frags]; [now rewrite somes_repeat_none|].
    intros x Hx. apply repeat_spec in Hx. discriminate.
  - cbn [p0 p_segs]. apply nth_error_repeat. lia.
  - cbn [p0 p_frags] in E. lia.
  - auto.
Qed.
(** What Collect does with a part of no message: [late] says whether the timer of the pile has fired. *)
Lemma collect_pile cfg s g n q ref s' r : Inv cfg None s -> MInv s -> c_closed s = false -> ~ supported g ->
  tpdu_concat_info (sg_pdu g) = Some (n, q, ref) -> 2 <= n -> 1 <= q <= n -> collect cfg s g = (s', r) ->
  let err := Some (ErrUnsupportedSmsType (tpdu_type (sg_pdu g))) in
  let new := r = CReturn None err /\ klookup (c_pipes s') [] = Some (length (c_heap s)) /\
    exists p', nth_error (c_heap s') (length (c_heap s)) = Some p' /\
      p_segs p' = upd (repeat None (Z.to_nat n)) (Z.to_nat (q - 1)) (Some g) /\ pile p' in
  (klookup (c_pipes s) [] = None /\ new) \/
  exists id p, klookup (c_pipes s) [] = Some id /\ nth_error (c_heap s) id = Some p /\ pile p /\
    let segs := upd (p_segs p) (Z.to_nat (q - 1)) (Some g) in
    ((len (p_segs p) < q /\ s' = s /\ r = CPanic) \/
     (exists old, nth_error (p_segs p) (Z.to_nat (q - 1)) = Some (Some old) /\ s' = s /\
        r = CReturn None (Some ErrDuplicateSegment)) \/
     (nth_error (p_segs p) (Z.to_nat (q - 1)) = Some None /\
       ((exists tid tm, p_cleanup p = Some tid /\ nth_error (c_timers s) tid = Some tm /\ tm_state tm <> TActive /\ new) \/
        ((p_cleanup p = None \/ exists tid tm, p_cleanup p = Some tid /\ nth_error (c_timers s) tid = Some tm /\ tm_state tm = TActive) /\
         ((p_frags p + 1 = n /\ klookup (c_pipes s') [] = None /\ r = CReturn (Some segs) None) \/
          (p_frags p + 1 <> n /\ r = CReturn None err /\ klookup (c_pipes s') [] = Some id /\
           exists p', nth_error (c_heap s') id = Some p' /\ p_segs p' = segs /\ pile p')))))).
Proof.
  intros I M O NS HC N Q H err new. pose proof (unsupported_key g n ref NS) as HK.
  assert (FR : (let '(s, id) := new_pipe s [] n in store cfg s id [] n q g err) = (s', r) -> new).
  { intros HH. exact (fresh_pile cfg s n q g err s' r I N Q NS HH). }
  destruct (collect_cases cfg s g n q ref [] err O HC N Q HK) as [(LK & E)|[(id & p & LK & HP & CA)|(id & LK & HP & E)]].
  - left. split; [exact LK|]. apply FR. now rewrite <- E.
  - right. exists id, p. split; [exact LK|]. split; [exact HP|].
    pose proof (klookup_in _ _ _ LK) as IN. destruct (proj2 (M _ _ IN) eq_refl) as (p2 & HP2 & PL).
    assert (p2 = p) by congruence. subst p2. split; [exact PL|]. intros segs.
    destruct CA as [(old & HN & E)|[(HN & CA)|(HN & E)]].
    + rewrite E in H. injection H as <- <-. apply idx_nth in HN as (_ & HN). right. left. eauto.
    + apply idx_nth in HN as (_ & HN). right. right. split; [exact HN|].
      assert (ST : forall s0, c_pipes s0 = c_pipes s -> c_heap s0 = c_heap s ->
        store cfg s0 id [] n q g err = (s', r) ->
        (p_frags p + 1 = n /\ klookup (c_pipes s') [] = None /\ r = CReturn (Some segs) None) \/
        (p_frags p + 1 <> n /\ r = CReturn None err /\ klookup (c_pipes s') [] = Some id /\
           exists p', nth_error (c_heap s') id = Some p' /\ p_segs p' = segs /\ pile p')).
      { intros s0 E1 E2 HH. apply (store_pile cfg s0 id p n q g err s' r); rewrite ?E1, ?E2; try assumption.
        split; apply PL. }
      destruct CA as [(EC & E)|[(tid & tm & EC & HT & [(ES & E)|(ES & E)])|(tid & EC & HT & E)]]; rewrite E in H.
      * right. split; [now left|]. now apply (ST s).
      * right. split; [eauto 6|]. now apply (ST (stopped s tid tm)).
      * left. exists tid, tm. auto.
      * exfalso. destruct (i_cleanup _ _ _ I _ _ _ _ IN HP EC) as (tm & F & _). congruence.
    + rewrite E in H. injection H as <- <-. left. split; [|auto]. apply idx_panic in HN. unfold len in *. lia.
  - exfalso. apply klookup_in, M in LK. destruct (proj2 LK eq_refl) as (p & F & _). congruence.
Qed.
Lemma minv_odd cfg s g s' r : Inv cfg None s -> MInv s -> ~ supported g -> collect cfg s g = (s', r) -> MInv s'.
Proof.
  intros I M NS H k id HI. destruct (inv_collect cfg s g s' r I H) as (I' & _).
  apply (klookup_nodup _ _ _ (i_keys _ _ _ I')) in HI. split.
  - intros NK. assert (F : frame s s' k).
    { apply (collect_frame cfg s g s' r k I H). intros n q ref _ _. rewrite (unsupported_key g n ref NS). cbn [fst]. congruence. }
    destruct F as (F1 & F2). rewrite F1 in HI. destruct (F2 id HI) as (F3 & _).
    apply klookup_in in HI. destruct (proj1 (M k id HI) NK) as (m & p & A & B & C & D). exists m, p. rewrite F3. auto.
  - intros ->. assert (SAME : s' = s -> exists p, nth_error (c_heap s') id = Some p /\ pile p).
    { intros ->. apply klookup_in in HI. now apply (M [] id HI). }
    destruct (c_closed s) eqn:O; [unfold collect in H; rewrite O in H; injection H as <- <-; auto|].
    destruct (tpdu_concat_info (sg_pdu g)) as [[[n q] ref]|] eqn:EC.
    2:{ unfold collect in H. rewrite O, EC in H. injection H as <- <-. auto. }
    destruct (Z.ltb_spec n 2) as [N|N].
    { unfold collect in H. rewrite O, EC in H. replace (n <? 2) with true in H by lia. injection H as <- <-. auto. }
    destruct ((q <? 1) || (n <? q)) eqn:Q.
    { unfold collect in H. rewrite O, EC, Q in H. replace (n <? 2) with false in H by lia. injection H as <- <-. auto. }
    destruct (collect_pile cfg s g n q ref s' r I M O NS EC N ltac:(lia) H) as [(_ & _ & LK & p & HP & _ & PL)|(id0 & p & LK0 & HP0 & PL0 & D)];
      [|destruct D as [(_ & E & _)|[(_ & _ & E & _)|(_ & D)]];
        [| |destruct D as [(_ & _ & _ & _ & _ & _ & LK & p' & HP & _ & PL)|(_ & [(_ & LK & _)|(_ & _ & LK & p' & HP & _ & PL)])]]];
      auto; try congruence; rewrite LK in HI; injection HI as <-; eauto.
Qed.
Lemma minv_step cfg s e s' o : Inv cfg None s -> MInv s -> typed_event e -> step cfg s e = (s', o) -> MInv s'.
Proof.
  intros I M SE H.
  assert (SAME : forall s1, c_pipes s1 = c_pipes s -> c_heap s1 = c_heap s -> MInv s1).
  { intros s1 E1 E2 k id Hin. rewrite E1 in Hin. unfold entry. rewrite E2. exact (M k id Hin). }
  destruct e as [g| | |tid|tid|tid]; cbn [step] in H.
  - destruct (collect cfg s g) as [s1 r] eqn:E. injection H as <- <-.
    destruct (c_closed s) eqn:O; [unfold collect in E; rewrite O in E; injection E as <- <-; auto|].
    destruct (tpdu_concat_info (sg_pdu g)) as [[[n q] ref]|] eqn:EC;
      [|unfold collect in E; rewrite O, EC in E; injection E as <- <-; auto].
    destruct (n <? 2) eqn:E2; [unfold collect in E; rewrite O, EC, E2 in E; injection E as <- <-; auto|].
    destruct ((q <? 1) || (n <? q)) eqn:EQ; [unfold collect in E; rewrite O, EC, E2, EQ in E; injection E as <- <-; auto|].
    destruct (supported_dec g) as [SU|NS]; [|now apply (minv_odd cfg s g s1 r)].
    destruct (part_message g n q ref SE SU EC ltac:(lia)) as (m & MO & <- & HS & _).
    now apply (collect_msg cfg s m q g s1 r I M O MO ltac:(lia) HS E).
  - injection H as <- <-. destruct (inv_close cfg s I) as (_ & _ & _ & _ & A & B). auto.
  - injection H as <- <-. auto.
  - destruct (nth_error (c_timers s) tid) as [tm|]; [destruct (tm_state tm)|]; injection H as <- <-; auto.
  - destruct (nth_error (c_timers s) tid) as [tm|] eqn:ET; [destruct (tm_state tm)|]; injection H as <- <-; auto.
    unfold expire_pipe. destruct (klookup (c_pipes s) (tm_key tm)) as [id|]; [|auto].
    destruct (Nat.eqb id (tm_pipe tm)); [|auto]. intros k j Hj. cbn [set_timer c_pipes] in Hj.
    apply in_kdelete in Hj as (Hj & _). exact (M k j Hj).
  - destruct (nth_error (c_timers s) tid) as [tm|]; [destruct (tm_state tm)|]; injection H as <- <-; auto.
Qed.

Lemma minv_run cfg es : forall s, Inv cfg None s -> MInv s -> Forall typed_event es -> MInv (fst (run cfg s es)).
Proof.
  induction es as [|e es IH]; intros s I M HF; [assumption|]. rewrite run_cons. cbn [fst].
  apply Forall_cons_iff in HF as (SE & HF). destruct (step cfg s e) as [s1 o] eqn:E. cbn [fst]. apply IH; auto.
  - now apply (inv_step cfg s e s1 o I E).
  - now apply (minv_step cfg s e s1 o I M SE E).
Qed.

Lemma minv_new : MInv new_collector.
Proof. intros k id []. Qed.

Lemma reach_inv cfg P s : reachable cfg P s -> Inv cfg None s.
Proof. intros (es & _ & <-). apply inv_run, inv_new. Qed.
Lemma supported_typed e : supported_event e -> typed_event e.
Proof. destruct e; cbn; tauto. Qed.
Lemma reach_typed cfg s : reachable cfg supported_event s -> reachable cfg typed_event s.
Proof. intros (es & HF & E). exists es. split; [|exact E]. eapply Forall_impl; [|exact HF]. apply supported_typed. Qed.
Lemma reach_minv cfg s : reachable cfg typed_event s -> MInv s.
Proof. intros (es & HF & <-). apply minv_run; auto using inv_new, minv_new. Qed.
Lemma reach_step (cfg : ccfg) (P : event -> Prop) s e : reachable cfg P s -> P e -> reachable cfg P (fst (step cfg s e)).
Proof.
  intros (es & HF & <-) HP. exists (es ++ [e]). split; [apply Forall_app; auto|].
  rewrite run_app. cbn. now destruct (step _ _ e).
Qed.
Lemma reach_run (cfg : ccfg) (P : event -> Prop) es : forall s, reachable cfg P s -> Forall P es -> reachable cfg P (fst (run cfg s es)).
Proof.
  intros s (es0 & HF & <-) HP. exists (es0 ++ es). split; [now apply Forall_app|]. now rewrite run_app.
Qed.
