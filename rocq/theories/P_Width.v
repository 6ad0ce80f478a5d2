(** C96: references of 8 and of 16 bits. *)
From Verif Require Import GoBase GoLemmas UserData Tpdu Address Collector SpecCollect CollectorProofs CollectorMsgProofs SpecHeader P_Header P_Tpdu P_Collect.

(** The part is numbered by an element with an 8-bit reference. *)
Definition by_8_bits (g : seg) : Prop :=
  exists i, last_with 0 (ies (UDH (sg_pdu g))) i /\ len (ie_data i) = 3.

(** A part of two with a 16-bit reference. *)
Definition ex_wide (id : nat) (hi lo total i : Z) : seg :=
  {| sg_id := id; sg_pdu := set_UDHf ex_deliver (Some [{| ie_id := 8; ie_data := [hi; lo; total; i] |}]) |}.

(** False: the first part of one message and the second of another, of the same
    sender, are put together if the references are the same number. *)
Theorem C96_refuted : exists cfg s g s' a b,
  reachable cfg supported_event s /\ supported_event (EvCollect g) /\
  step cfg s (EvCollect g) = (s', OCollect (CReturn (Some [Some a; Some b]) None)) /\ by_8_bits a /\ ~ by_8_bits b.
Proof.
  exists with_timeout, (fst (run with_timeout new_collector [EvCollect (ex_seg 0 7 2 1)])), (ex_wide 1 0 7 2 2).
  eexists _, (ex_seg 0 7 2 1), (ex_wide 1 0 7 2 2). split; [|split; [|split; [|split]]].
  - eexists. split; [|reflexivity]. constructor; [apply ex_supported; unfold is_byte; lia|constructor].
  - split; [|right; reflexivity]. repeat split; try (cbn; lia). constructor; [cbn; repeat constructor; unfold is_byte; lia|constructor].
  - vm_compute. reflexivity.
  - exists {| ie_id := 0; ie_data := [7; 2; 1] |}. split; [|reflexivity]. exists [], []. repeat split. constructor.
  - intros (i & (b & c & E & EI & _) & _). cbn in E. destruct b as [|x b]; cbn in E; injection E as E1 E2; subst.
    + discriminate.
    + now destruct b.
Qed.
Print Assumptions C96_refuted.

(** And always then, whatever the Collector holds of others: parts 1 and 2 of a
    message of two are put together by sender, reference and number of parts,
    of whichever kind the elements that number them are. *)
Theorem C96_joined : forall cfg s m a b,
  reachable cfg typed_event s -> c_closed s = false -> (forall g, In g (held s) -> seg_no m g = None) ->
  typed a -> typed b -> m_total m = 2 -> is_segment m 1 a -> is_segment m 2 b ->
  snd (run cfg s [EvCollect a; EvCollect b]) =
    [OCollect (CReturn None None); OCollect (CReturn (Some [Some a; Some b]) None)].
Proof.
  intros cfg s m a b RE OP HH TA TB M2 SA SB. apply seg_no_iff in SA. apply seg_no_iff in SB.
  assert (PA : parts m [EvCollect a; EvCollect b] = [(1, a); (2, b)]) by (cbn; now rewrite SA, SB).
  destruct (C34_any_order cfg m s [EvCollect a; EvCollect b] RE OP HH) as (gs & R & L & N).
  - repeat constructor; auto; apply TA || apply TB.
  - repeat constructor; discriminate.
  - cbn. auto.
  - lia.
  - rewrite PA, M2. reflexivity.
  - rewrite PA in N. pose proof (N 1 a (or_introl eq_refl)) as N1. pose proof (N 2 b (or_intror (or_introl eq_refl))) as N2.
    rewrite M2 in *. destruct gs as [|x [|y [|z gs]]]; try discriminate. cbn in N1, N2. injection N1 as ->. injection N2 as ->.
    cbn [run] in *. destruct (step cfg s (EvCollect a)) as [s1 o1]. destruct (step cfg s1 (EvCollect b)) as [s2 o2].
    cbn [fst snd replies] in R |- *. rewrite SA, SB in R. exact R.
Qed.
Print Assumptions C96_joined.

(** Only then: a part is put together with one that has an 8-bit reference, or
    handed to the expiry handler with it, only if its reference is the same
    number, which is below 256, of a message of as many parts.  Missing for the
    full claim: references that are the same number. *)
Lemma small_8 a n i r : typed a -> by_8_bits a -> tpdu_concat_info (sg_pdu a) = Some (n, i, r) -> r < 256.
Proof.
  intros (_ & _ & TY) (x & LW & L3) E. apply C55_concat_info in E. inversion E as [y ref total sq LY DY|y hi lo total sq NO]; subst.
  - destruct LY as (b & c & EQ & _). rewrite EQ, Forall_app in TY. destruct TY as (_ & TY). apply Forall_inv in TY.
    rewrite DY in TY. apply Forall_inv in TY. unfold is_byte in TY. lia.
  - exfalso. exact (NO x LW L3).
Qed.
Theorem C96_apart_partial : forall cfg s g s' d err a b n i r,
  reachable cfg typed_event s -> supported_event (EvCollect g) ->
  step cfg s (EvCollect g) = (s', OCollect (CReturn (Some d) err)) ->
  In (Some a) d -> In (Some b) d -> typed a -> by_8_bits a -> tpdu_concat_info (sg_pdu b) = Some (n, i, r) ->
  r < 256 /\ exists i', tpdu_concat_info (sg_pdu a) = Some (n, i', r).
Proof.
  intros cfg s g s' d err a b n i r RE SU ST IA IB TA A8 CB.
  destruct (C35_result cfg s g s' d err RE SU ST) as (_ & [(_ & ->)|(_ & m & (gs & -> & _ & _ & SG) & _)]).
  - destruct IA as [IA|[]]. destruct IB as [IB|[]]. assert (a = b) by congruence. subst b. split; [exact (small_8 a n i r TA A8 CB)|eauto].
  - apply in_map_iff in IA as (a' & EA & IA). apply in_map_iff in IB as (b' & EB & IB). injection EA as ->. injection EB as ->.
    apply In_nth_error in IA as (ka & IA). apply In_nth_error in IB as (kb & IB).
    destruct (SG _ _ IA) as (CA & _). destruct (SG _ _ IB) as (CB' & _).
    pose proof (small_8 a _ _ _ TA A8 CA). assert (r = m_ref m /\ n = m_total m) as (-> & ->) by (split; congruence). split; [lia|eauto].
Qed.
Print Assumptions C96_apart_partial.
Theorem C96_expired_partial : forall cfg s tid s' d a b n i r,
  reachable cfg supported_event s -> step cfg s (EvHandler tid) = (s', OHandled d) ->
  In (Some a) d -> In (Some b) d -> typed a -> by_8_bits a -> tpdu_concat_info (sg_pdu b) = Some (n, i, r) ->
  r < 256 /\ exists i', tpdu_concat_info (sg_pdu a) = Some (n, i', r).
Proof.
  intros cfg s tid s' d a b n i r RE ST IA IB TA A8 CB. destruct (C35_expired cfg s tid s' d RE ST) as (m & _ & SG).
  apply In_nth_error in IA as (ka & IA). apply In_nth_error in IB as (kb & IB).
  destruct (SG _ _ IA) as (CA & _). destruct (SG _ _ IB) as (CB' & _).
  pose proof (small_8 a _ _ _ TA A8 CA). assert (r = m_ref m /\ n = m_total m) as (-> & ->) by (split; congruence). split; [lia|eauto].
Qed.
Print Assumptions C96_expired_partial.

(** Two messages whose references differ in the high octet only. *)
Example C96_instance : exists s s',
  reachable with_timeout typed_event s /\ typed (ex_wide 2 1 7 2 2) /\ by_8_bits (ex_seg 0 7 2 1) /\
  s = fst (run with_timeout new_collector [EvCollect (ex_seg 0 7 2 1); EvCollect (ex_wide 1 1 7 2 1)]) /\
  step with_timeout s (EvCollect (ex_wide 2 1 7 2 2)) =
    (s', OCollect (CReturn (Some [Some (ex_wide 1 1 7 2 1); Some (ex_wide 2 1 7 2 2)]) None)) /\
  map (fun kv => pipe_segs s' (snd kv)) (pipes s') = [[Some (ex_seg 0 7 2 1); None]].
Proof.
  assert (W : forall id i, 0 <= i <= 2 -> typed (ex_wide id 1 7 2 i)).
  { intros id i Hi. repeat split; try (cbn; lia). constructor; [cbn; repeat constructor; unfold is_byte; lia|constructor]. }
  eexists _, _. split; [|split; [apply W; lia|split; [|split; [reflexivity|split; [vm_compute; reflexivity|vm_compute; reflexivity]]]]].
  - eexists. split; [|reflexivity]. constructor; [apply ex_supported; unfold is_byte; lia|]. constructor; [apply W; lia|constructor].
  - exists {| ie_id := 0; ie_data := [7; 2; 1] |}. split; [|reflexivity]. exists [], []. repeat split. constructor.
Qed.
Example C96_joined_instance : exists m,
  (forall g, In g (held new_collector) -> seg_no m g = None) /\ m_total m = 2 /\
  is_segment m 1 (ex_seg 0 7 2 1) /\ is_segment m 2 (ex_wide 1 0 7 2 2) /\
  by_8_bits (ex_seg 0 7 2 1) /\ typed (ex_seg 0 7 2 1) /\ typed (ex_wide 1 0 7 2 2).
Proof.
  exists {| m_type := SmsDeliver; m_toa := a_toa ex_addr; m_addr := a_addr ex_addr; m_ref := 7; m_total := 2 |}.
  split; [intros g []|]. split; [reflexivity|]. split; [split; [reflexivity|right; repeat split]|].
  split; [split; [reflexivity|right; repeat split]|]. split.
  - exists {| ie_id := 0; ie_data := [7; 2; 1] |}. split; [|reflexivity]. exists [], []. repeat split. constructor.
  - split; (repeat split; try (cbn; lia); constructor; [cbn; repeat constructor; unfold is_byte; lia|constructor]).
Qed.
