(** C73: a TPDU that was read has its octets to itself.  [grow] and [junk] (see
    Heap.v) stand for what the language leaves open about append. *)
From Verif Require Import GoBase GoLemmas SafeLemmas Address Dcs UserData Tpdu Sms PduMode SegmentProofs Heap SpecHeap HeapProofs HeapDecode P_HeapDecode HeapRead HeapReadProofs.

(** Unmarshal on memory does what it does on values, and fails as it does there. *)
Theorem C73_result : forall grow junk h src mo h' r,
  ok_slice h src -> h_unmarshal grow junk h src mo = (h', r) ->
  match r with
  | Ok t => unmarshal (view h src) mo = Ok (rt_held h' t)
  | Err e => unmarshal (view h src) mo = Err e
  | Panic => unmarshal (view h src) mo = Panic
  | Diverge => unmarshal (view h src) mo = Diverge
  end.
Proof.
  intros grow junk h src mo h' r OK H. destruct (h_unmarshal_spec _ _ _ _ _ _ _ OK H) as (_ & R).
  destruct r, (unmarshal (view h src) mo); cbn [outcome_is] in R; try contradiction; auto.
  - now destruct R as (-> & _).
  - now rewrite R.
Qed.
Print Assumptions C73_result.

(** No slice of the caller's changes, whether Unmarshal fails or not. *)
Theorem C73_caller_kept : forall grow junk h src mo h' r,
  ok_slice h src -> h_unmarshal grow junk h src mo = (h', r) ->
  forall s, ok_slice h s -> ok_slice h' s /\ view h' s = view h s.
Proof.
  intros grow junk h src mo h' r OK H s HS. destruct (h_unmarshal_spec _ _ _ _ _ _ _ OK H) as (O & _).
  split; [now apply (only_ok nowhere h)|now apply nowhere_view].
Qed.
Print Assumptions C73_caller_kept.

(** The user data and the elements of the header share no memory with any slice
    of the caller's, and none with each other, not even behind their ends. *)
Theorem C73_own_memory : forall grow junk h src mo h' t,
  ok_slice h src -> h_unmarshal grow junk h src mo = (h', Ok t) ->
  Forall (ok_slice h') (rt_slices t) /\ ForallOrdPairs disjoint (rt_slices t) /\
  forall s u, ok_slice h s -> In u (rt_slices t) -> disjoint s u.
Proof.
  intros grow junk h src mo h' t OK H. destruct (h_unmarshal_spec _ _ _ _ _ _ _ OK H) as (O & R).
  destruct (unmarshal (view h src) mo) as [v|ev| |]; cbn [outcome_is] in R; try contradiction. destruct R as (_ & G1 & G2 & G3).
  split; [assumption|]. split; [assumption|]. intros s u (_ & HS) Hu a i ((E1 & R1) & (E2 & R2)).
  rewrite Forall_forall in G2. specialize (G2 u Hu). unfold fresh in G2. lia.
Qed.
Print Assumptions C73_own_memory.

(** So the buffer it was read from can be used again: whatever is written to the
    arrays that were there before, the TPDU stays the same. *)
Theorem C73_buffer_reused : forall grow junk h src mo h' t,
  ok_slice h src -> h_unmarshal grow junk h src mo = (h', Ok t) ->
  forall h'', (forall a, (length h <= a)%nat -> array h'' a = array h' a) -> rt_held h'' t = rt_held h' t.
Proof.
  intros grow junk h src mo h' t OK H h'' HA. destruct (h_unmarshal_spec _ _ _ _ _ _ _ OK H) as (O & R).
  destruct (unmarshal (view h src) mo) as [v|ev| |]; cbn [outcome_is] in R; try contradiction. destruct R as (_ & G1 & G2 & G3).
  assert (V : forall s, In s (rt_slices t) -> view h'' s = view h' s).
  { intros s Hs. rewrite Forall_forall in G1, G2. destruct (G1 s Hs) as (L & _). destruct (G2 s Hs) as [C|C].
    - unfold view. replace (s_len s) with 0%nat by lia. reflexivity.
    - unfold view. rewrite HA by lia. reflexivity. }
  unfold rt_held, rt_slices in *. rewrite (V (rt_ud t)) by (apply in_or_app; right; now left). f_equal.
  destruct (rt_udh t) as [l|]; [|reflexivity]. cbn [option_map]. f_equal. apply map_ext_in. intros x Hx. unfold ie_held. f_equal.
  apply V. apply in_or_app. left. now apply in_map.
Qed.
Print Assumptions C73_buffer_reused.

(** TPDUs read one after the other, each from a slice the caller has. *)
Fixpoint h_read_all (grow : nat -> nat -> nat) (junk : Z) (h : heap Z) (srcs : list gslice) (mo : bool) : heap Z * res (list rtpdu) :=
  match srcs with
  | [] => (h, Ok [])
  | src :: srcs =>
      hbind (h_unmarshal grow junk h src mo) (fun h t =>
      hbind (h_read_all grow junk h srcs mo) (fun h ts => (h, Ok (t :: ts))))
  end.
(** The same TPDU, as Decode gets it. *)
Definition read_dseg (h : heap Z) (t : rtpdu) : dseg :=
  {| ds_rest := set_UDHf (rt_rest t) (option_map (map (ie_held h)) (rt_udh t)); ds_ud := rt_ud t |}.
Lemma read_dseg_same h t : ds_held h (read_dseg h t) = rt_held h t.
Proof. unfold ds_held, read_dseg, rt_held. cbn [ds_rest ds_ud]. destruct t as [rest u d]. cbn [rt_rest rt_udh rt_ud]. now dtpdu rest. Qed.

Lemma read_all_good grow junk mo : forall srcs h h' ts, Forall (ok_slice h) srcs -> h_read_all grow junk h srcs mo = (h', Ok ts) ->
  only nowhere h h' /\ good h h' (flat_map rt_slices ts).
Proof.
  induction srcs as [|src srcs IH]; intros h h' ts OK H; cbn [h_read_all] in H.
  - injection H as <- <-. split; [apply only_refl|apply good_nil].
  - inversion OK as [|? ? OK1 OK2]; subst. destruct (h_unmarshal grow junk h src mo) as [h1 r1] eqn:E1.
    destruct (h_unmarshal_spec _ _ _ _ _ _ _ OK1 E1) as (O1 & R1). unfold hbind in H. cbn [fst snd] in H.
    destruct r1 as [t|e| |]; cbn [htry] in H; try discriminate.
    destruct (h_read_all grow junk h1 srcs mo) as [h2 r2] eqn:E2. cbn [fst snd] in H.
    destruct r2 as [l|e| |]; cbn [htry] in H; try discriminate. injection H as <- <-.
    destruct (unmarshal (view h src) mo) as [v|ev| |]; cbn [outcome_is] in R1; try contradiction. destruct R1 as (_ & G1).
    assert (OK' : Forall (ok_slice h1) srcs) by (eapply Forall_impl; [|exact OK2]; intros s; now apply (only_ok nowhere)).
    destruct (IH _ _ _ OK' E2) as (O2 & G2). split; [eapply nowhere_trans; eassumption|].
    cbn [flat_map]. eapply good_app; try eassumption. apply O1.
Qed.

Lemma FOP_app_inv {A} (R : A -> A -> Prop) l m : ForallOrdPairs R (l ++ m) ->
  ForallOrdPairs R m /\ forall x y, In x l -> In y m -> R x y.
Proof.
  induction l as [|a l IH]; cbn [app]; intros H; [split; [assumption|intros ? ? []]|].
  inversion H as [|? ? F H']; subst. destruct (IH H') as (A1 & A2). split; [assumption|]. intros x y [<-|Hx] Hy; [|auto].
  rewrite Forall_forall in F. apply F. apply in_or_app. now right.
Qed.
Lemma in_rt_ud t : In (rt_ud t) (rt_slices t).
Proof. unfold rt_slices. apply in_or_app. right. now left. Qed.
Lemma disjoint_unrelated s t : (s_len s <= s_cap s)%nat -> (s_len t <= s_cap t)%nat -> disjoint s t -> unrelated s t.
Proof.
  intros L1 L2 D a i. split; intros ((E1 & R1) & (E2 & R2)); apply (D a i); split; split; auto; lia.
Qed.
Lemma uds_unrelated ts : Forall (fun s => (s_len s <= s_cap s)%nat) (flat_map rt_slices ts) -> ForallOrdPairs disjoint (flat_map rt_slices ts) ->
  ForallOrdPairs unrelated (map rt_ud ts).
Proof.
  induction ts as [|t ts IH]; cbn [flat_map map]; intros L H; [constructor|].
  apply Forall_app in L as (L1 & L2). destruct (FOP_app_inv _ _ _ H) as (H1 & H2). constructor; [|auto].
  apply Forall_forall. intros s Hs. apply in_map_iff in Hs as (t' & <- & Ht').
  assert (Hin : In (rt_ud t') (flat_map rt_slices ts)) by (apply in_flat_map; exists t'; split; [assumption|apply in_rt_ud]).
  rewrite Forall_forall in L1, L2. apply disjoint_unrelated; [apply L1, in_rt_ud|now apply L2|].
  apply H2; [apply in_rt_ud|assumption].
Qed.

(** The TPDUs of a message that were read can be decoded, however their user
    data lay in the buffers (cf. [C72_refuted]): the text is that of the TPDUs,
    which are not changed, and nor is any slice of the caller's. *)
Theorem C73_then_decode : forall grow junk h srcs mo h1 ts opts h2 r,
  Forall (ok_slice h) srcs -> h_read_all grow junk h srcs mo = (h1, Ok ts) ->
  h_decode grow junk h1 (map (fun t => Some (read_dseg h1 t)) ts) opts = (h2, r) ->
  r = decode (map (fun t => Some (rt_held h1 t)) ts) opts /\
  map (rt_held h2) ts = map (rt_held h1) ts /\
  forall s, ok_slice h s -> view h2 s = view h s.
Proof.
  intros grow junk h srcs mo h1 ts opts h2 r OK HR HD.
  destruct (read_all_good _ _ _ _ _ _ _ OK HR) as (O & G1 & G2 & G3).
  assert (EU : uds (map (fun t => Some (read_dseg h1 t)) ts) = map rt_ud ts).
  { clear. unfold uds. induction ts as [|x ts IH]; [reflexivity|]. cbn [map flat_map app ds_ud read_dseg]. now rewrite IH. }
  assert (INU : forall u, In u (map rt_ud ts) -> In u (flat_map rt_slices ts)).
  { intros u Hu. apply in_map_iff in Hu as (t & <- & Ht). apply in_flat_map. exists t. split; [assumption|apply in_rt_ud]. }
  assert (L : Forall (fun s => (s_len s <= s_cap s)%nat) (flat_map rt_slices ts)).
  { eapply Forall_impl; [|exact G1]. intros s (X & _). exact X. }
  assert (OKU : Forall (ok_slice h1) (map rt_ud ts)).
  { apply Forall_forall. intros u Hu. rewrite Forall_forall in G1. auto. }
  pose proof (uds_unrelated ts L G3) as UN. rewrite <- EU in OKU, UN.
  destruct (C72_reads_partial _ _ _ _ _ _ _ OKU UN HD) as (-> & K). rewrite EU in K. split; [|split].
  - f_equal. rewrite map_map. apply map_ext. intros t. cbn [option_map]. now rewrite read_dseg_same.
  - assert (V : forall s, In s (flat_map rt_slices ts) -> view h2 s = view h1 s).
    { intros s Hs. apply K; [rewrite Forall_forall in G1; auto|]. intros u a i Hu (C1 & C2) (S1 & S2).
      rewrite Forall_forall in L. pose proof (L s Hs). pose proof (L u (INU u Hu)).
      destruct (ForallOrdPairs_In G3 _ _ Hs (INU u Hu)) as [->|[D|D]]; [lia| |]; apply (D a i); split; split; auto; lia. }
    apply map_ext_in. intros t Ht. assert (VT : forall s, In s (rt_slices t) -> view h2 s = view h1 s).
    { intros s Hs. apply V. apply in_flat_map. eauto. }
    unfold rt_held. rewrite (VT (rt_ud t) (in_rt_ud t)). f_equal. unfold rt_slices in VT.
    destruct (rt_udh t) as [l|]; [|reflexivity]. cbn [option_map]. f_equal. apply map_ext_in. intros x Hx. unfold ie_held. f_equal.
    apply VT. apply in_or_app. left. now apply in_map.
  - intros s Hs. rewrite <- (nowhere_view _ _ _ O Hs). apply K; [now apply (only_ok nowhere h)|].
    intros u a i Hu (C1 & C2) (S1 & S2). rewrite Forall_forall in G2. specialize (G2 u (INU u Hu)). destruct Hs as (X & Y).
    unfold fresh in G2. lia.
Qed.
Print Assumptions C73_then_decode.

(** A PDU of the modem is different: its TPDU is the end of the buffer itself... *)
Theorem C73_pdu_is_buffer : forall h src p,
  ok_slice h src -> h_pdu_unmarshal h src = Ok p ->
  pdu_unmarshal (view h src) = Ok (rp_held h p) /\
  exists n, (n <= s_len src)%nat /\ rp_tpdu p = reslice src n (s_len src) /\ ok_slice h (rp_tpdu p).
Proof.
  intros h src p OK H. unfold h_pdu_unmarshal, pdu_unmarshal, pdu_unmarshal_into in *.
  destruct (smsc_unmarshal (p_smsc zero_pdu) (view h src)) as [[a n]|e| |]; cbn [bind] in *; try discriminate.
  destruct (slice_from (view h src) n) as [s|e| |] eqn:ES; cbn [bind] in *; try discriminate. apply ok_inj in H as <-.
  assert (L : 0 <= n <= len (view h src)).
  { unfold slice_from, slice in ES. destruct (_ && _ && _) eqn:E in ES; [lia|discriminate]. }
  destruct (ok_tail h src n OK L) as (OKT & ET). rewrite ET in ES. apply ok_inj in ES as <-.
  split; [reflexivity|]. exists (Z.to_nat n). pose proof (view_length _ _ OK). unfold len in L. split; [lia|]. split; [reflexivity|assumption].
Qed.
Print Assumptions C73_pdu_is_buffer.

(** ... so it changes with it: *)
Definition modem : heap Z := [[2; 145; 33;  4; 0; 4; 0; 0]].
Definition whole_buffer : gslice := {| s_arr := 0; s_off := 0; s_len := 8; s_cap := 8 |}.
Theorem C73_pdu_refuted : ~ forall h src p h',
  ok_slice h src -> h_pdu_unmarshal h src = Ok p -> assigned h src h' -> rp_held h' p = rp_held h p.
Proof.
  intros H.
  specialize (H modem whole_buffer {| rp_smsc := {| a_toa := 145; a_addr := [49; 50] |}; rp_tpdu := reslice whole_buffer 3 8 |}
                (store modem 0 3 [7])).
  assert (E : h_pdu_unmarshal modem whole_buffer = Ok {| rp_smsc := {| a_toa := 145; a_addr := [49; 50] |}; rp_tpdu := reslice whole_buffer 3 8 |})
    by (vm_compute; reflexivity).
  specialize (H ltac:(split; cbn; lia) E). assert (X : assigned modem whole_buffer (store modem 0 3 [7])).
  { exists 3%nat, 7. split; [cbn; lia|reflexivity]. }
  specialize (H X). vm_compute in H. discriminate.
Qed.
Print Assumptions C73_pdu_refuted.

(** Reading the TPDU from it at once, as the tools do, makes it safe. *)
Theorem C73_pdu_then_tpdu : forall grow junk h src p mo h' t,
  ok_slice h src -> h_pdu_unmarshal h src = Ok p -> h_unmarshal grow junk h (rp_tpdu p) mo = (h', Ok t) ->
  unmarshal (p_tpdu (rp_held h p)) mo = Ok (rt_held h' t) /\
  forall h'', (forall a, (length h <= a)%nat -> array h'' a = array h' a) -> rt_held h'' t = rt_held h' t.
Proof.
  intros grow junk h src p mo h' t OK HP HT. destruct (C73_pdu_is_buffer _ _ _ OK HP) as (_ & n & _ & _ & OKP).
  split; [exact (C73_result _ _ _ _ _ _ _ OKP HT)|]. eapply C73_buffer_reused; eassumption.
Qed.
Print Assumptions C73_pdu_then_tpdu.

(** An instance: a DELIVER with a concatenation element and 8-bit user data,
    behind other octets in a buffer; afterwards the buffer is overwritten. *)
Definition deliver_octets : bytes :=
  [64; 4; 145; 33; 67;  0; 4;  81; 80; 113; 18; 32; 5; 35;  8;  5; 0; 3; 9; 2; 1;  104; 105].
Definition buffer : heap Z := [[1; 2] ++ deliver_octets ++ [3]].
Definition in_buffer : gslice := {| s_arr := 0; s_off := 2; s_len := 23; s_cap := 24 |}.
Definition slack8 (_ n : nat) : nat := 8 - n.
Example C73_instance :
  ok_slice buffer in_buffer /\
  let '(h', r) := h_unmarshal slack8 0 buffer in_buffer false in
  h' = buffer ++ [[9; 2; 1; 0; 0; 0; 0; 0]; [104; 105; 0; 0; 0; 0; 0; 0]] /\
  match r with
  | Ok t => rt_slices t = [{| s_arr := 1; s_off := 0; s_len := 3; s_cap := 8 |}; {| s_arr := 2; s_off := 0; s_len := 2; s_cap := 8 |}] /\
            UD (rt_held h' t) = [104; 105] /\ UDH (rt_held h' t) = Some [{| ie_id := 0; ie_data := [9; 2; 1] |}] /\
            UD (rt_held (store h' 0 0 (repeat 255 26)) t) = [104; 105]
  | _ => False
  end.
Proof. split; [split; cbn; lia|]. vm_compute. repeat split. Qed.
