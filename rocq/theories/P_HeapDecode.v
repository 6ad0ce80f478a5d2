(** C72: Decode reads the TPDUs it is given and writes none of the caller's
    memory.  [grow] and [junk] (see Heap.v) stand for what the language leaves
    open about append. *)
From Verif Require Import GoBase GoLemmas Dcs UserData Tpdu Sms Heap SpecHeap HeapProofs HeapSegment HeapSegmentProofs HeapDecode HeapDecodeProofs.

(** The slices of user data of TPDUs. *)
Example uds_are s t : uds [Some s; None; Some t] = [ds_ud s; ds_ud t].
Proof. reflexivity. Qed.

(** When nothing behind the user data of one TPDU belongs to another (because
    each has an array of its own, or because there is no capacity behind it), the
    text is that of the TPDUs as they were when Decode was called, and all
    slices keep their elements except for those behind the user data.

    Missing for the full claim: the condition.  See [C72_refuted]. *)
Theorem C72_reads_partial : forall grow junk h segs opts h' r,
  Forall (ok_slice h) (uds segs) -> ForallOrdPairs unrelated (uds segs) ->
  h_decode grow junk h segs opts = (h', r) ->
  r = decode (map (option_map (ds_held h)) segs) opts /\
  forall s, ok_slice h s ->
    (forall u a i, In u (uds segs) -> covers s a i -> ~ spare u a i) ->
    ok_slice h' s /\ view h' s = view h s.
Proof.
  intros grow junk h segs opts h' r HO HP H. destruct (decode_spec _ _ _ _ _ _ _ HO HP H) as (V & O). split; [exact V|].
  intros s HS HN. split; [eapply only_ok; eassumption|]. eapply only_view; [exact O|exact HS|].
  intros a i C X. apply Exists_exists in X as (u & Hu & Su). exact (HN u a i Hu C Su).
Qed.
Print Assumptions C72_reads_partial.

(** In particular the TPDUs still hold what they held. *)
Theorem C72_tpdus_kept : forall grow junk h segs opts h' r,
  Forall (ok_slice h) (uds segs) -> ForallOrdPairs unrelated (uds segs) ->
  h_decode grow junk h segs opts = (h', r) ->
  map (option_map (ds_held h')) segs = map (option_map (ds_held h)) segs.
Proof.
  intros grow junk h segs opts h' r HO HP H. destruct (C72_reads_partial _ _ _ _ _ _ _ HO HP H) as (_ & K).
  apply map_ext_in. intros [x|] Hx; [|reflexivity]. cbn [option_map]. unfold ds_held. do 2 f_equal.
  assert (Hin : In (ds_ud x) (uds segs)) by (apply in_flat_map; exists (Some x); split; [assumption|now left]).
  assert (OKx : ok_slice h (ds_ud x)) by (rewrite Forall_forall in HO; auto).
  apply K; [assumption|]. intros u a i Hu (C1 & C2) (S1 & S2).
  assert (R : u = ds_ud x \/ unrelated u (ds_ud x) \/ unrelated (ds_ud x) u).
  { destruct (ForallOrdPairs_In HP _ _ Hu Hin) as [E|[E|E]]; auto. }
  destruct OKx as (L & _). destruct R as [->|[R|R]]; [lia| |]; destruct (R a i) as (N1 & N2).
  - apply N1. split; split; auto; lia.
  - apply N2. split; split; auto; lia.
Qed.
Print Assumptions C72_tpdus_kept.

(** TPDUs whose user data are consecutive pieces of one message, as those made by
    Segment and Encode are, do not meet the condition above.  Decode of these in
    order writes only what is there already. *)
Theorem C72_pieces_of_message : forall grow junk h segs opts h' r,
  Forall (ok_slice h) (uds segs) -> consecutive (uds segs) ->
  h_decode grow junk h segs opts = (h', r) ->
  r = decode (map (option_map (ds_held h)) segs) opts /\ h' = h.
Proof.
  intros grow junk h segs opts h' r HO HC H. unfold h_decode in H. cbv zeta in H.
  destruct (h_decode_loop grow junk h segs None _) as [h2 r2] eqn:E. injection H as <- <-.
  exact (loop_chain _ _ _ _ _ None _ _ HO HC E).
Qed.
Print Assumptions C72_pieces_of_message.

(** So what Segment made can be passed to Decode without being sent: [to_dseg]
    is the same TPDU. *)
Definition to_dseg (hi : heap ie) (t : htpdu) : dseg :=
  {| ds_rest := set_UDHf (ht_rest t) (held_udh hi (ht_udh t)); ds_ud := ht_ud t |}.
Example to_dseg_same hi hb t : ds_held hb (to_dseg hi t) = held hi hb t.
Proof. reflexivity. Qed.

Theorem C72_segmented : forall grow junk hi hb t msg cfg hi' ts grow' junk' opts hb' r,
  match ht_udh t with Some u => ok_slice hi u | None => True end -> ok_slice hb msg ->
  h_segment grow junk hi hb t msg cfg = Ok (hi', ts) ->
  h_decode grow' junk' hb (map (fun t => Some (to_dseg hi' t)) ts) opts = (hb', r) ->
  r = decode (map (fun t => Some (held hi' hb t)) ts) opts /\ hb' = hb.
Proof.
  intros grow junk hi hb t msg cfg hi' ts grow' junk' opts hb' r HU HM E H.
  pose proof (h_segment_spec grow junk hi hb t msg cfg HU HM) as S. rewrite E in S. destruct S as (_ & _ & S).
  assert (EU : uds (map (fun t => Some (to_dseg hi' t)) ts) = map ht_ud ts).
  { clear. unfold uds. induction ts as [|x ts IH]; [reflexivity|]. cbn [map flat_map app ds_ud to_dseg]. now rewrite IH. }
  assert (C : Forall (ok_slice hb) (map ht_ud ts) /\ consecutive (map ht_ud ts)).
  { destruct S as [(t' & -> & _ & EM & _)|(cs & T & -> & _ & _)].
    - cbn [map]. rewrite EM. split; [now constructor|exact I].
    - destruct (tiled_consecutive hb msg HM cs 0 ltac:(lia) T). now split. }
  rewrite <- EU in C. destruct C as (C1 & C2).
  destruct (C72_pieces_of_message _ _ _ _ _ _ _ C1 C2 H) as (-> & ->). split; [|reflexivity].
  f_equal. rewrite map_map. reflexivity.
Qed.
Print Assumptions C72_segmented.

(** The user data of three TPDUs in one array, but not in their order:
    "a" and the first half of U+1F600; the second half and "b"; "cd".  The second
    is the first in memory. *)
Definition ucs2_seg (off len cap : nat) : option dseg :=
  Some {| ds_rest := set_DCSf zero_tpdu 8; ds_ud := {| s_arr := 0; s_off := off; s_len := len; s_cap := cap |} |}.
Definition one_array : heap Z := [[222; 0; 0; 98;  0; 97; 216; 61;  0; 99; 0; 100]].
Definition shared : list (option dseg) := [ucs2_seg 4 4 8; ucs2_seg 0 4 12; ucs2_seg 8 4 4].
Definition no_slack (_ _ : nat) : nat := 0.

(** Decode loses "cd": in its place is the second half of the pair once more,
    shown as U+FFFD, and the third TPDU has lost it too. *)
Example C72_witness :
  decode (map (option_map (ds_held one_array)) shared) [] = Ok [97; 240; 159; 152; 128; 98; 99; 100] /\
  h_decode no_slack 0 one_array shared [] =
    ([[222; 0; 0; 98;  0; 97; 216; 61;  222; 0; 0; 98]], Ok [97; 240; 159; 152; 128; 98; 239; 191; 189]).
Proof. split; vm_compute; reflexivity. Qed.

Theorem C72_refuted : ~ forall grow junk h segs opts h' r,
  Forall (ok_slice h) (uds segs) -> h_decode grow junk h segs opts = (h', r) ->
  r = decode (map (option_map (ds_held h)) segs) opts /\
  map (option_map (ds_held h')) segs = map (option_map (ds_held h)) segs.
Proof.
  intros H. destruct C72_witness as (E1 & E2).
  destruct (H no_slack 0 one_array shared [] _ _ ltac:(repeat constructor; cbn; lia) E2) as (E & _).
  rewrite E1 in E. discriminate.
Qed.
Print Assumptions C72_refuted.

(** The conditions can be met: the same three TPDUs with an array each, and room
    behind the user data of the first; and the three cut from one message. *)
Definition ucs2_in (arr cap : nat) : option dseg :=
  Some {| ds_rest := set_DCSf zero_tpdu 8; ds_ud := {| s_arr := arr; s_off := 0; s_len := 4; s_cap := cap |} |}.
Definition three_arrays : heap Z := [[0; 97; 216; 61; 9; 9; 9; 9]; [222; 0; 0; 98]; [0; 99; 0; 100]].
Definition apart : list (option dseg) := [ucs2_in 0 8; ucs2_in 1 4; ucs2_in 2 4].
Example C72_instance :
  Forall (ok_slice three_arrays) (uds apart) /\ ForallOrdPairs unrelated (uds apart) /\
  h_decode no_slack 0 three_arrays apart [] =
    ([[0; 97; 216; 61; 222; 0; 0; 98]; [222; 0; 0; 98]; [0; 99; 0; 100]], Ok [97; 240; 159; 152; 128; 98; 99; 100]).
Proof.
  split; [repeat constructor; cbn; lia|]. split; [|vm_compute; reflexivity].
  assert (U : forall s t, s_arr s <> s_arr t -> unrelated s t).
  { intros s t N a i. split; intros ((A & _) & (B & _)); congruence. }
  repeat constructor; apply U; cbn; discriminate.
Qed.
Definition whole : heap Z := [[0; 97; 216; 61; 222; 0; 0; 98; 0; 99; 0; 100]].
Definition in_order : list (option dseg) := [ucs2_seg 0 4 12; ucs2_seg 4 4 8; ucs2_seg 8 4 4].
Example C72_instance_pieces :
  Forall (ok_slice whole) (uds in_order) /\ consecutive (uds in_order) /\
  h_decode no_slack 0 whole in_order [] = (whole, Ok [97; 240; 159; 152; 128; 98; 99; 100]).
Proof.
  split; [repeat constructor; cbn; lia|]. split; [|vm_compute; reflexivity].
  cbn [uds in_order ucs2_seg flat_map app ds_ud consecutive]. unfold follows. cbn [s_arr s_off s_len s_cap]. lia.
Qed.
