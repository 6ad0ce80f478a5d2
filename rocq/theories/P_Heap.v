(** C58 and C59: what Segment does to the caller's memory, and what the TPDUs it
    returns share.  In both, [grow] and [junk] (see Heap.v) stand for what the
    language leaves open about append. *)
From Verif Require Import GoBase GoLemmas Dcs UserData Tpdu Segment Heap SpecHeap HeapProofs HeapSegment HeapSegmentProofs.

(** * C58: Segment leaves the caller's memory alone *)

(** Whatever slice of header elements the caller holds keeps its elements, with
    one exception: one that includes the element just behind the template's
    header, in the same array.  The message, and all other octets, are not
    written at all ([h_segment] returns no new memory for octets). *)
Theorem C58_memory_partial : forall grow junk hi hb t msg cfg hi' ts,
  match ht_udh t with Some u => ok_slice hi u | None => True end -> ok_slice hb msg ->
  h_segment grow junk hi hb t msg cfg = Ok (hi', ts) ->
  forall s, ok_slice hi s ->
  (forall u a i, ht_udh t = Some u -> just_behind u a i -> ~ covers s a i) ->
  ok_slice hi' s /\ view hi' s = view hi s.
Proof.
  intros grow junk hi hb t msg cfg hi' ts HU HM E s HS HN.
  pose proof (h_segment_spec grow junk hi hb t msg cfg HU HM) as S. rewrite E in S. destruct S as (_ & HO & _).
  split; [eapply only_ok; eassumption|]. eapply only_view; [eassumption|eassumption|].
  intros a i C (u & Eu & J). now apply (HN u a i).
Qed.
Print Assumptions C58_memory_partial.

(** In particular the template still is what it was. *)
Theorem C58_template : forall grow junk hi hb t msg cfg hi' ts,
  match ht_udh t with Some u => ok_slice hi u | None => True end -> ok_slice hb msg ->
  h_segment grow junk hi hb t msg cfg = Ok (hi', ts) -> held hi' hb t = held hi hb t.
Proof.
  intros grow junk hi hb t msg cfg hi' ts HU HM E. unfold held. destruct (ht_udh t) as [u|] eqn:EU; [|reflexivity].
  cbn [held_udh option_map]. destruct (C58_memory_partial grow junk hi hb t msg cfg hi' ts) with (s := u) as (_ & ->).
  - now rewrite EU.
  - assumption.
  - assumption.
  - assumption.
  - intros u' a i X (B & J) (C & D). rewrite EU in X. injection X as <-. lia.
  - reflexivity.
Qed.
Print Assumptions C58_template.

(** The exception is real: a header of one element that is the first part of an
    array of two.  The second element, which the caller may hold as part of a
    longer header, becomes the placeholder of a concatenation element. *)
Definition ie_a : ie := {| ie_id := 9; ie_data := [1] |}.
Definition ie_b : ie := {| ie_id := 10; ie_data := [2] |}.
Definition two_array : heap ie := [[ie_a; ie_b]].
Definition first_only : gslice := {| s_arr := 0; s_off := 0; s_len := 1; s_cap := 2 |}.
Definition both : gslice := {| s_arr := 0; s_off := 0; s_len := 2; s_cap := 2 |}.
Definition long_text : heap Z := [repeat 97 200].
Definition long_msg : gslice := {| s_arr := 0; s_off := 0; s_len := 200; s_cap := 200 |}.
Definition no_grow (_ _ : nat) : nat := 0.
Definition template : htpdu :=
  {| ht_rest := set_FO zero_tpdu 65; ht_udh := Some first_only; ht_ud := nil_slice |}.

Theorem C58_memory_refuted : ~ forall grow junk hi hb t msg cfg hi' ts,
  match ht_udh t with Some u => ok_slice hi u | None => True end -> ok_slice hb msg ->
  h_segment grow junk hi hb t msg cfg = Ok (hi', ts) ->
  forall s, ok_slice hi s -> view hi' s = view hi s.
Proof.
  intros H.
  destruct (h_segment no_grow ie_a two_array long_text template long_msg seg_cfg_default) as [[h' ts]| | |] eqn:E;
    [|vm_compute in E; discriminate E..].
  assert (O1 : ok_slice two_array first_only) by (vm_compute; lia).
  assert (O2 : ok_slice long_text long_msg) by (vm_compute; lia).
  assert (O3 : ok_slice two_array both) by (vm_compute; lia).
  pose proof (H no_grow ie_a two_array long_text template long_msg seg_cfg_default h' ts O1 O2 E both O3) as X.
  vm_compute in E. injection E as <- _. vm_compute in X. discriminate X.
Qed.
Print Assumptions C58_memory_refuted.

(** A template with spare room behind its header, and a message of two parts: the
    hypotheses hold for the header itself, and for an unrelated slice. *)
Example C58_instance : exists hi' ts,
  h_segment no_grow ie_a (two_array ++ [[ie_b; ie_a]]) long_text template long_msg seg_cfg_default = Ok (hi', ts) /\
  length ts = 2%nat /\ ok_slice (two_array ++ [[ie_b; ie_a]]) first_only /\ ok_slice long_text long_msg /\
  let other := {| s_arr := 1; s_off := 0; s_len := 2; s_cap := 2 |} in
  ok_slice (two_array ++ [[ie_b; ie_a]]) other /\
  (forall u a i, ht_udh template = Some u -> just_behind u a i -> ~ covers other a i) /\
  view hi' other = [ie_b; ie_a] /\ view hi' first_only = [ie_a].
Proof.
  destruct (h_segment no_grow ie_a (two_array ++ [[ie_b; ie_a]]) long_text template long_msg seg_cfg_default) as [[h' ts]| | |] eqn:E;
    vm_compute in E; try discriminate E. injection E as <- <-. eexists _, _. split; [reflexivity|].
  split; [reflexivity|]. split; [vm_compute; lia|]. split; [vm_compute; lia|]. cbv zeta. split; [vm_compute; lia|].
  split; [|split; reflexivity]. intros u a i X (B & J) (C & D). injection X as <-. cbn in *. lia.
Qed.

(** * C59: the TPDUs of one message are independent of each other *)

(** What they hold is what Segment computes (Segment.v, the subject of C13 to
    C18), whatever the sharing: here the other properties meet the memory. *)
Theorem C59_values : forall grow junk hi hb t msg cfg,
  match ht_udh t with Some u => ok_slice hi u | None => True end -> ok_slice hb msg ->
  segment (held hi hb t) (view hb msg) cfg =
  match h_segment grow junk hi hb t msg cfg with
  | Ok (hi', ts) => Ok (map (held hi' hb) ts)
  | Err e => Err e
  | Panic => Panic
  | Diverge => Diverge
  end.
Proof.
  intros grow junk hi hb t msg cfg HU HM. pose proof (h_segment_spec grow junk hi hb t msg cfg HU HM) as S.
  destruct (h_segment grow junk hi hb t msg cfg) as [[hi' ts]| | |]; try assumption. apply S.
Qed.
Print Assumptions C59_values.

(** Assigning to elements of the header of one TPDU, or appending to it, changes
    neither the header of another nor any header that was there before. *)
Theorem C59_headers : forall grow junk hi hb t msg cfg hi' ts,
  match ht_udh t with Some u => ok_slice hi u | None => True end -> ok_slice hb msg ->
  h_segment grow junk hi hb t msg cfg = Ok (hi', ts) ->
  forall i j ti tj ui uj grow' junk' hx, i <> j ->
  nth_error ts i = Some ti -> nth_error ts j = Some tj -> ht_udh ti = Some ui -> ht_udh tj = Some uj ->
  used grow' junk' hi' ui hx ->
  view hx uj = view hi' uj /\ forall s, ok_slice hi s -> view hx s = view hi' s.
Proof. exact segment_headers. Qed.
Print Assumptions C59_headers.

(** Assigning to octets of the user data of one leaves that of the others. *)
Theorem C59_messages_partial : forall grow junk hi hb t msg cfg hi' ts,
  match ht_udh t with Some u => ok_slice hi u | None => True end -> ok_slice hb msg ->
  h_segment grow junk hi hb t msg cfg = Ok (hi', ts) ->
  forall i j ti tj hx, i <> j -> nth_error ts i = Some ti -> nth_error ts j = Some tj ->
  assigned hb (ht_ud ti) hx -> view hx (ht_ud tj) = view hb (ht_ud tj).
Proof. exact segment_uds. Qed.
Print Assumptions C59_messages_partial.

(** Appending to it does not: the next block of the message is the spare room. *)
Theorem C59_messages_refuted : ~ forall grow junk hi hb t msg cfg hi' ts,
  match ht_udh t with Some u => ok_slice hi u | None => True end -> ok_slice hb msg ->
  h_segment grow junk hi hb t msg cfg = Ok (hi', ts) ->
  forall i j ti tj grow' junk' hx, i <> j -> nth_error ts i = Some ti -> nth_error ts j = Some tj ->
  used grow' junk' hb (ht_ud ti) hx -> view hx (ht_ud tj) = view hb (ht_ud tj).
Proof.
  intros H.
  destruct (h_segment no_grow ie_a two_array long_text template long_msg seg_cfg_default) as [[h' ts]| | |] eqn:E;
    [|vm_compute in E; discriminate E..].
  assert (O1 : ok_slice two_array first_only) by (vm_compute; lia).
  assert (O2 : ok_slice long_text long_msg) by (vm_compute; lia).
  pose proof (H no_grow ie_a two_array long_text template long_msg seg_cfg_default h' ts O1 O2 E 0%nat 1%nat) as X. clear H.
  vm_compute in E. injection E as <- <-.
  specialize (X _ _ no_grow 0 _ ltac:(lia) eq_refl eq_refl (or_intror (ex_intro _ [98] (ex_intro _ _ eq_refl)))).
  vm_compute in X. discriminate X.
Qed.
Print Assumptions C59_messages_refuted.

(** Two parts, each with its own header of two elements. *)
Example C59_instance : exists hi' t1 t2 u1 u2,
  h_segment no_grow ie_a two_array long_text template long_msg seg_cfg_default = Ok (hi', [t1; t2]) /\
  ok_slice two_array first_only /\ ok_slice long_text long_msg /\
  ht_udh t1 = Some u1 /\ ht_udh t2 = Some u2 /\
  view hi' u1 = [ie_a; new_ie8 1 2 1] /\ view hi' u2 = [ie_a; new_ie8 1 2 2] /\
  used no_grow ie_a hi' u1 (store hi' (s_arr u1) (s_off u1 + 1) [ie_b]) /\
  view (store hi' (s_arr u1) (s_off u1 + 1) [ie_b]) u1 = [ie_a; ie_b] /\
  assigned long_text (ht_ud t1) (store long_text 0 0 [98]) /\
  view (store long_text 0 0 [98]) (ht_ud t1) <> view long_text (ht_ud t1).
Proof.
  destruct (h_segment no_grow ie_a two_array long_text template long_msg seg_cfg_default) as [[h' ts]| | |] eqn:E;
    vm_compute in E; try discriminate E. injection E as <- <-. eexists _, _, _, _, _. split; [reflexivity|].
  split; [vm_compute; lia|]. split; [vm_compute; lia|]. split; [reflexivity|]. split; [reflexivity|].
  split; [reflexivity|]. split; [reflexivity|]. split; [left; exists 1%nat, ie_b; split; [cbn; lia|reflexivity]|].
  split; [reflexivity|]. split; [exists 0%nat, 98; split; [cbn; lia|reflexivity]|]. vm_compute. discriminate.
Qed.
