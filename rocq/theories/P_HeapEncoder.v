(** C60: calls of Encode on one Encoder do not interfere.  The Encoder was made by
    NewEncoder with options [opts0]; [h] and [s] are the memory of its character
    set options and its slice of them.  The calls [specs] (message and options
    each) then make their steps in the order [sched]: a step applies one option,
    and the last one encodes the message.  [alone] is what the call passes to
    Segment when it runs by itself (SpecConc.v). *)
From Verif Require Import GoBase GoLemmas UserData Tpdu Segment Sms Heap HeapProofs HeapEncoder SpecConc HeapEncoderProofs.

(** Proved if the slice has no spare room, or if at most one of the calls has
    character set options.  Missing: the other case, which is refuted below. *)
Theorem C60_concurrent_partial : forall grow junk opts0 h s specs sched h' cs,
  h_append_opts grow junk [] nil_slice opts0 = (h, s) ->
  (s_len s = s_cap s \/
   forall i j m1 o1 m2 o2, i <> j -> nth_error specs i = Some (m1, o1) -> nth_error specs j = Some (m2, o2) ->
     charsets o1 <> [] -> charsets o2 = []) ->
  let e := sms_new_encoder opts0 in
  run_calls grow junk h (map (fun x => start_call e s (fst x) (snd x)) specs) sched = (h', cs) ->
  (* the Encoder keeps its options *)
  view h' s = e_eopts e /\
  forall k m o, nth_error specs k = Some (m, o) ->
    (* a call that finishes has the result it has alone *)
    (forall c r, nth_error cs k = Some c -> c_done c = Some r -> r = alone e m o) /\
    (* and it does finish, given one turn for each option and one more *)
    ((length o < count_occ Nat.eq_dec sched k)%nat ->
     exists c, nth_error cs k = Some c /\ c_done c = Some (alone e m o)).
Proof.
  intros grow junk opts0 h s specs sched h' cs HN HX e H.
  destruct (append_opts_spec grow junk opts0 [] nil_slice h s) as (HS & HV); [split; [cbn; lia|now left]|assumption|].
  assert (HE : view h s = e_eopts e) by (rewrite HV; unfold e, sms_new_encoder; now rewrite fold_eopts).
  destruct (concurrent grow junk h s e specs sched h' cs HS HE HX H) as (V & R). split; [assumption|].
  intros k m o Hk. split; [intros c r Hc Hr; now apply (R k c m o r)|]. intros HC.
  destruct (finished grow junk h s e specs sched h' cs k m o H Hk HC) as (c & r & A & B).
  exists c. split; [assumption|]. now rewrite B, (R k c m o r A Hk B).
Qed.
Print Assumptions C60_concurrent_partial.

(** One call after the other: always right. *)
Theorem C60_sequential : forall grow junk opts0 h s specs h' cs,
  h_append_opts grow junk [] nil_slice opts0 = (h, s) ->
  let e := sms_new_encoder opts0 in
  run_calls grow junk h (map (fun x => start_call e s (fst x) (snd x)) specs) (in_turn 0 specs) = (h', cs) ->
  view h' s = e_eopts e /\
  forall k m o, nth_error specs k = Some (m, o) ->
    exists c, nth_error cs k = Some c /\ c_done c = Some (alone e m o).
Proof.
  intros grow junk opts0 h s specs h' cs HN e H.
  destruct (append_opts_spec grow junk opts0 [] nil_slice h s) as (HS & HV); [split; [cbn; lia|now left]|assumption|].
  assert (HE : view h s = e_eopts e) by (rewrite HV; unfold e, sms_new_encoder; now rewrite fold_eopts).
  eapply sequential in H; [|exact HS|exact HE|].
  - destruct H as (V & _ & _ & R). split; assumption.
  - intros i m o Hi. cbn [Nat.add]. now rewrite nth_error_map, Hi.
Qed.
Print Assumptions C60_sequential.

(** What [alone] has to do with the result of Encode. *)
Theorem C60_alone : forall e msg opts,
  encoder_encode e msg opts =
  bind (alone e msg opts) (fun '(t, d) =>
  bind (segment t d (encoder_seg_cfg (fold_left apply_encoder_opt opts e))) (fun pdus => Ok (pdus, advance e pdus))).
Proof. reflexivity. Qed.
Print Assumptions C60_alone.

(** An Encoder with three character set options, in an array that doubles when it
    is full, and two calls, each with one more such option.  The first appends
    Turkish, the second appends Portuguese to the same place, and then the first
    encodes: a word with a cedilla that only Turkish has, in UCS-2 instead of in
    Turkish GSM 7-bit. *)
Definition doubling (old needed : nat) : nat := (2 * old - needed)%nat.
Definition three : list encoder_opt := [AsSubmit; EoCharset (OptCharset [2]); EoCharset (OptCharset [2]); EoCharset (OptCharset [2])].
Definition scedilla : bytes := [197; 159].
Definition two_calls : list (bytes * list encoder_opt) :=
  [(scedilla, [EoCharset (OptCharset [1])]); (scedilla, [EoCharset (OptCharset [3])])].

Theorem C60_concurrent_refuted : ~ forall grow junk opts0 h s specs sched h' cs,
  h_append_opts grow junk [] nil_slice opts0 = (h, s) ->
  let e := sms_new_encoder opts0 in
  run_calls grow junk h (map (fun x => start_call e s (fst x) (snd x)) specs) sched = (h', cs) ->
  forall k m o c r, nth_error specs k = Some (m, o) -> nth_error cs k = Some c -> c_done c = Some r -> r = alone e m o.
Proof.
  intros H.
  destruct (h_append_opts doubling OptAllCharsets [] nil_slice three) as [h s] eqn:E1.
  specialize (H doubling OptAllCharsets three h s two_calls [0; 1; 0; 1]%nat).
  destruct (run_calls doubling OptAllCharsets h (map (fun x => start_call (sms_new_encoder three) s (fst x) (snd x)) two_calls) [0; 1; 0; 1]%nat)
    as [h' cs] eqn:E2.
  specialize (H h' cs E1 E2 0%nat scedilla [EoCharset (OptCharset [1])]).
  vm_compute in E1. injection E1 as <- <-. vm_compute in E2. injection E2 as <- <-.
  specialize (H _ _ eq_refl eq_refl eq_refl). vm_compute in H. discriminate H.
Qed.
Print Assumptions C60_concurrent_refuted.

(** An Encoder with two character set options fills its array: the hypothesis
    holds, and the interleaving that goes wrong above goes right. *)
Definition two : list encoder_opt := [AsSubmit; EoCharset (OptCharset [2]); EoCharset (OptCharset [2])].
Definition seen (opts0 : list encoder_opt) : list (option (Z * udh * bytes)) :=
  let (h, s) := h_append_opts doubling OptAllCharsets [] nil_slice opts0 in
  map (fun c => match c_done c with Some (Ok (t, d)) => Some (DCS t, UDH t, d) | _ => None end)
    (snd (run_calls doubling OptAllCharsets h (map (fun x => start_call (sms_new_encoder opts0) s (fst x) (snd x)) two_calls) [0; 1; 0; 1]%nat)).
Example C60_instance :
  (let s := snd (h_append_opts doubling OptAllCharsets [] nil_slice two) in s_len s = s_cap s) /\
  seen two = [Some (0, Some [{| ie_id := 25; ie_data := [1] |}], [29]); Some (8, None, [1; 95])].
Proof. split; vm_compute; reflexivity. Qed.
(** With three, both calls saw Portuguese. *)
Example C60_instance_three :
  (let s := snd (h_append_opts doubling OptAllCharsets [] nil_slice three) in s_len s <> s_cap s) /\
  seen three = [Some (8, None, [1; 95]); Some (8, None, [1; 95])].
Proof. split; vm_compute; [discriminate|reflexivity]. Qed.
