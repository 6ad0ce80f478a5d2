(** C92: octets that were written are their receiver's own; C93: so is a text
    that was decoded, unless it is 8-bit data.  [grow] and [junk] (see Heap.v)
    stand for what the language leaves open about append. *)
From Verif Require Import GoBase GoLemmas SafeLemmas Address Dcs GoTime UserData Tpdu Sms PduMode Heap SpecHeap HeapProofs HeapRead HeapReadProofs
  HeapWrite HeapWriteProofs P_HeapRead.

(** Every array that was there before is there, with the same elements: within
    the slices of the caller, in front of them and behind them. *)
Definition memory_kept (h h' : heap Z) : Prop := exists new, h' = h ++ new.

Lemma nowhere_kept h h' : only nowhere h h' -> memory_kept h h'.
Proof.
  intros (L & H). exists (skipn (length h) h'). apply list_ext. intros a. destruct (a <? length h)%nat eqn:E.
  - rewrite nth_error_app1 by lia. destruct (H a ltac:(lia)) as (_ & X).
    rewrite (nth_error_nth' h' []), (nth_error_nth' h []) by lia. f_equal. change (array h' a = array h a).
    apply list_ext. intros i. apply X. intros [].
  - rewrite nth_error_app2 by lia. rewrite nth_error_skipn. f_equal. lia.
Qed.

(** MarshalBinary on memory does what it does on values, and fails as it does
    there.  The slices of the TPDU may share memory in any way. *)
Theorem C92_result : forall grow junk h t h' r,
  Forall (ok_slice h) (rt_slices t) -> h_marshal grow junk h t = (h', r) ->
  match r with
  | Ok s => tpdu_marshal (rt_held h t) = Ok (view h' s)
  | Err e => tpdu_marshal (rt_held h t) = Err e
  | Panic => tpdu_marshal (rt_held h t) = Panic
  | Diverge => tpdu_marshal (rt_held h t) = Diverge
  end.
Proof.
  intros grow junk h t h' r OK H. destruct (marshal_spec grow junk h t OK) as (_ & R). rewrite H in R. cbn [fst snd] in R.
  destruct r, (tpdu_marshal (rt_held h t)); cbn [outcome_is] in R; try contradiction; auto.
  - now destruct R as (_ & _ & ->).
  - now rewrite R.
Qed.
Print Assumptions C92_result.

(** It changes nothing, whether it fails or not: not the TPDU, nor anything else
    the caller has. *)
Theorem C92_only_reads : forall grow junk h t h' r,
  Forall (ok_slice h) (rt_slices t) -> h_marshal grow junk h t = (h', r) ->
  memory_kept h h' /\ rt_held h' t = rt_held h t.
Proof.
  intros grow junk h t h' r OK H. destruct (marshal_spec grow junk h t OK) as (O & _). rewrite H in O. cbn [fst] in O.
  split; [now apply nowhere_kept|]. unfold rt_held. destruct (rt_ok_parts _ _ OK) as (K1 & K2). rewrite (nowhere_view _ _ _ O K2). f_equal.
  destruct (rt_udh t) as [l|]; [|reflexivity]. cbn [option_map]. f_equal. now apply held_later.
Qed.
Print Assumptions C92_only_reads.

(** The octets share no memory with the TPDU or any other slice of the caller's,
    not even behind their end. *)
Theorem C92_own_memory : forall grow junk h t h' s,
  Forall (ok_slice h) (rt_slices t) -> h_marshal grow junk h t = (h', Ok s) ->
  ok_slice h' s /\ forall u, ok_slice h u -> disjoint u s.
Proof.
  intros grow junk h t h' s OK H. destruct (marshal_spec grow junk h t OK) as (O & R). rewrite H in R. cbn [fst snd] in R.
  destruct (tpdu_marshal (rt_held h t)) as [bv|ev| |]; cbn [outcome_is] in R; try contradiction. destruct R as (K & F & _). split; [assumption|].
  intros u (L & HU) a i ((E1 & R1) & (E2 & R2)). unfold fresh in F. lia.
Qed.
Print Assumptions C92_own_memory.

(** So what the caller does with the octets, assigning to them or appending to
    them, does not change the TPDU, and what it does with the TPDU does not change
    the octets. *)
Theorem C92_independent : forall grow junk h t h' s,
  Forall (ok_slice h) (rt_slices t) -> h_marshal grow junk h t = (h', Ok s) ->
  (forall h'', used grow junk h' s h'' -> rt_held h'' t = rt_held h t) /\
  (forall u h'', In u (rt_slices t) -> used grow junk h' u h'' -> view h'' s = view h' s).
Proof.
  intros grow junk h t h' s OK H. destruct (C92_own_memory _ _ _ _ _ _ OK H) as (K & D). destruct (C92_only_reads _ _ _ _ _ _ OK H) as (MK & HELD).
  destruct (marshal_spec grow junk h t OK) as (O & _). rewrite H in O. cbn [fst] in O.
  assert (USED : forall u h'', ok_slice h' u -> used grow junk h' u h'' -> only (reaches u) h' h'').
  { intros u h'' KU [(i & x & Hi & ->)|(xs & s' & HA)].
    - destruct KU as (LU & [C|(B & C)]); [lia|]. eapply only_weaken; [apply store_only; [assumption|cbn [length]; lia]|].
      intros a j _ (-> & R). cbn [length] in R. split; [reflexivity|lia].
    - destruct (gappend_spec _ _ _ _ _ _ _ KU HA) as (O2 & _). eapply only_weaken; [exact O2|]. intros a j _ (E & R & C). split; [assumption|lia]. }
  assert (VIEW : forall u v h'', ok_slice h' u -> ok_slice h' v -> disjoint u v -> used grow junk h' u h'' -> view h'' v = view h' v).
  { intros u v h'' KU KV DJ U. apply (only_view (reaches u)); [apply USED; assumption|assumption|]. intros a i (E & R) RU. apply (DJ a i). split; [assumption|].
    destruct KV as (LV & _). split; [assumption|lia]. }
  assert (SYM : forall u v, disjoint u v -> disjoint v u) by (intros u v X a i (A & B); apply (X a i); auto).
  split.
  - intros h'' U. rewrite <- HELD. assert (V : forall u, In u (rt_slices t) -> view h'' u = view h' u).
    { intros u Hu. rewrite Forall_forall in OK. apply (VIEW s u h''); auto. apply (only_ok nowhere h); auto. }
    unfold rt_held, rt_slices in *. rewrite (V (rt_ud t)) by (apply in_or_app; right; now left). f_equal.
    destruct (rt_udh t) as [l|]; [|reflexivity]. cbn [option_map]. f_equal. apply map_ext_in. intros x Hx. unfold ie_held. f_equal.
    apply V. apply in_or_app. left. now apply in_map.
  - intros u h'' Hu U. rewrite Forall_forall in OK. apply (VIEW u s h''); auto. apply (only_ok nowhere h); auto.
Qed.
Print Assumptions C92_independent.

(** The octets written once more are the same, and in other memory. *)
Theorem C92_again : forall grow junk h t h1 s1 h2 r,
  Forall (ok_slice h) (rt_slices t) -> h_marshal grow junk h t = (h1, Ok s1) -> h_marshal grow junk h1 t = (h2, r) ->
  exists s2, r = Ok s2 /\ view h2 s2 = view h1 s1 /\ view h2 s1 = view h1 s1 /\ disjoint s1 s2.
Proof.
  intros grow junk h t h1 s1 h2 r OK H1 H2. pose proof (C92_result _ _ _ _ _ _ OK H1) as R1. cbn beta iota in R1.
  destruct (C92_own_memory _ _ _ _ _ _ OK H1) as (K1 & _). destruct (C92_only_reads _ _ _ _ _ _ OK H1) as (_ & HELD).
  destruct (marshal_spec grow junk h t OK) as (O & _). rewrite H1 in O. cbn [fst] in O.
  assert (OK1 : Forall (ok_slice h1) (rt_slices t)) by (eapply Forall_impl; [|exact OK]; intros u; now apply (only_ok nowhere)).
  pose proof (C92_result _ _ _ _ _ _ OK1 H2) as R2. rewrite HELD, R1 in R2. destruct r as [s2|e| |]; try discriminate. apply ok_inj in R2.
  exists s2. split; [reflexivity|]. split; [congruence|]. destruct (marshal_spec grow junk h1 t OK1) as (O2 & _). rewrite H2 in O2. cbn [fst] in O2.
  split; [now apply nowhere_view|]. now apply (proj2 (C92_own_memory _ _ _ _ _ _ OK1 H2)).
Qed.
Print Assumptions C92_again.

(** TPDUs written one after the other, as in the loop over the TPDUs of a message
    (README.md:45-48). *)
Fixpoint h_write_all (grow : nat -> nat -> nat) (junk : Z) (h : heap Z) (ts : list rtpdu) : heap Z * res (list gslice) :=
  match ts with
  | [] => (h, Ok [])
  | t :: ts =>
      hbind (h_marshal grow junk h t) (fun h s =>
      hbind (h_write_all grow junk h ts) (fun h ss => (h, Ok (s :: ss))))
  end.

(** Each is written as if it were alone, though they may share memory with each
    other and with the message, as those of Segment do (C59), and the octets of
    each are in memory of their own. *)
Theorem C92_one_by_one : forall grow junk ts h h' ss,
  Forall (fun t => Forall (ok_slice h) (rt_slices t)) ts -> h_write_all grow junk h ts = (h', Ok ss) ->
  memory_kept h h' /\
  Forall2 (fun t s => tpdu_marshal (rt_held h t) = Ok (view h' s)) ts ss /\
  Forall (ok_slice h') ss /\ ForallOrdPairs disjoint ss /\
  forall u s, ok_slice h u -> In s ss -> disjoint u s.
Proof.
  intros grow junk ts h h' ss OK H.
  assert (X : only nowhere h h' /\ Forall2 (fun t s => tpdu_marshal (rt_held h t) = Ok (view h' s)) ts ss /\ good h h' ss).
  { revert h h' ss OK H. induction ts as [|t ts IH]; intros h h' ss OK H; cbn [h_write_all] in H.
    - injection H as <- <-. split; [apply only_refl|]. split; [constructor|apply good_nil].
    - inversion OK as [|? ? OK1 OK2]; subst. destruct (h_marshal grow junk h t) as [h1 r1] eqn:E1. unfold hbind in H. cbn [fst snd] in H.
      destruct r1 as [s|e| |]; cbn [htry] in H; try discriminate.
      destruct (h_write_all grow junk h1 ts) as [h2 r2] eqn:E2. cbn [fst snd] in H. destruct r2 as [l|e| |]; cbn [htry] in H; try discriminate.
      injection H as <- <-. destruct (marshal_spec grow junk h t OK1) as (O1 & R1). rewrite E1 in O1, R1. cbn [fst snd] in O1, R1.
      destruct (tpdu_marshal (rt_held h t)) as [b|ev| |] eqn:EB; cbn [outcome_is] in R1; try contradiction. destruct R1 as (K1 & F1 & V1).
      assert (OK' : Forall (fun t => Forall (ok_slice h1) (rt_slices t)) ts).
      { eapply Forall_impl; [|exact OK2]. intros x Hx. eapply Forall_impl; [|exact Hx]. intros u. now apply (only_ok nowhere). }
      destruct (IH _ _ _ OK' E2) as (O2 & R2 & G2). split; [eapply nowhere_trans; eassumption|]. split.
      + constructor; [rewrite EB, <- V1; f_equal; symmetry; now apply nowhere_view|].
        assert (HELD : forall x, In x ts -> rt_held h1 x = rt_held h x).
        { intros x Hx. rewrite Forall_forall in OK2. specialize (OK2 x Hx). destruct (rt_ok_parts _ _ OK2) as (A & B). unfold rt_held.
          rewrite (nowhere_view _ _ _ O1 B). f_equal. destruct (rt_udh x) as [l0|]; [|reflexivity]. cbn [option_map]. f_equal. now apply held_later. }
        clear - R2 HELD. induction R2 as [|x y ts l Hx R2 IH]; [constructor|]. constructor; [rewrite <- HELD by (now left); exact Hx|].
        apply IH. intros z Hz. apply HELD. now right.
      + change (s :: l) with ([s] ++ l). eapply good_app; [|exact O2|exact G2|apply O1].
        split; [constructor; [assumption|constructor]|]. split; [constructor; [assumption|constructor]|repeat constructor]. }
  destruct X as (O & R & K & F & D). split; [now apply nowhere_kept|]. split; [assumption|]. split; [assumption|]. split; [assumption|].
  intros u s (L & HU) Hs a i ((A1 & R1) & (A2 & R2)). rewrite Forall_forall in F. specialize (F s Hs). unfold fresh in F. lia.
Qed.
Print Assumptions C92_one_by_one.

(** The same of a PDU of the modem. *)
Theorem C92_pdu : forall grow junk h p h' r,
  ok_slice h (rp_tpdu p) -> h_pdu_marshal grow junk h p = (h', r) ->
  memory_kept h h' /\ rp_held h' p = rp_held h p /\
  match r with
  | Ok s => pdu_marshal (rp_held h p) = Ok (view h' s) /\ ok_slice h' s /\ forall u, ok_slice h u -> disjoint u s
  | Err e => pdu_marshal (rp_held h p) = Err e
  | Panic => pdu_marshal (rp_held h p) = Panic
  | Diverge => pdu_marshal (rp_held h p) = Diverge
  end.
Proof.
  intros grow junk h p h' r OK H. destruct (pdu_marshal_spec grow junk h p OK) as (O & R). rewrite H in O, R. cbn [fst snd] in O, R.
  split; [now apply nowhere_kept|]. split; [unfold rp_held; f_equal; now apply nowhere_view|].
  destruct r as [s|e| |], (pdu_marshal (rp_held h p)) as [bv|ev| |]; cbn [outcome_is] in R; try contradiction; auto; [|congruence].
  destruct R as (K & F & ->). split; [reflexivity|]. split; [assumption|].
  intros u (L & HU) a i ((E1 & R1) & (E2 & R2)). unfold fresh in F. lia.
Qed.
Print Assumptions C92_pdu.

(** So a message can be written into a PDU for the modem, and neither the message
    nor what is sent to the modem changes with the other. *)
Theorem C92_to_modem : forall grow junk h t h1 s smsc h2 d,
  Forall (ok_slice h) (rt_slices t) -> h_marshal grow junk h t = (h1, Ok s) ->
  h_pdu_marshal grow junk h1 {| rp_smsc := smsc; rp_tpdu := s |} = (h2, Ok d) ->
  exists b, tpdu_marshal (rt_held h t) = Ok b /\ pdu_marshal {| p_smsc := smsc; p_tpdu := b |} = Ok (view h2 d) /\
    memory_kept h h2 /\ disjoint s d /\ forall u, ok_slice h u -> disjoint u d.
Proof.
  intros grow junk h t h1 s smsc h2 d OK H1 H2. exists (view h1 s). split; [exact (C92_result _ _ _ _ _ _ OK H1)|].
  destruct (C92_own_memory _ _ _ _ _ _ OK H1) as (K & _). destruct (C92_pdu grow junk h1 {| rp_smsc := smsc; rp_tpdu := s |} h2 (Ok d) K H2) as ((n2 & E2) & _ & R & _ & D).
  split; [exact R|]. destruct (C92_only_reads _ _ _ _ _ _ OK H1) as ((n1 & E1) & _). split; [exists (n1 ++ n2); subst; now rewrite app_assoc|].
  split; [now apply D|]. intros u Hu. apply D. destruct (marshal_spec grow junk h t OK) as (O & _). rewrite H1 in O. now apply (only_ok nowhere h).
Qed.
Print Assumptions C92_to_modem.

(** An instance: a SUBMIT whose user data and header element are next to each other in one array. *)
Definition shared_array : heap Z := [[9; 2; 1; 104; 105; 7]].
Definition shared_submit : rtpdu :=
  {| rt_rest := set_DCSf (set_FO (set_Direction zero_tpdu MO) 65) 4;
     rt_udh := Some [{| ri_id := 0; ri_data := {| s_arr := 0; s_off := 0; s_len := 3; s_cap := 6 |} |}];
     rt_ud := {| s_arr := 0; s_off := 3; s_len := 2; s_cap := 3 |} |}.
Example C92_instance :
  Forall (ok_slice shared_array) (rt_slices shared_submit) /\
  let '(h', r) := h_marshal slack8 0 shared_array shared_submit in
  firstn 1 h' = shared_array /\
  match r with
  | Ok s => view h' s = [65; 0; 0; 0; 0; 4; 8; 5; 0; 3; 9; 2; 1; 104; 105] /\ s_arr s = 3%nat /\ s_cap s = 15%nat
  | _ => False
  end.
Proof. split; [repeat (apply Forall_cons || apply Forall_nil); split; cbn; lia|]. vm_compute. repeat split. Qed.

(** Two TPDUs with adjacent user data, the first with room to grow over the second's. *)
Example C92_one_by_one_instance :
  let other := {| rt_rest := rt_rest shared_submit; rt_udh := None; rt_ud := {| s_arr := 0; s_off := 5; s_len := 1; s_cap := 1 |} |} in
  Forall (fun t => Forall (ok_slice shared_array) (rt_slices t)) [shared_submit; other] /\
  let '(h', r) := h_write_all slack8 0 shared_array [shared_submit; other] in
  match r with
  | Ok [s1; s2] => view h' s1 = [65; 0; 0; 0; 0; 4; 8; 5; 0; 3; 9; 2; 1; 104; 105] /\ view h' s2 = [65; 0; 0; 0; 0; 4; 1; 7]
  | _ => False
  end.
Proof. split; [repeat (apply Forall_cons || apply Forall_nil); split; cbn; lia|]. vm_compute. split; reflexivity. Qed.

(** Decoding a text changes nothing. *)
Theorem C93_only_reads : forall grow junk h ud l alpha opts h' s e,
  ok_slice h ud -> h_decode_user_data grow junk h ud l alpha opts = (h', s, e) ->
  memory_kept h h' /\ ok_slice h' s /\ view h' s = dd_text (decode_user_data (view h ud) l alpha opts) /\
  e = dd_err (decode_user_data (view h ud) l alpha opts).
Proof.
  intros grow junk h ud l alpha opts h' s e K H. unfold h_decode_user_data in H. destruct (alpha =? Alpha8Bit) eqn:E.
  - injection H as <- <- <-. split; [exists []; now rewrite app_nil_r|]. split; [assumption|]. split; [|reflexivity].
    unfold decode_user_data. assert (alpha = Alpha8Bit) as -> by lia. reflexivity.
  - destruct (gappend grow junk h nil_slice _) as [h1 s1] eqn:EA. injection H as <- <- <-.
    destruct (append_nil _ _ _ _ _ _ EA) as (O & V & G & _). split; [now apply nowhere_kept|]. inversion G; subst. auto.
Qed.
Print Assumptions C93_only_reads.

(** If the data is not 8-bit, the text shares no memory with anything the caller has. *)
Theorem C93_own_memory_partial : forall grow junk h ud l alpha opts h' s e,
  ok_slice h ud -> alpha <> Alpha8Bit -> h_decode_user_data grow junk h ud l alpha opts = (h', s, e) ->
  forall u, ok_slice h u -> disjoint u s.
Proof.
  intros grow junk h ud l alpha opts h' s e K NA H u (L & HU) a i ((E1 & R1) & (E2 & R2)). unfold h_decode_user_data in H.
  assert (alpha =? Alpha8Bit = false) as EA by lia. rewrite EA in H.
  destruct (gappend grow junk h nil_slice _) as [h1 s1] eqn:E. injection H as <- <- <-.
  destruct (append_nil _ _ _ _ _ _ E) as (_ & _ & _ & F & _). inversion F as [|? ? F1 _]; subst. unfold fresh in F1. lia.
Qed.
Print Assumptions C93_own_memory_partial.

(** 8-bit data is not copied: changing the text changes the message it is from. *)
Theorem C93_refuted : ~ forall grow junk h t h' s e h'',
  Forall (ok_slice h) (rt_slices t) ->
  h_decode_user_data grow junk h (rt_ud t) [] (dcs_alpha (DCS (rt_rest t))) [] = (h', s, e) ->
  used grow junk h' s h'' -> rt_held h'' t = rt_held h t.
Proof.
  intros H. specialize (H slack8 0 shared_array shared_submit shared_array (rt_ud shared_submit) None (store shared_array 0 3 [72])).
  assert (X : rt_held (store shared_array 0 3 [72]) shared_submit = rt_held shared_array shared_submit).
  { apply H; [repeat (apply Forall_cons || apply Forall_nil); split; cbn; lia|reflexivity|]. left. exists 0%nat, 72. split; [cbn; lia|reflexivity]. }
  vm_compute in X. discriminate.
Qed.
Print Assumptions C93_refuted.

(** "Hé" in UCS-2 and "hi" in 7-bit, read from the middle of one array. *)
Definition texts_array : heap Z := [[9; 0; 72; 0; 233; 104; 105; 7]].
Example C93_instance :
  let u := {| s_arr := 0; s_off := 1; s_len := 4; s_cap := 7 |} in
  let v := {| s_arr := 0; s_off := 5; s_len := 2; s_cap := 3 |} in
  ok_slice texts_array u /\ ok_slice texts_array v /\
  (let '(h', s, e) := h_decode_user_data slack8 0 texts_array u [] AlphaUCS2 [] in
   e = None /\ view h' s = [72; 195; 169] /\ s_arr s = 1%nat /\ firstn 1 h' = texts_array) /\
  (let '(h', s, e) := h_decode_user_data slack8 0 texts_array v [] Alpha7Bit [] in
   e = None /\ view h' s = [104; 105] /\ s_arr s = 1%nat /\ firstn 1 h' = texts_array).
Proof. cbn zeta. split; [split; cbn; lia|]. split; [split; cbn; lia|]. split; vm_compute; repeat split. Qed.
