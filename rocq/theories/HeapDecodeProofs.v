(** Lemmas about HeapDecode.v. *)
From Verif Require Import GoBase GoLemmas Utf Ucs2 Charset Gsm7 CharsetProofs Dcs UserData Tpdu Sms Heap SpecHeap HeapProofs SegmentProofs HeapSegmentProofs HeapDecode.

Lemma ucs2_loop_left s b : u2_err (ucs2_loop s) = Some (Ucs2DanglingSurrogate b) -> exists p, s = p ++ b.
Proof.
  remember (length s) as n eqn:E. revert s E. induction n as [n IH] using lt_wf_ind.
  intros s -> H. destruct s as [|x [|y s1]]; [discriminate|discriminate|]. cbn [ucs2_loop] in H.
  destruct (is_surrogate (x * 256 + y)).
  - destruct s1 as [|x2 [|y2 s2]].
    + injection H as <-. now exists [].
    + injection H as <-. now exists [].
    + cbn [u2_err] in H. destruct (IH (length s2) ltac:(cbn; lia) s2 eq_refl H) as (p & ->). now exists (x :: y :: x2 :: y2 :: p).
  - cbn [u2_err] in H. destruct (IH (length s1) ltac:(cbn; lia) s1 eq_refl H) as (p & ->). now exists (x :: y :: p).
Qed.

Lemma left_over ud l alpha opts b : dd_err (decode_user_data ud l alpha opts) = Some (Ucs2DanglingSurrogate b) -> exists p, ud = p ++ b.
Proof.
  unfold decode_user_data. destruct (alpha =? AlphaUCS2).
  - cbn [dd_err]. unfold ucs2_decode. destruct (len ud =? 0); [discriminate|]. destruct (Z.land (len ud) 1 =? 1); [discriminate|].
    apply ucs2_loop_left.
  - destruct (alpha =? Alpha8Bit); [discriminate|]. rewrite gsm7_decode_total by reflexivity. discriminate.
Qed.

Lemma left_over_slice (h : heap Z) ud l alpha opts b : ok_slice h ud ->
  dd_err (decode_user_data (view h ud) l alpha opts) = Some (Ucs2DanglingSurrogate b) ->
  (length b <= s_len ud)%nat /\ view h (reslice ud (s_len ud - length b) (s_len ud)) = b.
Proof.
  intros HS H. apply left_over in H as (p & E). pose proof (view_length _ _ HS) as L. rewrite E, app_length in L.
  split; [lia|]. rewrite view_reslice by (auto; lia). rewrite E, skipn_app.
  replace (s_len ud - length b)%nat with (length p) by lia. rewrite skipn_all, Nat.sub_diag. cbn [app skipn].
  apply firstn_all2. lia.
Qed.

Lemma held_UD h s : UD (ds_held h s) = view h (ds_ud s).
Proof. unfold ds_held. destruct s as [t ud]. now destruct t. Qed.
Lemma held_UDH h s : UDH (ds_held h s) = UDH (ds_rest s).
Proof. unfold ds_held. destruct s as [t ud]. now destruct t. Qed.
Lemma held_DCS h s : DCS (ds_held h s) = DCS (ds_rest s).
Proof. unfold ds_held. destruct s as [t ud]. now destruct t. Qed.

(** Nothing that may be written by appending to [d] belongs to [t]. *)
Definition off_limits (d : option gslice) (t : nat -> nat -> Prop) : Prop :=
  match d with Some d => forall a i, spare d a i -> ~ t a i | None => True end.

Lemma joined_spec grow junk h d ud h1 u : (match d with Some d => ok_slice h d | None => True end) -> ok_slice h ud ->
  joined grow junk h d ud = (h1, u) ->
  only (fun a i => match d with Some d => spare d a i | None => False end) h h1 /\ ok_slice h1 u /\
  view h1 u = (match d with Some d => view h d | None => [] end) ++ view h ud /\
  (match d with
   | None => u = ud
   | Some d => forall a i, (a < length h)%nat -> (reaches u a i -> reaches d a i) /\ (spare u a i -> spare d a i)
   end).
Proof.
  intros HD HU H. destruct d as [d|]; cbn [joined] in H.
  - destruct (gappend_spec _ _ _ _ _ _ _ HD H) as (O & OK & V & L & C). split; [|split; [assumption|split; [assumption|]]].
    + eapply only_weaken; [exact O|]. intros a i _ (B1 & B2 & B3). split; [assumption|lia].
    + intros a i Ha. destruct C as [(C1 & C2 & C3 & C4 & _)|(C1 & C2 & _)].
      * unfold reaches, spare. rewrite C2, C3, C4, L. split; intros (X & Y); split; auto; lia.
      * unfold reaches, spare. split; intros (X & Y); exfalso; lia.
  - injection H as <- <-. split; [apply only_refl|]. split; [assumption|]. split; [reflexivity|reflexivity].
Qed.

Lemma reslice_tail_spare s lo : (lo <= s_len s)%nat -> (s_len s <= s_cap s)%nat -> forall a i,
  (spare (reslice s lo (s_len s)) a i <-> spare s a i) /\ (reaches (reslice s lo (s_len s)) a i -> reaches s a i).
Proof. intros H H2 a i. unfold spare, reaches, reslice. cbn [s_arr s_off s_len s_cap]. split; [split|]; intros (X & Y); split; auto; lia. Qed.

Definition value (r : res (list piece)) (h : heap Z) : res bytes := ps <- r ;; Ok (flat_map (read_piece h) ps).

Lemma loop_spec grow junk opts : forall segs h d h' r,
  Forall (ok_slice h) (uds segs) -> ForallOrdPairs unrelated (uds segs) ->
  (match d with
   | Some d => ok_slice h d /\ Forall (fun u => forall a i, ~ (spare d a i /\ reaches u a i) /\ ~ (reaches d a i /\ spare u a i)) (uds segs)
   | None => True end) ->
  h_decode_loop grow junk h segs d opts = (h', r) ->
  value r h' = decode_loop (map (option_map (ds_held h)) segs) (option_map (view h) d) opts /\
  only (fun a i => (match d with Some d => spare d a i | None => False end) \/ Exists (fun u => spare u a i) (uds segs)) h h'.
Proof.
  induction segs as [|[s|] segs IH]; intros h d h' r HO HP HD H.
  - cbn [h_decode_loop] in H. injection H as <- <-. cbn [map decode_loop]. split; [destruct d; reflexivity|apply only_refl].
  - cbn [h_decode_loop] in H. cbn [uds flat_map app] in HO, HP, HD. fold (uds segs) in HO, HP, HD.
    inversion HO as [|? ? HO1 HO2]; subst. inversion HP as [|? ? HP1 HP2]; subst.
    destruct (joined grow junk h d (ds_ud s)) as [h1 u] eqn:EJ.
    assert (HD1 : match d with Some d => ok_slice h d | None => True end) by (destruct d; tauto).
    destruct (joined_spec _ _ _ _ _ _ _ HD1 HO1 EJ) as (O1 & OKu & Vu & Ru). clear EJ.
    assert (HO2' : Forall (ok_slice h1) (uds segs)).
    { eapply Forall_impl; [|exact HO2]. intros v. now apply only_ok with (1 := O1). }
    (* the later user data are where they were *)
    assert (HV : map (option_map (ds_held h1)) segs = map (option_map (ds_held h)) segs).
    { apply map_ext_in. intros [x|] Hx; [|reflexivity]. cbn [option_map]. unfold ds_held. do 2 f_equal.
      assert (Hin : In (ds_ud x) (uds segs)) by (apply in_flat_map; exists (Some x); split; [assumption|now left]).
      rewrite Forall_forall in HO2. pose proof (HO2 _ Hin) as OKx.
      eapply only_view; [exact O1|exact OKx|]. intros a i (C1 & C2). destruct d as [d|]; [|tauto]. intros Sd.
      destruct HD as (_ & HD). inversion HD as [|? ? _ HD2]; subst. rewrite Forall_forall in HD2.
      destruct (HD2 _ Hin (s_arr (ds_ud x)) i) as (N & _). apply N. split; [assumption|]. split; [reflexivity|].
      destruct OKx as (L & _). lia. }
    (* what may be written from here on *)
    assert (HU : Forall (fun v => forall a i, ~ (spare u a i /\ reaches v a i) /\ ~ (reaches u a i /\ spare v a i)) (uds segs)).
    { rewrite Forall_forall. intros v Hv a i. rewrite Forall_forall in HO2. pose proof (HO2 _ Hv) as (_ & OKv).
      assert (B : reaches v a i \/ spare v a i -> (a < length h)%nat).
      { unfold reaches, spare. intros [(X & Y)|(X & Y)]; destruct OKv as [OKv|(OKv & _)]; lia. }
      destruct d as [d|].
      - destruct HD as (_ & HD). inversion HD as [|? ? _ HD2]; subst. rewrite Forall_forall in HD2.
        destruct (HD2 _ Hv a i) as (N1 & N2). split; intros (X & Y).
        + apply N1. split; [|assumption]. apply (Ru a i); auto.
        + apply N2. split; [|assumption]. apply (Ru a i); auto.
      - subst u. rewrite Forall_forall in HP1. apply (HP1 _ Hv a i). }
    set (dec := decode_user_data (view h1 u) (ies (UDH (ds_rest s))) (dcs_alpha (DCS (ds_rest s))) opts) in *.
    set (p := if dcs_alpha (DCS (ds_rest s)) =? Alpha8Bit then Alias u else Text (dd_text dec)) in *.
    assert (EH : decode_loop (map (option_map (ds_held h)) (Some s :: segs)) (option_map (view h) d) opts =
      match dd_err dec with
      | None => rest <- decode_loop (map (option_map (ds_held h)) segs) None opts ;; Ok (dd_text dec ++ rest)
      | Some (Ucs2DanglingSurrogate b) =>
          rest <- decode_loop (map (option_map (ds_held h)) segs) (Some b) opts ;; Ok (dd_text dec ++ rest)
      | Some e => Err e
      end).
    { cbn [map option_map decode_loop]. rewrite held_UD, held_UDH, held_DCS. unfold dec. rewrite Vu.
      destruct d; reflexivity. }
    rewrite EH. clear EH.
    assert (W1 : only (fun a i => (match d with Some d => spare d a i | None => False end) \/ Exists (fun u => spare u a i) (uds (Some s :: segs))) h h1).
    { eapply only_weaken; [exact O1|]. intros a i _ X. now left. }
    (* what is spare in [u] was so before *)
    assert (W2 : forall a i, (a < length h)%nat -> spare u a i ->
      (match d with Some d => spare d a i | None => False end) \/ Exists (fun u => spare u a i) (uds (Some s :: segs))).
    { intros a i Ha X. destruct d as [d|]; [left; now apply (Ru a i)|]. right. subst u. now apply Exists_cons_hd. }
    assert (GO : forall d' b, (match d' with
        | Some x => b = Some (view h1 x) /\ ok_slice h1 x /\
            (forall a i, (spare x a i <-> spare u a i) /\ (reaches x a i -> reaches u a i))
        | None => b = None end) ->
      (let (h2, r2) := h_decode_loop grow junk h1 segs d' opts in (h2, ps <- r2 ;; Ok (p :: ps))) = (h', r) ->
      value r h' = (rest <- decode_loop (map (option_map (ds_held h)) segs) b opts ;; Ok (dd_text dec ++ rest)) /\
      only (fun a i => (match d with Some d => spare d a i | None => False end) \/ Exists (fun u => spare u a i) (uds (Some s :: segs))) h h').
    { intros d' b Hd' E. destruct (h_decode_loop grow junk h1 segs d' opts) as [h2 r2] eqn:EL. injection E as <- <-.
      assert (Hd2 : match d' with
         | Some d => ok_slice h1 d /\ Forall (fun u => forall a i, ~ (spare d a i /\ reaches u a i) /\ ~ (reaches d a i /\ spare u a i)) (uds segs)
         | None => True end).
      { destruct d' as [x|]; [|trivial]. destruct Hd' as (_ & OKx & Sx). split; [assumption|].
        eapply Forall_impl; [|exact HU]. intros v Hv a i. destruct (Hv a i) as (N1 & N2). destruct (Sx a i) as (Y1 & Y2).
        split; intros (Z1 & Z2); [apply N1|apply N2]; split; auto. now apply Y1. }
      destruct (IH _ _ _ _ HO2' HP2 Hd2 EL) as (IV & IO). clear IH. rewrite HV in IV.
      assert (Eb : option_map (view h1) d' = b) by (destruct d' as [x|]; cbn [option_map]; destruct Hd'; subst; auto).
      rewrite Eb in IV. split.
      - rewrite <- IV. unfold value. destruct r2 as [ps| | |]; [|reflexivity..]. cbn [bind flat_map]. do 2 f_equal.
        unfold p. destruct (dcs_alpha (DCS (ds_rest s)) =? Alpha8Bit) eqn:EA; [|reflexivity]. cbn [read_piece].
        replace (dd_text dec) with (view h1 u).
        + eapply only_view; [exact IO|exact OKu|]. intros a i C X. destruct OKu as (Lu & _).
          assert (RU : reaches u a i) by (destruct C as (C1 & C2); split; [assumption|lia]). destruct X as [X|X].
          * destruct d' as [x|]; [|assumption]. destruct Hd' as (_ & _ & Sx). apply Sx in X. destruct X as (X1 & X2), C as (C1 & C2). lia.
          * apply Exists_exists in X as (v & Hv & Sv). rewrite Forall_forall in HU. destruct (HU _ Hv a i) as (_ & N). apply N. auto.
        + unfold dec, decode_user_data. assert (dcs_alpha (DCS (ds_rest s)) = Alpha8Bit) as -> by lia. reflexivity.
      - eapply only_trans; [exact W1|exact IO|]. intros a i Ha [X|X].
        + destruct d' as [x|]; [|tauto]. destruct Hd' as (_ & _ & Sx). apply W2; [assumption|]. now apply Sx.
        + right. now apply Exists_cons_tl. }
    destruct (dd_err dec) as [e|] eqn:EE.
    + destruct e; try (injection H as <- <-; split; [reflexivity|exact W1]).
      eapply GO; [|exact H]. cbv beta iota. destruct (left_over_slice _ _ _ _ _ _ OKu EE) as (L & V). rewrite V.
      split; [reflexivity|]. split; [apply ok_reslice; [assumption|lia]|]. destruct OKu as (Lu & _). apply reslice_tail_spare; lia.
    + eapply GO; [|exact H]. reflexivity.
  - cbn [h_decode_loop] in H. injection H as <- <-. split; [reflexivity|apply only_refl].
Qed.

Lemma decode_spec grow junk h segs opts h' r :
  Forall (ok_slice h) (uds segs) -> ForallOrdPairs unrelated (uds segs) ->
  h_decode grow junk h segs opts = (h', r) ->
  r = decode (map (option_map (ds_held h)) segs) opts /\ only (fun a i => Exists (fun u => spare u a i) (uds segs)) h h'.
Proof.
  intros HO HP H. unfold h_decode in H. cbv zeta in H.
  destruct (h_decode_loop grow junk h segs None _) as [h2 r2] eqn:E. injection H as <- <-.
  destruct (loop_spec _ _ _ _ _ None _ _ HO HP I E) as (V & O). split.
  - exact V.
  - eapply only_weaken; [exact O|]. intros a i _ [X|X]; [destruct X|assumption].
Qed.

(** * User data cut from one message *)
Lemma update_same {A} (h : heap A) a : update h a (array h a) = h.
Proof.
  unfold array. revert a. induction h as [|x h IH]; intros [|a]; cbn [update nth]; [reflexivity|reflexivity|reflexivity|].
  now rewrite IH.
Qed.
Lemma store_same {A} (h : heap A) s : ok_slice h s -> store h (s_arr s) (s_off s) (view h s) = h.
Proof.
  intros HS. pose proof (view_length _ _ HS) as L. unfold store.
  transitivity (update h (s_arr s) (array h (s_arr s))); [|apply update_same]. f_equal.
  unfold splice. rewrite L. unfold view. transitivity (firstn (s_off s) (array h (s_arr s)) ++ skipn (s_off s) (array h (s_arr s))).
  - f_equal. rewrite <- (firstn_skipn (s_len s) (skipn (s_off s) (array h (s_arr s)))) at 2. f_equal. now rewrite skipn_plus.
  - apply firstn_skipn.
Qed.

Lemma loop_chain grow junk opts : forall segs h d h' r,
  Forall (ok_slice h) (match d with Some d => d :: uds segs | None => uds segs end) ->
  consecutive (match d with Some d => d :: uds segs | None => uds segs end) ->
  h_decode_loop grow junk h segs d opts = (h', r) ->
  value r h' = decode_loop (map (option_map (ds_held h)) segs) (option_map (view h) d) opts /\ h' = h.
Proof.
  induction segs as [|[s|] segs IH]; intros h d h' r HO HC H.
  - cbn [h_decode_loop] in H. injection H as <- <-. cbn [map decode_loop]. split; [destruct d; reflexivity|reflexivity].
  - cbn [h_decode_loop] in H. cbn [uds flat_map app] in HO, HC. fold (uds segs) in HO, HC.
    destruct (joined grow junk h d (ds_ud s)) as [h1 u] eqn:EJ.
    assert (J : h1 = h /\ ok_slice h u /\ view h u = (match d with Some d => view h d | None => [] end) ++ view h (ds_ud s) /\
                Forall (ok_slice h) (uds segs) /\ consecutive (u :: uds segs)).
    { destruct d as [d|]; cbn [joined] in EJ.
      - inversion HO as [|? ? OKd HO1]; subst. inversion HO1 as [|? ? OKs HO2]; subst. destruct HC as ((F1 & F2 & F3) & HC).
        destruct (gappend_spec _ _ _ _ _ _ _ OKd EJ) as (_ & OKu & V & L & C). rewrite view_length in L, C by assumption.
        assert (h1 = h).
        { unfold gappend in EJ. cbv zeta in EJ. rewrite view_length in EJ by assumption.
          assert (E : (s_len d + s_len (ds_ud s) <=? s_cap d)%nat = true) by (apply Nat.leb_le; destruct OKs; lia). rewrite E in EJ.
          injection EJ as <- _. rewrite <- F1, <- F2. now apply store_same. }
        subst h1. split; [reflexivity|]. split; [assumption|]. split; [assumption|]. split; [assumption|].
        destruct C as [(C1 & C2 & C3 & C4 & _)|(C1 & _)]; [|destruct OKs; lia].
        destruct (uds segs) as [|t ts]; [exact I|]. destruct HC as ((G1 & G2 & G3) & HC). split; [|assumption].
        unfold follows. rewrite C2, C3, C4, L. repeat split; [congruence|lia|lia].
      - injection EJ as <- <-. inversion HO as [|? ? OKs HO2]; subst. repeat split; auto. all: try apply OKs; apply HC. }
    destruct J as (-> & OKu & Vu & HO2 & HC2). clear EJ HO HC.
    set (dec := decode_user_data (view h u) (ies (UDH (ds_rest s))) (dcs_alpha (DCS (ds_rest s))) opts) in *.
    set (p := if dcs_alpha (DCS (ds_rest s)) =? Alpha8Bit then Alias u else Text (dd_text dec)) in *.
    assert (EH : decode_loop (map (option_map (ds_held h)) (Some s :: segs)) (option_map (view h) d) opts =
      match dd_err dec with
      | None => rest <- decode_loop (map (option_map (ds_held h)) segs) None opts ;; Ok (dd_text dec ++ rest)
      | Some (Ucs2DanglingSurrogate b) =>
          rest <- decode_loop (map (option_map (ds_held h)) segs) (Some b) opts ;; Ok (dd_text dec ++ rest)
      | Some e => Err e
      end).
    { cbn [map option_map decode_loop]. rewrite held_UD, held_UDH, held_DCS. unfold dec. rewrite Vu. destruct d; reflexivity. }
    rewrite EH. clear EH.
    assert (GO : forall d' b, option_map (view h) d' = b ->
      Forall (ok_slice h) (match d' with Some d => d :: uds segs | None => uds segs end) ->
      consecutive (match d' with Some d => d :: uds segs | None => uds segs end) ->
      (let (h2, r2) := h_decode_loop grow junk h segs d' opts in (h2, ps <- r2 ;; Ok (p :: ps))) = (h', r) ->
      value r h' = (rest <- decode_loop (map (option_map (ds_held h)) segs) b opts ;; Ok (dd_text dec ++ rest)) /\ h' = h).
    { intros d' b Eb HO' HC' E. destruct (h_decode_loop grow junk h segs d' opts) as [h2 r2] eqn:EL. injection E as <- <-.
      destruct (IH _ _ _ _ HO' HC' EL) as (IV & ->). split; [|reflexivity]. rewrite Eb in IV. rewrite <- IV. unfold value.
      destruct r2 as [ps| | |]; [|reflexivity..]. cbn [bind flat_map]. do 2 f_equal.
      unfold p. destruct (dcs_alpha (DCS (ds_rest s)) =? Alpha8Bit) eqn:EA; [|reflexivity]. cbn [read_piece].
      unfold dec, decode_user_data. assert (dcs_alpha (DCS (ds_rest s)) = Alpha8Bit) as -> by lia. reflexivity. }
    destruct (dd_err dec) as [e|] eqn:EE.
    + destruct e; try (injection H as <- <-; split; reflexivity).
      eapply GO; [| | |exact H].
      * cbn [option_map]. f_equal. now apply (left_over_slice _ _ _ _ _ _ OKu EE).
      * constructor; [|assumption]. apply ok_reslice; [assumption|]. destruct (left_over_slice _ _ _ _ _ _ OKu EE). lia.
      * destruct (uds segs) as [|t ts]; [exact I|]. destruct HC2 as ((G1 & G2 & G3) & HC2). split; [|assumption].
        destruct (left_over_slice _ _ _ _ _ _ OKu EE) as (LE & _). destruct OKu as (Lu & _).
        unfold follows, reslice. cbn [s_arr s_off s_len s_cap]. repeat split; [assumption|lia|lia].
    + eapply GO; [| | |exact H]; [reflexivity|assumption|]. destruct (uds segs); [exact I|apply HC2].
  - cbn [h_decode_loop] in H. injection H as <- <-. split; reflexivity.
Qed.

Lemma tiled_consecutive (hb : heap Z) msg : ok_slice hb msg -> forall cs a, 0 <= a -> tiled a (Z.of_nat (s_len msg)) cs ->
  consecutive (map (fun c => reslice msg (Z.to_nat (fst c)) (Z.to_nat (snd c))) cs) /\
  Forall (ok_slice hb) (map (fun c => reslice msg (Z.to_nat (fst c)) (Z.to_nat (snd c))) cs).
Proof.
  intros HM. induction cs as [|[lo hi] cs IH]; intros a Ha H; [split; [exact I|constructor]|].
  destruct H as (-> & R & H). destruct (IH hi ltac:(lia) H) as (IC & IO). split.
  - cbn [map fst snd]. destruct cs as [|[lo2 hi2] cs]; [exact I|]. cbn [map fst snd]. split; [|exact IC].
    destruct H as (-> & R2 & _). destruct HM as (L & _). unfold follows, reslice. cbn [s_arr s_off s_len s_cap]. lia.
  - cbn [map fst snd]. constructor; [|assumption]. apply ok_reslice; [assumption|lia].
Qed.
