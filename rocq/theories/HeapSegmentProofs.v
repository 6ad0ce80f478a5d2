(** Lemmas about Segment on shared memory (C58, C59). *)
From Verif Require Import GoBase GoLemmas SafeLemmas Gsm7 Dcs FirstOctet UserData Tpdu Segment SegmentProofs
  Heap SpecHeap HeapProofs HeapSegment.

(** * The cuts are the blocks *)
Definition cut (msg : list Z) (c : Z * Z) : list Z :=
  firstn (Z.to_nat (snd c - fst c)) (skipn (Z.to_nat (fst c)) msg).

Definition at_most (last : Z -> res Z) : Prop := forall b b', last b = Ok b' -> b' <= b.
Lemma last7_at_most msg : at_most (last7 msg).
Proof.
  intros b b' H. unfold last7 in H. apply bind_ok in H as (x & _ & H). apply bind_ok in H as (c & _ & H).
  apply ok_inj in H. destruct c; lia.
Qed.
Lemma last8_at_most : at_most last8.
Proof. intros b b' H. apply ok_inj in H. lia. Qed.
Lemma lastU_at_most msg : at_most (lastU msg).
Proof.
  intros b b' H. unfold lastU in H. apply bind_ok in H as (? & _ & H). apply bind_ok in H as (? & _ & H).
  apply bind_ok in H as (? & _ & H). cbv zeta in H. apply ok_inj in H. destruct (_ && _); lia.
Qed.

Fixpoint tiled (a n : Z) (cs : list (Z * Z)) : Prop :=
  match cs with
  | [] => a = n
  | (lo, hi) :: cs' => lo = a /\ a <= hi <= n /\ tiled hi n cs'
  end.
Lemma cuts_loop_tiled last n bs : at_most last -> forall fuel a b cs, 0 <= a -> cuts_loop last fuel n bs a b = Ok cs -> tiled a n cs.
Proof.
  intros HL. induction fuel as [|fuel IH]; intros a b cs Ha H; cbn [cuts_loop] in H; [discriminate|].
  destruct (b <? n) eqn:E.
  - apply bind_ok in H as (b' & Eb & H). apply HL in Eb. destruct ((0 <=? a) && (a <=? b')) eqn:E2; [|discriminate].
    apply bind_ok in H as (r & Er & H). apply ok_inj in H. subst cs. cbn [tiled]. split; [reflexivity|]. split; [lia|].
    apply (IH _ (b' + bs)); [lia|assumption].
  - destruct ((0 <=? a) && (a <=? n)) eqn:E2; [|discriminate]. apply ok_inj in H. subst cs. cbn [tiled]. lia.
Qed.

Lemma tiled_bounds n : forall cs a, 0 <= a -> tiled a n cs -> Forall (fun c => a <= fst c /\ fst c <= snd c <= n) cs.
Proof.
  induction cs as [|[lo hi] cs IH]; intros a Ha H; [constructor|]. destruct H as (-> & R & H). constructor; [cbn; lia|].
  apply IH in H; [|lia]. eapply Forall_impl; [|exact H]. cbn. intros; lia.
Qed.

Lemma bind_assoc {A B C} (m : res A) (f : A -> res B) (g : B -> res C) : bind (bind m f) g = bind m (fun x => bind (f x) g).
Proof. now destruct m. Qed.
Lemma bind_ext {A B} (m : res A) (f g : A -> res B) : (forall x, m = Ok x -> f x = g x) -> bind m f = bind m g.
Proof. intros H. destruct m; cbn; auto. Qed.

Lemma slice_cut msg a b : slice msg a b = if (0 <=? a) && (a <=? b) && (b <=? len msg) then Ok (cut msg (a, b)) else Panic.
Proof. reflexivity. Qed.

Definition blocks (msg : list Z) (r : res (list (Z * Z))) : res (list (list Z)) := bind r (fun cs => Ok (map (cut msg) cs)).

Lemma last_blocks msg a : (c <- slice_from msg a ;; Ok [c]) =
  blocks msg (if (0 <=? a) && (a <=? len msg) then Ok [(a, len msg)] else Panic).
Proof.
  unfold slice_from. rewrite slice_cut, Z.leb_refl, andb_true_r. now destruct ((0 <=? a) && (a <=? len msg)).
Qed.
Lemma some_block msg last a b r r' : at_most last -> b < len msg -> (forall b', last b = Ok b' -> r b' = blocks msg (r' b')) ->
  (b' <- last b ;; c <- slice msg a b' ;; rest <- r b' ;; Ok (c :: rest)) =
  blocks msg (b' <- last b ;; if (0 <=? a) && (a <=? b') then rest <- r' b' ;; Ok ((a, b') :: rest) else Panic).
Proof.
  intros HL Hb HR. unfold blocks at 1. rewrite bind_assoc. apply bind_ext. intros b' Eb. rewrite (HR _ Eb). apply HL in Eb.
  rewrite slice_cut. replace (b' <=? len msg) with true by lia. rewrite andb_true_r.
  destruct ((0 <=? a) && (a <=? b')); [|reflexivity]. cbn [bind]. unfold blocks. now destruct (r' b').
Qed.

Lemma chunk7_cuts msg bs fuel : forall a b, chunk7_loop fuel msg bs a b = blocks msg (cuts_loop (last7 msg) fuel (len msg) bs a b).
Proof.
  induction fuel as [|fuel IH]; intros a b; cbn [chunk7_loop cuts_loop]; [reflexivity|].
  destruct (b <? len msg) eqn:E; [|apply last_blocks].
  rewrite <- (some_block msg (last7 msg) a b (fun b' => chunk7_loop fuel msg bs b' (b' + bs))); [|apply last7_at_most|lia|auto].
  unfold last7. rewrite bind_assoc. apply bind_ext. intros x _. rewrite bind_assoc. reflexivity.
Qed.
Lemma chunk8_cuts msg bs fuel : forall a b, chunk8_loop fuel msg bs a b = blocks msg (cuts_loop last8 fuel (len msg) bs a b).
Proof.
  induction fuel as [|fuel IH]; intros a b; cbn [chunk8_loop cuts_loop]; [reflexivity|].
  destruct (b <? len msg) eqn:E; [|apply last_blocks].
  rewrite <- (some_block msg last8 a b (fun b' => chunk8_loop fuel msg bs b' (b' + bs))); [|apply last8_at_most|lia|auto].
  reflexivity.
Qed.
Lemma chunkU_cuts msg bs fuel : forall a b, chunkU_loop fuel msg bs a b = blocks msg (cuts_loop (lastU msg) fuel (len msg) bs a b).
Proof.
  induction fuel as [|fuel IH]; intros a b; cbn [chunkU_loop cuts_loop]; [reflexivity|].
  destruct (b <? len msg) eqn:E; [|apply last_blocks].
  rewrite <- (some_block msg (lastU msg) a b (fun b' => chunkU_loop fuel msg bs b' (b' + bs))); [|apply lastU_at_most|lia|auto].
  unfold lastU. rewrite bind_assoc. apply bind_ext. intros x _. rewrite bind_assoc. apply bind_ext. intros y _.
  rewrite bind_assoc. reflexivity.
Qed.

Lemma chunk_cuts msg alpha bs : chunk msg alpha bs = blocks msg (cuts msg alpha bs).
Proof.
  unfold chunk, cuts. destruct (alpha =? AlphaUCS2); [|destruct (alpha =? Alpha8Bit)].
  - unfold chunkU. destruct (len msg =? 0); [reflexivity|]. cbv zeta. unfold blocks. rewrite bind_assoc. apply bind_ext.
    intros _ _. apply chunkU_cuts.
  - unfold chunk8. destruct (len msg =? 0); [reflexivity|]. cbv zeta. unfold blocks. rewrite bind_assoc. apply bind_ext.
    intros _ _. apply chunk8_cuts.
  - unfold chunk7. destruct (len msg =? 0); [reflexivity|]. cbv zeta. unfold blocks. rewrite bind_assoc. apply bind_ext.
    intros _ _. apply chunk7_cuts.
Qed.

Lemma cuts_tiled msg alpha bs cs : cuts msg alpha bs = Ok cs -> tiled 0 (len msg) cs.
Proof.
  intros H. unfold cuts in H. destruct (len msg =? 0) eqn:E. { apply ok_inj in H. subst cs. cbn. lia. }
  cbv zeta in H. apply bind_ok in H as (? & _ & H). eapply cuts_loop_tiled; [|reflexivity|exact H].
  destruct (alpha =? AlphaUCS2); [apply lastU_at_most|]. destruct (alpha =? Alpha8Bit); [apply last8_at_most|apply last7_at_most].
Qed.

(** * The headers *)
Definition nothing (_ _ : nat) : Prop := False.

Lemma view_reslice {A} (h : heap A) s lo hi : ok_slice h s -> (lo <= hi <= s_len s)%nat ->
  view h (reslice s lo hi) = firstn (hi - lo) (skipn lo (view h s)).
Proof.
  intros HS H. unfold view, reslice. cbn [s_arr s_off s_len]. rewrite skipn_firstn_comm, skipn_plus, firstn_firstn.
  f_equal. lia.
Qed.
Lemma ok_reslice {A} (h : heap A) s lo hi : ok_slice h s -> (lo <= hi <= s_len s)%nat -> ok_slice h (reslice s lo hi).
Proof. intros (L & C) H. unfold reslice. split; cbn [s_arr s_off s_len s_cap]; [lia|]. destruct C as [C|C]; [left; lia|right; lia]. Qed.

Lemma copy_header grow junk (hi : heap ie) u x h1 u1 h2 u2 : ok_slice hi u ->
  gappend grow junk hi (reslice00 u) (view hi u) = (h1, u1) -> gappend grow junk h1 u1 [x] = (h2, u2) ->
  only nothing hi h2 /\ ok_slice h2 u2 /\ view h2 u2 = view hi u ++ [x] /\
  (length hi <= s_arr u2 < length h2)%nat.
Proof.
  intros HU H1 H2.
  assert (O0 : ok_slice hi (reslice00 u)) by (split; [cbn; lia|now left]).
  destruct (gappend_spec _ _ _ _ _ _ _ O0 H1) as (A1 & A2 & A3 & A4 & A5).
  destruct (gappend_spec _ _ _ _ _ _ _ A2 H2) as (B1 & B2 & B3 & B4 & B5).
  cbn [reslice00 s_len s_cap s_arr s_off] in *.
  assert (E0 : view hi (reslice00 u) = []) by (unfold view; reflexivity). rewrite E0 in A3. cbn [app] in A3.
  assert (N1 : only nothing hi h1).
  { eapply only_weaken; [exact A1|]. intros a i _ (_ & R & C). cbn [s_len s_cap reslice00] in *. lia. }
  split; [|split; [exact B2|split; [now rewrite B3, A3|]]].
  - eapply only_trans; [exact N1|exact B1|]. intros a i Ha (E & R & C). cbn [length] in *. lia.
  - destruct N1 as (L & _). destruct B2 as (_ & [C|(C & _)]); cbn [length] in *; lia.
Qed.

Lemma held_make hi hb t u2 msg lo hi' mr i T wide ref count h0 u :
  let t1 := h_with_mr mr i t in let t2 := h_set_udh t1 u2 in
  view hi u2 = view h0 u ++ [new_ie wide ref count (Z.of_nat i + 1)] ->
  T = set_UDHf (ht_rest t) (Some (view h0 u)) -> ok_slice hb msg -> 0 <= lo -> lo <= hi' <= Z.of_nat (s_len msg) ->
  held hi hb {| ht_rest := ht_rest t2; ht_udh := ht_udh t2; ht_ud := reslice msg (Z.to_nat lo) (Z.to_nat hi') |} =
  set_UDf (set_udh (with_mr mr i T) (Some (ies (UDH (with_mr mr i T)) ++ [new_ie wide ref count (Z.of_nat i + 1)])))
    (cut (view hb msg) (lo, hi')).
Proof.
  cbv zeta. intros HV -> HM Hlo Hhi. unfold held. cbn [ht_rest ht_udh ht_ud h_set_udh h_with_mr held_udh option_map].
  rewrite HV, view_reslice by (assumption || lia). unfold cut. cbn [fst snd].
  replace (Z.to_nat hi' - Z.to_nat lo)%nat with (Z.to_nat (hi' - lo)) by lia.
  destruct t as [r hu hd]. cbn [ht_rest]. dtpdu r. destruct mr; reflexivity.
Qed.

Lemma h_make_spec grow junk hb t msg cfg ref count T : ok_slice hb msg ->
  forall cs hi u i hi' ts l, ok_slice hi u -> view hi u = l -> T = set_UDHf (ht_rest t) (Some l) ->
  Forall (fun c => 0 <= fst c /\ fst c <= snd c <= Z.of_nat (s_len msg)) cs ->
  h_make_segments grow junk hi t u msg cfg ref count i cs = (hi', ts) ->
  only nothing hi hi' /\
  map (held hi' hb) ts = make_segments T cfg ref count i (map (cut (view hb msg)) cs) /\
  map ht_ud ts = map (fun c => reslice msg (Z.to_nat (fst c)) (Z.to_nat (snd c))) cs /\
  Forall (fun t => exists u, ht_udh t = Some u /\ ok_slice hi' u /\ (length hi <= s_arr u)%nat) ts /\
  ForallOrdPairs (fun t1 t2 => forall u1 u2, ht_udh t1 = Some u1 -> ht_udh t2 = Some u2 -> s_arr u1 <> s_arr u2) ts.
Proof.
  intros HM. induction cs as [|[lo hi0] cs IH]; intros hi u i hi' ts l HU HV HT HC H; cbn [h_make_segments] in H.
  { injection H as <- <-. split; [apply only_refl|]. split; [reflexivity|]. split; [reflexivity|]. split; constructor. }
  destruct (gappend grow junk hi (reslice00 u) (view hi u)) as [h1 u1] eqn:E1.
  destruct (gappend grow junk h1 u1 _) as [h2 u2] eqn:E2.
  destruct (h_make_segments grow junk h2 t u msg cfg ref count (S i) cs) as [h3 ts'] eqn:E3. injection H as <- <-.
  destruct (copy_header _ _ _ _ _ _ _ _ _ HU E1 E2) as (N & O2 & V2 & R2).
  apply Forall_cons_iff in HC as (C0 & HC). cbn [fst snd] in C0.
  assert (HV2 : view h2 u = view hi u) by (eapply only_view; [exact N|assumption|]; intros ? ? _ []).
  destruct (IH h2 u (S i) h3 ts' l (only_ok _ _ _ _ N HU) (eq_trans HV2 HV) HT HC E3) as (A1 & A2 & A3 & A4 & A5).
  assert (V3 : view h3 u2 = view h2 u2) by (eapply only_view; [exact A1|assumption|]; intros ? ? _ []).
  split; [eapply only_trans; [exact N|exact A1|]; intros ? ? _ []|].
  split.
  { cbn [map make_segments]. rewrite A2. f_equal. unfold make_segment.
    apply held_make with (h0 := hi) (u := u); try assumption; try lia; [now rewrite V3|now rewrite HV]. }
  split; [cbn [map]; now rewrite A3|].
  split.
  - constructor.
    + exists u2. split; [reflexivity|]. split; [now apply (only_ok nothing h2)|lia].
    + eapply Forall_impl; [|exact A4]. intros x (w & X1 & X2 & X3). exists w. split; [assumption|]. split; [assumption|].
      destruct N as (N & _). lia.
  - constructor; [|exact A5]. eapply Forall_impl; [|exact A4]. intros x (w & X1 & X2 & X3) v1 v2 Y1 Y2.
    cbn [ht_udh h_set_udh] in Y1. injection Y1 as <-. rewrite X1 in Y2. injection Y2 as <-. lia.
Qed.

(** * Segment *)
Definition ok_udh (hi : heap ie) (t : htpdu) : Prop := match ht_udh t with Some u => ok_slice hi u | None => True end.

Lemma h_segment_spec grow junk hi hb t msg cfg : ok_udh hi t -> ok_slice hb msg ->
  match h_segment grow junk hi hb t msg cfg with
  | Ok (hi', ts) =>
      segment (held hi hb t) (view hb msg) cfg = Ok (map (held hi' hb) ts) /\
      only (fun a i => exists u, ht_udh t = Some u /\ just_behind u a i) hi hi' /\
      ((exists t', ts = [t'] /\ ht_udh t' = ht_udh t /\ ht_ud t' = msg /\ hi' = hi) \/
       (exists cs, tiled 0 (Z.of_nat (s_len msg)) cs /\
          map ht_ud ts = map (fun c => reslice msg (Z.to_nat (fst c)) (Z.to_nat (snd c))) cs /\
          Forall (fun t => exists u, ht_udh t = Some u /\ ok_slice hi' u /\ (length hi <= s_arr u)%nat) ts /\
          ForallOrdPairs (fun t1 t2 => forall u1 u2, ht_udh t1 = Some u1 -> ht_udh t2 = Some u2 -> s_arr u1 <> s_arr u2) ts))
  | Err e => segment (held hi hb t) (view hb msg) cfg = Err e
  | Panic => segment (held hi hb t) (view hb msg) cfg = Panic
  | Diverge => segment (held hi hb t) (view hb msg) cfg = Diverge
  end.
Proof.
  intros HU HM. unfold h_segment, segment. pose proof (view_length _ _ HM) as LV.
  assert (LZ : len (view hb msg) = Z.of_nat (s_len msg)) by (unfold len; now rewrite LV). rewrite LZ.
  replace (Z.of_nat (s_len msg) =? 0) with (s_len msg =? 0)%nat by lia.
  destruct (s_len msg =? 0)%nat eqn:E0.
  { split; [reflexivity|]. split; [apply only_refl|]. right. exists []. cbn [tiled map]. split; [lia|].
    split; [reflexivity|]. split; constructor. }
  cbv zeta. destruct (Z.of_nat (s_len msg) <=? ud_block_size (held hi hb t)) eqn:E1.
  { split; [|split; [apply only_refl|left; eexists; repeat split; reflexivity]].
    cbn [map]. f_equal. f_equal. unfold held. destruct t as [r hu hd]. cbn [h_with_mr ht_rest ht_udh ht_ud].
    dtpdu r. destruct (sc_mr cfg); reflexivity. }
  set (u0 := match ht_udh t with Some u => u | None => nil_slice end).
  set (ph := new_ie (sc_wide cfg) 0 0 0).
  assert (O0 : ok_slice hi u0).
  { unfold u0. unfold ok_udh in HU. destruct (ht_udh t); [assumption|]. split; [cbn; lia|now left]. }
  assert (V0 : view hi u0 = ies (UDH (held hi hb t))).
  { unfold u0, held. destruct t as [r hu hd]. cbn [ht_rest ht_udh ht_ud]. dtpdu r. now destruct hu. }
  destruct (gappend grow junk hi u0 [ph]) as [h1 u1] eqn:E2.
  destruct (gappend_spec _ _ _ _ _ _ _ O0 E2) as (A1 & A2 & A3 & A4 & _). cbn [length] in *.
  set (u2 := reslice u1 0 (s_len u1 - 1)).
  assert (O2 : ok_slice h1 u2) by (apply ok_reslice; [assumption|lia]).
  assert (V2 : view h1 u2 = ies (UDH (held hi hb t))).
  { unfold u2. rewrite view_reslice by (assumption || lia). rewrite A3, <- V0. cbn [skipn].
    rewrite firstn_app, Nat.sub_0_r, view_length by assumption.
    replace (s_len u1 - 1 - s_len u0)%nat with 0%nat by lia. cbn [firstn]. rewrite app_nil_r.
    apply firstn_all2. rewrite view_length by assumption. lia. }
  set (l := ies (UDH (held hi hb t))) in *.
  assert (ET : held h1 hb (h_set_udh t u1) = set_udh (held hi hb t) (Some (l ++ [ph]))).
  { unfold held at 1. cbn [h_set_udh ht_rest ht_udh ht_ud held_udh option_map]. rewrite A3, V0. unfold held.
    destruct t as [r hu hd]. cbn [ht_rest ht_udh ht_ud]. now dtpdu r. }
  rewrite ET. clear ET.
  replace (dcs_alpha (DCS (set_UDHf (set_udh (held hi hb t) (Some (l ++ [ph]))) (Some l)))) with (dcs_alpha (DCS (ht_rest t))).
  2:{ unfold held. destruct t as [r hu hd]. cbn [ht_rest ht_udh ht_ud]. now dtpdu r. }
  rewrite chunk_cuts. unfold blocks.
  destruct (cuts (view hb msg) (dcs_alpha (DCS (ht_rest t))) _) as [cs|e| |] eqn:EC; cbn [bind]; try reflexivity.
  apply cuts_tiled in EC. rewrite LZ in EC.
  destruct (h_make_segments _ _ _ _ _ _ _ _ _ _ _) as [h3 ts] eqn:E3.
  assert (HB : Forall (fun c => 0 <= fst c /\ fst c <= snd c <= Z.of_nat (s_len msg)) cs) by (now apply tiled_bounds).
  eapply h_make_spec in E3; [|exact HM|exact O2|exact V2|reflexivity|exact HB].
  destruct E3 as (B1 & B2 & B3 & B4 & B5).
  split.
  { f_equal. rewrite B2. unfold len. rewrite map_length.
    enough (X : forall cs i c r, make_segments (set_UDHf (set_udh (held hi hb t) (Some (l ++ [ph]))) (Some l)) cfg r c i cs =
      make_segments (set_UDHf (ht_rest (h_set_udh t u1)) (Some l)) cfg r c i cs) by apply X.
    clear. induction cs as [|x cs IH]; intros i c r; cbn [make_segments]; [reflexivity|]. rewrite IH. f_equal.
    unfold make_segment. unfold held, h_set_udh. destruct t as [p hu hd]. cbn [ht_rest ht_udh ht_ud]. dtpdu p.
    destruct (sc_mr cfg); reflexivity. }
  split.
  { eapply only_trans; [eapply only_weaken; [exact A1|]|exact B1|intros ? ? _ []].
    intros a i _ (X & Y & Z). unfold u0 in *. destruct (ht_udh t) as [u|]; [|cbn in Z; lia].
    exists u. split; [reflexivity|]. split; [assumption|lia]. }
  right. exists cs. split; [assumption|]. split; [assumption|]. split; [|assumption].
  eapply Forall_impl; [|exact B4]. intros x (u & X1 & X2 & X3). exists u. split; [assumption|]. split; [assumption|].
  destruct A1 as (A1 & _). lia.
Qed.

Lemma ordpairs_nth {A} (R : A -> A -> Prop) l : ForallOrdPairs R l -> forall i j x y, (i < j)%nat ->
  nth_error l i = Some x -> nth_error l j = Some y -> R x y.
Proof.
  induction 1 as [|a l F _ IH]; intros i j x y Hij Hi Hj; [now destruct i|].
  destruct j as [|j]; [lia|]. cbn [nth_error] in Hj. destruct i as [|i]; cbn [nth_error] in Hi.
  - injection Hi as <-. rewrite Forall_forall in F. apply F. now apply nth_error_In in Hj.
  - apply (IH i j); auto; lia.
Qed.

Lemma used_only {A} grow (junk : A) h s h' : ok_slice h s -> used grow junk h s h' ->
  only (fun a i => a = s_arr s) h h'.
Proof.
  intros HS [(i & x & Hi & ->)|(xs & s' & E)].
  - destruct HS as (L & [C|(B & C)]); [lia|]. eapply only_weaken; [apply store_only; cbn [length]; lia|]. cbn beta; intros a j _ (-> & _); reflexivity.
  - destruct (gappend_spec _ _ _ _ _ _ _ HS E) as (O & _). eapply only_weaken; [exact O|]. intros a i _ (X & _). auto.
Qed.
Lemma assigned_only {A} (h : heap A) s h' : ok_slice h s -> assigned h s h' -> only (covers s) h h'.
Proof.
  intros HS (i & x & Hi & ->). destruct HS as (L & [C|(B & C)]); [lia|].
  eapply only_weaken; [apply store_only; cbn [length]; lia|]. cbn [length]. intros a j _ (-> & R). split; [reflexivity|lia].
Qed.

Lemma tiled_nth n : forall cs a i j c d, 0 <= a -> tiled a n cs -> (i < j)%nat -> nth_error cs i = Some c -> nth_error cs j = Some d ->
  0 <= fst c /\ fst c <= snd c <= fst d /\ fst d <= snd d <= n.
Proof.
  induction cs as [|[lo hi] cs IH]; intros a i j c d Ha H Hij Hi Hj; [now destruct i|].
  destruct H as (-> & R & H). destruct j as [|j]; [lia|]. cbn [nth_error] in Hj. destruct i as [|i]; cbn [nth_error] in Hi.
  - injection Hi as <-. cbn [fst snd]. apply tiled_bounds in H; [|lia]. rewrite Forall_forall in H.
    apply nth_error_In in Hj. apply H in Hj. lia.
  - apply (IH hi i j c d); auto; lia.
Qed.


Lemma segment_headers grow junk hi hb t msg cfg hi' ts : ok_udh hi t -> ok_slice hb msg ->
  h_segment grow junk hi hb t msg cfg = Ok (hi', ts) ->
  forall i j ti tj ui uj grow' junk' hx, i <> j -> nth_error ts i = Some ti -> nth_error ts j = Some tj ->
  ht_udh ti = Some ui -> ht_udh tj = Some uj -> used grow' junk' hi' ui hx ->
  view hx uj = view hi' uj /\ forall s, ok_slice hi s -> view hx s = view hi' s.
Proof.
  intros HU HM E i j ti tj ui uj grow' junk' hx Hij Hi Hj Ei Ej HX.
  pose proof (h_segment_spec grow junk hi hb t msg cfg HU HM) as S. rewrite E in S. destruct S as (_ & HO & S).
  destruct S as [(t' & -> & _)|(cs & _ & _ & F & P)].
  { destruct i as [|[|]], j as [|[|]]; cbn in Hi, Hj; try discriminate; lia. }
  rewrite Forall_forall in F.
  destruct (F _ (nth_error_In _ _ Hi)) as (w & X1 & X2 & X3). rewrite Ei in X1. injection X1 as <-.
  destruct (F _ (nth_error_In _ _ Hj)) as (w & Y1 & Y2 & Y3). rewrite Ej in Y1. injection Y1 as <-.
  assert (N : s_arr ui <> s_arr uj).
  { destruct (Nat.lt_total i j) as [L|[L|L]]; [|lia|].
    - exact (ordpairs_nth _ _ P _ _ _ _ L Hi Hj _ _ Ei Ej).
    - intros X. symmetry in X. revert X. exact (ordpairs_nth _ _ P _ _ _ _ L Hj Hi _ _ Ej Ei). }
  pose proof (used_only _ _ _ _ _ X2 HX) as O. split.
  - eapply only_view; [exact O|exact Y2|]. intros a k (<- & _) X. congruence.
  - intros s HS. destruct HS as (L & [C|(B & C)]).
    + assert (s_len s = 0%nat) by lia. unfold view. now rewrite H.
    + eapply only_view; [exact O|eapply only_ok; [exact HO|split; auto]|]. intros a k (<- & _) X. lia.
Qed.

Lemma segment_uds grow junk hi hb t msg cfg hi' ts : ok_udh hi t -> ok_slice hb msg ->
  h_segment grow junk hi hb t msg cfg = Ok (hi', ts) ->
  forall i j ti tj hx, i <> j -> nth_error ts i = Some ti -> nth_error ts j = Some tj ->
  assigned hb (ht_ud ti) hx -> view hx (ht_ud tj) = view hb (ht_ud tj).
Proof.
  intros HU HM E i j ti tj hx Hij Hi Hj HX.
  pose proof (h_segment_spec grow junk hi hb t msg cfg HU HM) as S. rewrite E in S. destruct S as (_ & _ & S).
  destruct S as [(t' & -> & _)|(cs & T & M & _ & _)].
  { destruct i as [|[|]], j as [|[|]]; cbn in Hi, Hj; try discriminate; lia. }
  assert (G : forall k x, nth_error ts k = Some x -> exists c, nth_error cs k = Some c /\
            ht_ud x = reslice msg (Z.to_nat (fst c)) (Z.to_nat (snd c))).
  { intros k x Hk. apply (map_nth_error ht_ud) in Hk. rewrite M in Hk. rewrite nth_error_map in Hk.
    destruct (nth_error cs k) as [c|]; [|discriminate]. injection Hk as Hk. eauto. }
  destruct (G _ _ Hi) as (c & C1 & C2), (G _ _ Hj) as (d & D1 & D2).
  assert (D : (0 <= fst c /\ fst c <= snd c <= fst d /\ fst d <= snd d <= Z.of_nat (s_len msg)) \/
              (0 <= fst d /\ fst d <= snd d <= fst c /\ fst c <= snd c <= Z.of_nat (s_len msg))).
  { destruct (Nat.lt_total i j) as [L|[L|L]]; [left|lia|right]; eapply tiled_nth; eauto; lia. }
  rewrite C2 in HX. rewrite D2. apply assigned_only in HX; [|apply ok_reslice; [assumption|lia]].
  eapply only_view; [exact HX|apply ok_reslice; [assumption|lia]|].
  intros a k (<- & K1) (_ & K2). unfold reslice in K1, K2. cbn [s_off s_len] in *. lia.
Qed.
