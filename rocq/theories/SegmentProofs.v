(** Proofs about segmentation. *)
From Verif Require Import GoBase GoLemmas SpecText SpecSegment UtfProofs Gsm7 Dcs FirstOctet
  UserData Tpdu Segment.

(** Opens a TPDU without shadowing its field names. *)
Ltac dtpdu t :=
  destruct t as [dir0 fo0 oa0 fcs0 mr0 ct0 mn0 da0 ra0 pi0 scts0 dt0 st0 pid0 dcs0 vp0 udh0 ud0].

(** ** A common form for the three chunking loops *)
Fixpoint gloop (adj : list Z -> Z -> res Z) (fuel : nat) (msg : list Z) (bs bstart bend : Z)
  : res (list (list Z)) :=
  match fuel with
  | O => Diverge
  | S fuel' =>
      if bend <? len msg then
        b <- adj msg bend ;;
        c <- slice msg bstart b ;;
        rest <- gloop adj fuel' msg bs b (b + bs) ;;
        Ok (c :: rest)
      else
        c <- slice_from msg bstart ;;
        Ok [c]
  end.

Definition adj7 (msg : list Z) (bend : Z) : res Z :=
  b1 <- idx msg (bend - 1) ;;
  split <- (if b1 =? esc then b2 <- idx msg (bend - 2) ;; Ok (negb (b2 =? esc))
            else Ok false) ;;
  Ok (if split : bool then bend - 1 else bend).
Definition adj8 (msg : list Z) (bend : Z) : res Z := Ok bend.
Definition adjU (msg : list Z) (bend : Z) : res Z :=
  _ <- slice msg (bend - 2) bend ;;
  h <- idx msg (bend - 2) ;;
  l <- idx msg (bend - 1) ;;
  Ok (if (surrHighStart <=? h * 256 + l) && (h * 256 + l <? surrLowStart)
      then bend - 2 else bend).

Lemma bind_assoc {A B C} (m : res A) (f : A -> res B) (g : B -> res C) :
  bind (bind m f) g = bind m (fun x => bind (f x) g).
Proof. now destruct m. Qed.
Lemma bind_ext {A B} (m : res A) (f g : A -> res B) :
  (forall x, f x = g x) -> bind m f = bind m g.
Proof. intros H; destruct m; cbn; auto. Qed.

Lemma chunk7_gloop fuel : forall msg bs a b,
  chunk7_loop fuel msg bs a b = gloop adj7 fuel msg bs a b.
Proof.
  induction fuel; intros; [reflexivity|]. cbn [chunk7_loop gloop].
  destruct (b <? len msg); [|reflexivity]. unfold adj7. rewrite bind_assoc.
  apply bind_ext; intros x. rewrite bind_assoc. apply bind_ext; intros y. cbn [bind].
  apply bind_ext; intros z. now rewrite IHfuel.
Qed.
Lemma chunk8_gloop fuel : forall msg bs a b,
  chunk8_loop fuel msg bs a b = gloop adj8 fuel msg bs a b.
Proof.
  induction fuel; intros; [reflexivity|]. cbn [chunk8_loop gloop].
  destruct (b <? len msg); [|reflexivity]. unfold adj8. cbn [bind].
  apply bind_ext; intros z. now rewrite IHfuel.
Qed.
Lemma chunkU_gloop fuel : forall msg bs a b,
  chunkU_loop fuel msg bs a b = gloop adjU fuel msg bs a b.
Proof.
  induction fuel; intros; [reflexivity|]. cbn [chunkU_loop gloop].
  destruct (b <? len msg); [|reflexivity]. unfold adjU. rewrite bind_assoc.
  apply bind_ext; intros w. rewrite bind_assoc.
  apply bind_ext; intros x. rewrite bind_assoc. apply bind_ext; intros y. cbn [bind].
  apply bind_ext; intros z. now rewrite IHfuel.
Qed.

(** ** What any successful run gives *)
Lemma gloop_stuck adj msg bs a :
  adj msg (a + bs) = Ok a -> a + bs < len msg ->
  forall fuel cs, gloop adj fuel msg bs a (a + bs) <> Ok cs.
Proof.
  intros Ha Hl. induction fuel; intros cs; cbn [gloop]; [discriminate|].
  btrue (a + bs <? len msg). rewrite Ha. cbn [bind].
  destruct (slice msg a a); cbn [bind]; try discriminate.
  destruct (gloop adj fuel msg bs a (a + bs)) eqn:E; cbn [bind]; try discriminate.
  exfalso; eapply IHfuel; eauto.
Qed.

Lemma skipn_plus {A} (a b : nat) : forall (l : list A), skipn a (skipn b l) = skipn (b + a) l.
Proof. induction b; intros l; [reflexivity|]. destruct l; cbn; [apply skipn_nil|apply IHb]. Qed.

Lemma slice_pre {A} (l : list A) a b c :
  slice l a b = Ok c -> skipn (Z.to_nat a) l = c ++ skipn (Z.to_nat b) l.
Proof.
  intros H. apply slice_inv in H as (H1 & H2 & ->).
  rewrite <- (firstn_skipn (Z.to_nat (b - a)) (skipn (Z.to_nat a) l)) at 1. f_equal.
  rewrite skipn_plus. f_equal. lia.
Qed.

Lemma gloop_ok adj msg bs : (forall e b, adj msg e = Ok b -> b <= e) ->
  forall fuel a cs, 0 <= a < len msg ->
  gloop adj fuel msg bs a (a + bs) = Ok cs ->
  concat cs = skipn (Z.to_nat a) msg /\
  Forall (fun c => 0 < len c <= bs) cs.
Proof.
  intros Hadj. induction fuel; intros a cs Ha H; cbn [gloop] in H; [discriminate|].
  destruct (a + bs <? len msg) eqn:E.
  - apply bind_ok in H as (b & Hb & H). apply bind_ok in H as (c & Hc & H).
    apply bind_ok in H as (rest & Hr & H). injection H as <-.
    pose proof (slice_inv _ _ _ _ Hc) as (B1 & B2 & _).
    pose proof (slice_len _ _ _ _ Hc) as L. pose proof (Hadj _ _ Hb) as B3.
    assert (b <> a) as NE.
    { intros ->. eapply (gloop_stuck adj msg bs a); eauto. lia. }
    destruct (IHfuel b rest) as (I1 & I2); [lia|exact Hr|].
    split; [|constructor; [lia|exact I2]].
    cbn [concat]. rewrite I1. symmetry. now apply slice_pre.
  - apply bind_ok in H as (c & Hc & H). injection H as <-.
    apply slice_from_inv in Hc as (_ & E1 & E2). cbn [concat]. rewrite app_nil_r.
    split; [exact E1|]. constructor; [lia|constructor].
Qed.

Lemma adj7_le msg e b : adj7 msg e = Ok b -> b <= e.
Proof.
  intros H. apply bind_ok in H as (x & _ & H). apply bind_ok in H as (y & _ & H).
  injection H as <-. destruct y; lia.
Qed.
Lemma adj8_le msg e b : adj8 msg e = Ok b -> b <= e.
Proof. intros H; injection H as <-. lia. Qed.
Lemma adjU_le msg e b : adjU msg e = Ok b -> b <= e.
Proof.
  intros H. apply bind_ok in H as (w & _ & H). apply bind_ok in H as (x & _ & H).
  apply bind_ok in H as (y & _ & H).
  injection H as <-. destruct (_ && _); lia.
Qed.

(** The chunking loops in their common form. *)
Definition adj_of (alpha : Z) : list Z -> Z -> res Z :=
  if alpha =? AlphaUCS2 then adjU else if alpha =? Alpha8Bit then adj8 else adj7.
Definition bs_of (alpha bs : Z) : Z := if alpha =? AlphaUCS2 then bs - bs mod 2 else bs.
Lemma adj_of_le alpha msg e b : adj_of alpha msg e = Ok b -> b <= e.
Proof.
  unfold adj_of. destruct (alpha =? AlphaUCS2); [apply adjU_le|].
  destruct (alpha =? Alpha8Bit); [apply adj8_le|apply adj7_le].
Qed.

Lemma chunk_gloop msg alpha bs : len msg <> 0 ->
  chunk msg alpha bs =
  (_ <- chunk_prologue msg (bs_of alpha bs) ;;
   gloop (adj_of alpha) (S (length msg)) msg (bs_of alpha bs) 0 (0 + bs_of alpha bs)).
Proof.
  intros H. unfold chunk, adj_of, bs_of, chunkU, chunk8, chunk7.
  destruct (alpha =? AlphaUCS2); [|destruct (alpha =? Alpha8Bit)];
    bfalse (len msg =? 0); apply bind_ext; intros _;
    rewrite Z.add_0_l; auto using chunkU_gloop, chunk8_gloop, chunk7_gloop.
Qed.

Lemma gloop_neg alpha fuel msg bs cs : bs <= 0 -> len msg <> 0 ->
  gloop (adj_of alpha) fuel msg bs 0 (0 + bs) = Ok cs -> bs = 0.
Proof.
  intros Hb Hl H. destruct fuel; [discriminate|]. cbn [gloop] in H.
  pose proof (len_nonneg msg). btrue (0 + bs <? len msg).
  apply bind_ok in H as (b & E & H). pose proof (adj_of_le _ _ _ _ E).
  apply bind_ok in H as (c & Hc & H). apply slice_inv in Hc. lia.
Qed.

Lemma chunk_ok msg alpha bs cs : len msg <> 0 -> chunk msg alpha bs = Ok cs ->
  0 < bs_of alpha bs /\ concat cs = msg /\
  Forall (fun c => 0 < len c <= bs_of alpha bs) cs.
Proof.
  intros Hl H. rewrite chunk_gloop in H by exact Hl.
  apply bind_ok in H as (u & Hp & H). set (k := bs_of alpha bs) in *.
  assert (0 < k) as Hk.
  { destruct (Z.le_gt_cases k 0) as [L|L]; [|exact L].
    pose proof (gloop_neg _ _ _ _ _ L Hl H) as E0. rewrite E0 in Hp.
    unfold chunk_prologue, godiv in Hp. cbn in Hp. discriminate. }
  split; [exact Hk|]. pose proof (len_nonneg msg).
  eapply gloop_ok in H; [exact H| |lia]. apply adj_of_le.
Qed.

(** ** Block sizes *)
Lemma fo_mti_or f : Z.land (Z.lor f 64) 3 = Z.land f 3.
Proof. rewrite Z.land_lor_distr_l. change (Z.land 64 3) with 0. apply Z.lor_0_r. Qed.

Lemma udhl_app a b : udhl (a ++ b) = udhl a + udhl b.
Proof. induction a; cbn [app udhl]; lia. Qed.
Lemma udhl_nonneg l : 0 <= udhl l.
Proof.
  induction l as [|i l IH]; cbn [udhl]; [lia|].
  unfold ie_len. pose proof (len_nonneg (ie_data i)). lia.
Qed.
Lemma udhl_0 l : udhl l = 0 -> l = [].
Proof.
  destruct l as [|i l]; [reflexivity|]. cbn [udhl]. unfold ie_len.
  pose proof (len_nonneg (ie_data i)). pose proof (udhl_nonneg l). lia.
Qed.
Definition concat_len (wide : bool) : Z := if wide then 6 else 5.
Lemma new_ie_len wide r c s : ie_len (new_ie wide r c s) = concat_len wide.
Proof. destruct wide; reflexivity. Qed.

(** UDBlockSize depends only on the type, the FCS, the DCS and the UDHL. *)
Definition block_size (st fcs dcs hl : Z) : Z :=
  let bs :=
    if (st =? SmsSubmit) || (st =? SmsDeliver) then 140
    else if st =? SmsCommand then 146
    else if st =? SmsSubmitReport then (if fcs =? 0 then 152 else 151)
    else if st =? SmsDeliverReport then (if fcs =? 0 then 159 else 158)
    else if st =? SmsStatusReport then 131
    else 0 in
  let alpha := dcs_alpha dcs in
  if alpha =? Alpha7Bit then
    let bs := Z.quot (bs * 8) 7 in
    if hl =? 0 then bs else bs - Z.quot ((hl + 1) * 8 + 6) 7
  else
    let bs := if 0 <? hl then bs - (hl + 1) else bs in
    if alpha =? AlphaUCS2 then bs - bs mod 2 else bs.
Lemma ud_block_size_eq t :
  ud_block_size t = block_size (tpdu_type t) (FCS t) (DCS t) (udhl (ies (UDH t))).
Proof. reflexivity. Qed.

(** The block size of the segments of a multi-part message. *)
Definition multi_size (t : tpdu) (wide : bool) : Z :=
  block_size (tpdu_type t) (FCS t) (DCS t) (udhl (ies (UDH t)) + concat_len wide).

Lemma block_size_mono st fcs dcs hl hl' :
  0 <= hl <= hl' -> block_size st fcs dcs hl' <= block_size st fcs dcs hl.
Proof.
  intros H. unfold block_size.
  set (bs := if (st =? SmsSubmit) || (st =? SmsDeliver) then 140 else _). clearbody bs.
  cbv zeta. destruct (dcs_alpha dcs =? Alpha7Bit).
  - destruct (hl =? 0) eqn:E1, (hl' =? 0) eqn:E2; try lia.
  - destruct (0 <? hl) eqn:E1, (0 <? hl') eqn:E2, (dcs_alpha dcs =? AlphaUCS2); lia.
Qed.

Lemma bs_of_block st fcs dcs hl :
  bs_of (dcs_alpha dcs) (block_size st fcs dcs hl) = block_size st fcs dcs hl.
Proof.
  unfold bs_of. destruct (dcs_alpha dcs =? AlphaUCS2) eqn:E; [|reflexivity].
  unfold block_size. rewrite E. unfold Alpha7Bit, AlphaUCS2 in *. bfalse (dcs_alpha dcs =? 0).
  set (bs := if (st =? SmsSubmit) || (st =? SmsDeliver) then 140 else _). clearbody bs.
  destruct (0 <? hl); lia.
Qed.

(** ** The structure of Segment's result *)
Definition seg_ref (cfg : seg_cfg) : Z := match sc_cr cfg with Some f => f 0%nat | None => 1 end.

(** Template of the segments of a multi-part message. *)
Definition multi_template (t : tpdu) (wide : bool) : tpdu :=
  set_UDHf (set_udh t (Some (ies (UDH t) ++ [new_ie wide 0 0 0]))) (Some (ies (UDH t))).

Lemma segment_cases t msg cfg segs : segment t msg cfg = Ok segs ->
  (msg = [] /\ segs = []) \/
  (msg <> [] /\ len msg <= ud_block_size t /\ segs = [with_mr (sc_mr cfg) 0 (set_UDf t msg)]) \/
  (msg <> [] /\ ud_block_size t < len msg /\
   exists cs, chunk msg (dcs_alpha (DCS t)) (multi_size t (sc_wide cfg)) = Ok cs /\
     segs = make_segments (multi_template t (sc_wide cfg)) cfg (seg_ref cfg) (len cs) 0 cs).
Proof.
  intros H. unfold segment in H.
  destruct (len msg =? 0) eqn:E0.
  - left. apply len_eqb_nil in E0. injection H as <-. auto.
  - right. assert (msg <> []) as NE by (intros ->; discriminate E0).
    destruct (len msg <=? ud_block_size t) eqn:E1.
    + left. injection H as <-. repeat split; auto; lia.
    + right. apply bind_ok in H as (cs & Hc & H). injection H as <-.
      split; [exact NE|]. split; [lia|]. exists cs. split; [|reflexivity].
      rewrite <- Hc.
      replace (DCS (set_UDHf _ _)) with (DCS t) by (now dtpdu t).
      f_equal. rewrite ud_block_size_eq. unfold multi_size.
      dtpdu t; cbn [set_udh set_UDHf set_PI set_FO FCS DCS UDH FO Direction tpdu_type ies].
      rewrite udhl_app. cbn [udhl]. rewrite new_ie_len, Z.add_0_r.
      unfold tpdu_type; cbn [set_udh set_UDHf set_PI set_FO FCS DCS UDH FO Direction].
      unfold fo_mti. now rewrite fo_mti_or.
Qed.

Lemma make_segments_nth t cfg ref count cs : forall i k c,
  nth_error cs k = Some c ->
  nth_error (make_segments t cfg ref count i cs) k = Some (make_segment t cfg ref count (i + k) c).
Proof.
  induction cs as [|c0 cs IH]; intros i k c H; destruct k; cbn in H; try discriminate.
  - injection H as ->. cbn [make_segments nth_error]. now rewrite Nat.add_0_r.
  - cbn [make_segments nth_error]. rewrite IH with (c := c) by exact H. do 2 f_equal. lia.
Qed.
Lemma make_segments_length t cfg ref count cs : forall i,
  length (make_segments t cfg ref count i cs) = length cs.
Proof. induction cs; intros; cbn; auto. Qed.
Lemma make_segments_UD t cfg ref count cs : forall i,
  map UD (make_segments t cfg ref count i cs) = cs.
Proof.
  induction cs as [|c cs IH]; intros i; cbn [make_segments map]; [reflexivity|].
  rewrite IH. f_equal. unfold make_segment. now destruct (with_mr (sc_mr cfg) i t).
Qed.
Lemma make_segments_In t cfg ref count cs s : forall i,
  In s (make_segments t cfg ref count i cs) ->
  exists k c, nth_error cs k = Some c /\ s = make_segment t cfg ref count (i + k) c.
Proof.
  intros i H. apply In_nth_error in H as (k & H).
  assert (k < length cs)%nat as L.
  { rewrite <- (make_segments_length t cfg ref count cs i). apply nth_error_Some. congruence. }
  destruct (nth_error cs k) as [c|] eqn:E; [|apply nth_error_None in E; lia].
  exists k, c. split; [exact E|]. rewrite (make_segments_nth _ _ _ _ _ _ _ _ E) in H. congruence.
Qed.

(** The fields of one segment. *)
Lemma make_segment_fields t cfg ref count i c :
  let s := make_segment (multi_template t (sc_wide cfg)) cfg ref count i c in
  s = {| Direction := Direction t; FO := Z.lor (FO t) 64; OA := OA t; FCS := FCS t;
         MR := match sc_mr cfg with Some f => f i mod 256 | None => MR t end;
         CT := CT t; MN := MN t; DA := DA t; RA := RA t; PI := Z.lor (PI t) 4;
         SCTS := SCTS t; DT := DT t; ST := ST t; PID := PID t; DCS := DCS t; VP := VP t;
         UDH := Some (ies (UDH t) ++ [new_ie (sc_wide cfg) ref count (Z.of_nat i + 1)]);
         UD := c |}.
Proof.
  dtpdu t; destruct cfg as [w cr [mr|]];
    cbn [make_segment multi_template with_mr sc_mr sc_wide set_udh set_UDHf set_UDf set_PI set_FO
         set_MR UDH ies Direction FO OA FCS MR CT MN DA RA PI SCTS DT ST PID DCS VP UD];
    unfold FoUDHI, PiUDL, to_byte;
    rewrite <- !Z.lor_assoc; reflexivity.
Qed.

Lemma make_segment_size t cfg ref count i c :
  ud_block_size (make_segment (multi_template t (sc_wide cfg)) cfg ref count i c)
  = multi_size t (sc_wide cfg).
Proof.
  pose proof (make_segment_fields t cfg ref count i c) as E. cbv zeta in E. rewrite E. clear E.
  rewrite ud_block_size_eq. unfold multi_size, tpdu_type. cbn [FCS DCS UDH FO Direction ies].
  rewrite udhl_app. cbn [udhl]. rewrite new_ie_len, Z.add_0_r. unfold fo_mti. now rewrite fo_mti_or.
Qed.

Lemma with_mr_UD mr i t : UD (with_mr mr i t) = UD t.
Proof. destruct mr, t; reflexivity. Qed.
Lemma with_mr_size mr i t : ud_block_size (with_mr mr i t) = ud_block_size t.
Proof. destruct mr, t; reflexivity. Qed.
Lemma set_UDf_size t m : ud_block_size (set_UDf t m) = ud_block_size t.
Proof. destruct t; reflexivity. Qed.
Lemma set_UDf_UD t m : UD (set_UDf t m) = m.
Proof. destruct t; reflexivity. Qed.

Lemma multi_size_le t wide : multi_size t wide <= ud_block_size t.
Proof.
  rewrite ud_block_size_eq. apply block_size_mono. pose proof (udhl_nonneg (ies (UDH t))).
  unfold concat_len; destruct wide; lia.
Qed.

Lemma len_ne_nil {A} (l : list A) : l <> [] -> len l <> 0.
Proof. intros H E. apply H, len_0_nil, E. Qed.

(** ** C13 *)
Lemma segment_lossless t msg cfg segs : segment t msg cfg = Ok segs ->
  concat (map UD segs) = msg /\
  (forall s, In s segs -> UD s <> [] /\ len (UD s) <= ud_block_size s) /\
  ((length segs <= 1)%nat <-> len msg <= ud_block_size t \/ msg = []).
Proof.
  intros H. destruct (segment_cases _ _ _ _ H) as [(-> & ->)|[(NE & L & ->)|(NE & L & cs & Hc & ->)]].
  - split; [reflexivity|]. split; [intros s []|]. cbn. split; auto.
  - cbn [map concat]. rewrite with_mr_UD, set_UDf_UD, app_nil_r.
    split; [reflexivity|]. split; [|cbn; split; auto].
    intros s [<-|[]]. rewrite with_mr_UD, set_UDf_UD, with_mr_size, set_UDf_size. auto.
  - pose proof (len_ne_nil _ NE) as NZ.
    destruct (chunk_ok _ _ _ _ NZ Hc) as (Hb & HC & HF).
    unfold multi_size in *. rewrite bs_of_block in *.
    rewrite make_segments_UD. split; [exact HC|]. split.
    + intros s Hs. apply make_segments_In in Hs as (k & c & Hk & ->).
      rewrite make_segment_size.
      pose proof (make_segment_fields t cfg (seg_ref cfg) (len cs) (0 + k) c) as E.
      cbv zeta in E. rewrite E. cbn [UD].
      apply nth_error_In in Hk. rewrite Forall_forall in HF. apply HF in Hk.
      split; [intros ->; cbn in Hk; lia|]. unfold multi_size. lia.
    + rewrite make_segments_length. split; [|intros [?|?]; [lia|contradiction]].
      intros Hn. exfalso. pose proof (multi_size_le t (sc_wide cfg)). unfold multi_size in *.
      destruct cs as [|c [|c2 cs]]; [|inversion HF; subst|cbn in Hn; lia].
      * cbn in HC. congruence.
      * cbn in *. rewrite app_nil_r in L. lia.
Qed.
