(** C13 - C19: segmentation. *)
From Verif Require Import GoBase GoLemmas SpecText SpecSegment SpecSegTpdu Gsm7 Dcs FirstOctet UserData Tpdu
  Segment SegmentProofs SegmentOptProofs SegmentFitProofs Sms UtfProofs.

(** An SMS-SUBMIT template for each alphabet. *)
Definition submit_template (dcs : Z) : tpdu := set_DCSf (set_FO (set_Direction new_tpdu MO) 1) dcs.

(** C13.  The UDs concatenate to the message; none is empty; each is within the
    UDBlockSize of its own TPDU.  More than one TPDU is used only when the
    message does not fit the template's UDBlockSize. *)
Theorem C13_segmentation_lossless : forall t msg cfg segs,
  segment t msg cfg = Ok segs ->
  concat (map UD segs) = msg /\
  (forall s, In s segs -> UD s <> [] /\ len (UD s) <= ud_block_size s) /\
  ((length segs <= 1)%nat <-> len msg <= ud_block_size t \/ msg = []).
Proof. exact segment_lossless. Qed.
Print Assumptions C13_segmentation_lossless.

(** C14.  The full claim is false for text containing U+001B: "a..aESCESC€"
    with the euro sign at septets 153 and 154 is divided inside the euro sign. *)
Definition esc_text : bytes := repeat 97 150 ++ [27; 27] ++ [226; 130; 172] ++ repeat 97 20.
Theorem C14_units_whole_refuted : exists septets s1 s2,
  gsm7_encode (gsm7_new_encoder None None) esc_text = Ok septets /\
  segment (submit_template 0) septets seg_cfg_default = Ok [s1; s2] /\
  UD s1 = repeat 97 150 ++ [27; 27] ++ [27] /\ UD s2 = 101 :: repeat 97 20.
Proof.
  eexists _, _, _. split; [vm_compute; reflexivity|].
  split; [vm_compute; reflexivity|]. split; reflexivity.
Qed.
Print Assumptions C14_units_whole_refuted.

(** What holds: septets made of whole units (SpecSegment.v), hence any GSM7
    encoding of text without U+001B, are divided into whole units. *)
Theorem C14_gsm7_whole_partial : forall t msg cfg segs,
  dcs_alpha (DCS t) = Alpha7Bit -> gsm7_whole msg -> segment t msg cfg = Ok segs ->
  forall s, In s segs -> gsm7_whole (UD s).
Proof.
  intros t msg cfg segs HA HW H s Hs. apply (whole_7 _ _ HA).
  eapply segment_whole; eauto. now apply (whole_7 _ _ HA).
Qed.
Print Assumptions C14_gsm7_whole_partial.
Theorem C14_gsm7_text_partial : forall l s text msg t cfg segs,
  Forall is_byte text -> ~ In 27 text ->
  gsm7_encode (gsm7_new_encoder l s) text = Ok msg ->
  dcs_alpha (DCS t) = Alpha7Bit -> segment t msg cfg = Ok segs ->
  forall s, In s segs -> gsm7_whole (UD s).
Proof.
  intros l s text msg t cfg segs HB HN HE HA H. eapply C14_gsm7_whole_partial; eauto.
  eapply gsm7_encode_whole; eauto.
Qed.
Print Assumptions C14_gsm7_text_partial.

(** Surrogate pairs are never split. *)
Theorem C14_ucs2_whole : forall t rs msg cfg segs,
  dcs_alpha (DCS t) = AlphaUCS2 -> utf16be rs msg -> segment t msg cfg = Ok segs ->
  forall s, In s segs -> utf16_whole (UD s).
Proof.
  intros t rs msg cfg segs HA HW H s Hs. apply whole_U. rewrite <- HA.
  eapply segment_whole; eauto. rewrite HA. apply whole_U. now exists rs.
Qed.
Print Assumptions C14_ucs2_whole.

(** Nothing else comes out whole: for any septets and any octets, all segments
    are whole exactly if the message is. *)
Theorem C14_gsm7_exactly : forall t msg cfg segs,
  dcs_alpha (DCS t) = Alpha7Bit -> segment t msg cfg = Ok segs ->
  ((forall s, In s segs -> gsm7_whole (UD s)) <-> gsm7_whole msg).
Proof.
  intros t msg cfg segs HA H. split; [|intros HW; eapply C14_gsm7_whole_partial; eauto].
  destruct (C13_segmentation_lossless t msg cfg segs H) as (<- & _). intros HW. clear H.
  induction segs as [|s segs IH]; [now exists []|]. cbn [map concat].
  destruct (HW s (or_introl eq_refl)) as (us & F & <-). destruct IH as (vs & G & <-); [intros; apply HW; now right|].
  exists (us ++ vs). split; [now apply Forall_app|apply concat_app].
Qed.
Print Assumptions C14_gsm7_exactly.
Lemma utf16be_join rs s rs' s' : utf16be rs s -> utf16be rs' s' -> utf16be (rs ++ rs') (s ++ s').
Proof.
  intros (us & T & B) (us' & T' & B'). exists (us ++ us'). split; [|now apply be_units_app].
  clear B B'. induction T as [|r u rs us C T IH]; [exact T'|]. cbn [app]. rewrite <- app_assoc. now constructor.
Qed.
Theorem C14_ucs2_exactly : forall t msg cfg segs,
  dcs_alpha (DCS t) = AlphaUCS2 -> segment t msg cfg = Ok segs ->
  ((forall s, In s segs -> utf16_whole (UD s)) <-> utf16_whole msg).
Proof.
  intros t msg cfg segs HA H. split; [|intros (rs & HW); eapply C14_ucs2_whole; eauto].
  destruct (C13_segmentation_lossless t msg cfg segs H) as (<- & _). intros HW. clear H.
  induction segs as [|s segs IH]; [exists [], []; split; constructor|]. cbn [map concat].
  destruct (HW s (or_introl eq_refl)) as (rs & R). destruct IH as (rs' & R'); [intros; apply HW; now right|].
  exists (rs ++ rs'). now apply utf16be_join.
Qed.
Print Assumptions C14_ucs2_exactly.

(** C15.  No division into blocks of at most the segments' block size that
    keeps escape pairs (or characters) whole is shorter. *)
Theorem C15_optimal_gsm7 : forall t msg cfg segs blocks cap,
  dcs_alpha (DCS t) = Alpha7Bit -> segment t msg cfg = Ok segs ->
  (forall s, In s segs -> cap <= ud_block_size s) ->
  division gsm7_pairs cap msg blocks -> (length segs <= length blocks)%nat.
Proof. intros; eapply segment_optimal7; eauto. Qed.
Print Assumptions C15_optimal_gsm7.
Theorem C15_optimal_ucs2 : forall t msg cfg segs blocks cap,
  dcs_alpha (DCS t) = AlphaUCS2 -> segment t msg cfg = Ok segs ->
  (forall s, In s segs -> cap <= ud_block_size s) ->
  division utf16_whole cap msg blocks -> (length segs <= length blocks)%nat.
Proof.
  intros t msg cfg segs blocks cap HA H HC (HD & HF). eapply segment_optimal; eauto.
  split; [exact HD|]. eapply Forall_impl; [|exact HF]. cbn. intros b [Hw Hl]. split; [|exact Hl].
  rewrite HA. now apply whole_U.
Qed.
Print Assumptions C15_optimal_ucs2.
Theorem C15_optimal_8bit : forall t msg cfg segs blocks cap,
  dcs_alpha (DCS t) = Alpha8Bit -> segment t msg cfg = Ok segs ->
  (forall s, In s segs -> cap <= ud_block_size s) ->
  division (fun _ => True) cap msg blocks -> (length segs <= length blocks)%nat.
Proof.
  intros t msg cfg segs blocks cap HA H HC (HD & HF). eapply segment_optimal; eauto.
  split; [exact HD|]. eapply Forall_impl; [|exact HF]. cbn. intros b [_ Hl]. split; [|exact Hl].
  rewrite HA. apply whole_8.
Qed.
Print Assumptions C15_optimal_8bit.
(** And the block size itself is the largest there is: any user data larger than
    the UDBlockSize of its SMS-SUBMIT or SMS-DELIVER takes over 140 octets. *)
Theorem C15_block_size_maximal : forall t alpha udl body,
  submit_or_deliver t -> tpdu_alphabet t = Ok alpha ->
  (alpha = AlphaUCS2 -> len (UD t) mod 2 = 0) -> ud_block_size t < len (UD t) ->
  encode_ud t = Ok (udl :: body) -> 140 < len body.
Proof. exact encode_ud_overflows. Qed.
Print Assumptions C15_block_size_maximal.

(** C16.  False beyond 255 segments: the total and sequence number are one
    octet each. *)
Definition long_msg : bytes := repeat 0 (Z.to_nat 34304).
Lemma long_msg_check :
  match segment (submit_template 4) long_msg seg_cfg_default with
  | Ok ((s :: _) as segs) => ((len segs =? 256) && negb (is_complete_message segs) &&
      match tpdu_concat_info s with
      | Some (a, b, c) => (a =? 0) && (b =? 1) && (c =? 1)
      | None => false
      end)%bool
  | _ => false
  end = true.
Proof. vm_compute. reflexivity. Qed.
Theorem C16_concat_info_refuted : exists segs s,
  segment (submit_template 4) long_msg seg_cfg_default = Ok segs /\
  len segs = 256 /\ nth_error segs 0 = Some s /\
  tpdu_concat_info s = Some (0, 1, 1) /\ is_complete_message segs = false.
Proof.
  pose proof long_msg_check as H.
  destruct (segment (submit_template 4) long_msg seg_cfg_default) as [[|s segs]| | |]; try discriminate H.
  apply andb_prop in H as [H E3]. apply andb_prop in H as [E1 E2].
  exists (s :: segs), s. split; [reflexivity|]. split; [lia|]. split; [reflexivity|].
  split; [|now apply negb_true_iff].
  destruct (tpdu_concat_info s) as [[[a b] c]|]; [|discriminate].
  apply andb_prop in E3 as [E3 E4]. apply andb_prop in E3 as [E3 E5].
  do 2 f_equal; [f_equal|]; lia.
Qed.
Print Assumptions C16_concat_info_refuted.

(** Up to 255 segments, from a template without concatenation elements: TPDU k
    reports the total, k + 1, and the reference taken once from the counter
    (1 without a counter), modulo the width of the reference. *)
Theorem C16_concat_info_partial : forall t msg cfg segs,
  segment t msg cfg = Ok segs -> no_concat (ies (UDH t)) -> 1 < len segs <= 255 ->
  forall k s, nth_error segs k = Some s ->
  tpdu_concat_info s =
  Some (len segs, Z.of_nat k + 1,
        match sc_cr cfg with Some f => f 0%nat | None => 1 end
          mod (if sc_wide cfg then 65536 else 256)).
Proof. exact segment_concat. Qed.
Print Assumptions C16_concat_info_partial.
Theorem C16_complete_partial : forall t msg cfg segs,
  segment t msg cfg = Ok segs -> no_concat (ies (UDH t)) -> msg <> [] -> len segs <= 255 ->
  is_complete_message segs = true.
Proof. exact segment_complete. Qed.
Print Assumptions C16_complete_partial.

(** Exactly: beyond 255 both numbers are taken modulo 256, and the TPDUs are no
    complete message. *)
Theorem C16_concat_info_wraps : forall t msg cfg segs,
  segment t msg cfg = Ok segs -> no_concat (ies (UDH t)) -> 1 < len segs ->
  forall k s, nth_error segs k = Some s ->
  tpdu_concat_info s =
  Some (len segs mod 256, (Z.of_nat k + 1) mod 256,
        match sc_cr cfg with Some f => f 0%nat | None => 1 end
          mod (if sc_wide cfg then 65536 else 256)).
Proof. exact segment_concat_wraps. Qed.
Print Assumptions C16_concat_info_wraps.
Theorem C16_complete_iff : forall t msg cfg segs,
  segment t msg cfg = Ok segs -> no_concat (ies (UDH t)) -> msg <> [] ->
  is_complete_message segs = (len segs <=? 255).
Proof. exact segment_complete_iff. Qed.
Print Assumptions C16_complete_iff.

(** C17.  Every other field is the template's; a message that fits the template
    leaves its header and flags alone too. *)
Theorem C17_template_inherited : forall t msg cfg segs,
  segment t msg cfg = Ok segs ->
  forall k s, nth_error segs k = Some s ->
  inherits t cfg
    (if (len msg <=? ud_block_size t)
     then None
     else Some (match sc_cr cfg with Some f => f 0%nat | None => 1 end, len segs)) k s.
Proof. exact segment_inherits. Qed.
Print Assumptions C17_template_inherited.

(** C18.  The marshalled user data of every TPDU is at most 140 octets after the
    length octet, and the length octet counts it exactly: in septets, with the
    header rounded up to a septet boundary, for GSM 7-bit; else in octets. *)
Theorem C18_fits : forall t msg cfg segs alpha,
  segment t msg cfg = Ok segs -> submit_or_deliver t -> tpdu_alphabet t = Ok alpha ->
  (alpha = AlphaUCS2 -> len msg mod 2 = 0) ->
  forall s, In s segs -> exists udl body,
  encode_ud s = Ok (udl :: body) /\ len body <= 140 /\
  (if alpha =? Alpha7Bit
   then udl = cdiv (8 * len (udh_marshal (ies (UDH s)))) 7 + len (UD s) /\ len body = cdiv (7 * udl) 8
   else udl = len (udh_marshal (ies (UDH s))) + len (UD s) /\ len body = udl).
Proof. exact segment_fits. Qed.
Print Assumptions C18_fits.

(** C19.  False: a template of an unsupported type panics, and a header leaving
    room for a single UCS-2 unit loops for ever on a surrogate pair. *)
Theorem C19_always_returns_refuted :
  segment (set_FO new_tpdu 3) [0] seg_cfg_default = Panic /\
  exists t msg, tpdu_type t = SmsSubmit /\ utf16_whole msg /\ udhl (ies (UDH t)) = 132 /\
    segment t msg seg_cfg_default = Diverge.
Proof.
  split; [vm_compute; reflexivity|].
  exists (set_udh (submit_template 8) (Some [{| ie_id := 36; ie_data := repeat 0 130 |}])),
    [216; 61; 222; 0; 216; 61; 222; 0; 0; 97].
  split; [reflexivity|]. split; [|split; vm_compute; reflexivity].
  exists [128512; 128512; 97], [55357; 56832; 55357; 56832; 97]. split.
  - change [55357; 56832; 55357; 56832; 97] with ([55296 + 61; 56320 + 512] ++ [55296 + 61; 56320 + 512] ++ [97] ++ []).
    change [128512; 128512; 97] with [65536 + 1024 * 61 + 512; 65536 + 1024 * 61 + 512; 97].
    constructor; [constructor; lia|]. constructor; [constructor; lia|].
    constructor; [constructor; [unfold scalar|]; lia|constructor].
  - repeat (constructor; try lia).
Qed.
Print Assumptions C19_always_returns_refuted.

(** Exactly: Segment returns for every message if and only if the template with
    the concatenation element added has room for the alphabet's largest unit. *)
Theorem C19_returns_iff_room_partial : forall t cfg,
  (forall msg, exists segs, segment t msg cfg = Ok segs) <->
  largest_unit (dcs_alpha (DCS t)) <=
    ud_block_size (set_udh t (Some (ies (UDH t) ++ [new_ie (sc_wide cfg) 0 0 0]))).
Proof.
  intros t cfg. rewrite multi_block. split.
  - intros H. destruct (Z.le_gt_cases (largest_unit (dcs_alpha (DCS t))) (multi_size t (sc_wide cfg)))
      as [L|L]; [exact L|].
    destruct (segment_fails t cfg L) as (msg & _ & HF). destruct (H msg) as (segs & HS).
    now apply HF in HS.
  - intros H msg. apply segment_total. now left.
Qed.
Print Assumptions C19_returns_iff_room_partial.
(** In particular for every supported type with a header of at most 119 octets. *)
Theorem C19_returns_partial : forall t msg cfg,
  0 <= tpdu_type t <= SmsCommand -> udhl (ies (UDH t)) <= 119 ->
  exists segs, segment t msg cfg = Ok segs.
Proof.
  intros t msg cfg [H0 H1] H. apply segment_total. left.
  pose proof (multi_size_room t (sc_wide cfg) H1 H0 H).
  pose proof (largest_unit_4 (dcs_alpha (DCS t))). lia.
Qed.
Print Assumptions C19_returns_partial.

(** Concrete cases meeting the hypotheses: a 7-bit message whose euro sign falls
    on the boundary, a UCS-2 message whose surrogate pair does, and counters. *)
Definition euro_msg : bytes := repeat 97 152 ++ [27; 101] ++ repeat 97 20.
Example C13_C18_instance_7bit : exists s1 s2,
  segment (submit_template 0) euro_msg
    {| sc_wide := true; sc_cr := Some (fun _ => 70000); sc_mr := Some (fun k => 255 + Z.of_nat k) |}
    = Ok [s1; s2] /\
  UD s1 = repeat 97 152 /\ UD s2 = [27; 101] ++ repeat 97 20 /\
  tpdu_concat_info s1 = Some (2, 1, 4464) /\ MR s1 = 255 /\ MR s2 = 0 /\
  ud_block_size s1 = 152 /\ is_complete_message [s1; s2] = true.
Proof. eexists _, _. split; [vm_compute; reflexivity|]. repeat split; vm_compute; reflexivity. Qed.
Example C14_instance_whole : gsm7_whole euro_msg /\
  division gsm7_pairs 153 euro_msg [repeat 97 152; [27; 101] ++ repeat 97 20].
Proof.
  assert (H : forall n, gsm7_whole (repeat 97 n)).
  { intros n. exists (repeat [97] n). split.
    - apply Forall_forall. intros x Hx. apply repeat_spec in Hx as ->. exists 97. split; [lia|now left].
    - induction n; cbn; [reflexivity|now f_equal]. }
  assert (HE : gsm7_whole ([27; 101] ++ repeat 97 20)).
  { destruct (H 20%nat) as (us & HF & E). exists ([27; 101] :: us). split; [|cbn [concat]; now rewrite E].
    constructor; [|exact HF]. exists 101. split; [lia|now right]. }
  assert (HP : forall s, gsm7_whole s -> gsm7_pairs s).
  { intros s (us & HF & E). exists us. split; [|exact E]. eapply Forall_impl; [|exact HF].
    intros u (c & Hc & [-> | ->]); [left|right]; eauto. }
  split.
  - destruct (H 152%nat) as (u1 & F1 & E1). destruct HE as (u2 & F2 & E2).
    exists (u1 ++ u2). split; [now apply Forall_app|]. now rewrite concat_app, E1, E2.
  - split; [reflexivity|]. constructor; [|constructor; [|constructor]].
    + split; [apply HP, H|]. rewrite repeat_length. lia.
    + split; [apply HP, HE|]. cbn. lia.
Qed.
Example C14_instance_ucs2 : exists s1 s2,
  segment (submit_template 8) (concat (repeat [0; 97] 66) ++ [216; 61; 222; 0] ++ [0; 97; 0; 98; 0; 99])
    seg_cfg_default = Ok [s1; s2] /\
  len (UD s1) = 132 /\ UD s2 = [216; 61; 222; 0; 0; 97; 0; 98; 0; 99].
Proof. eexists _, _. split; [vm_compute; reflexivity|]. split; vm_compute; reflexivity. Qed.
Example C18_instance_full : exists body s,
  segment (submit_template 0) (repeat 97 160) seg_cfg_default = Ok [s] /\
  encode_ud s = Ok (160 :: body) /\ len body = 140.
Proof. eexists _, _. split; [vm_compute; reflexivity|]. split; vm_compute; reflexivity. Qed.
