(** C42 - C45, C49, C50: the top-level package and smscounter. *)
From Verif Require Import GoBase GoLemmas SafeLemmas Utf Ucs2 UtfProofs SpecText SpecSegment Charset Gsm7 Dcs
  FirstOctet UserData Tpdu Segment SegmentProofs SegmentFitProofs SpecSegTpdu Sms SpecSelect SpecDcs UserDataProofs
  FlagsProofs SpecSms SmsProofs EncodeProofs CountProofs Cmd.

(** ** C42 *)

(** Any division at 2-octet boundaries decodes as the whole does, whatever the
    octets are. *)
Theorem C42_split_insensitive : forall segs whole opts,
  Forall (fun s => tpdu_alphabet s = Ok AlphaUCS2 /\ Forall is_byte (UD s) /\ len (UD s) mod 2 = 0) segs ->
  tpdu_alphabet whole = Ok AlphaUCS2 -> UD whole = concat (map UD segs) ->
  decode (map Some segs) opts = decode [Some whole] opts.
Proof.
  intros segs whole opts HF HA HU. unfold decode. set (o := match opts with [] => _ | _ => _ end).
  rewrite (proj1 (decode_loop_ucs2 o segs HF)).
  change [Some whole] with (map Some [whole]). rewrite (proj1 (decode_loop_ucs2 o [whole] ltac:(
    constructor; [|constructor]; split; [exact HA|]; rewrite HU; clear - HF;
    induction HF as [|s segs (_ & HB & HE) _ [IH1 IH2]]; [split; [constructor|reflexivity]|];
    cbn [map concat]; split; [now apply Forall_app|]; rewrite len_app; lia))).
  cbn [map concat]. now rewrite app_nil_r, HU.
Qed.
Print Assumptions C42_split_insensitive.

(** A well-formed message gives its text. *)
Theorem C42_text : forall segs rs text opts,
  Forall (fun s => tpdu_alphabet s = Ok AlphaUCS2 /\ len (UD s) mod 2 = 0) segs ->
  utf16be rs (concat (map UD segs)) -> utf8_text rs text ->
  decode (map Some segs) opts = Ok text.
Proof.
  intros segs rs text opts HF HW HT.
  assert (HF' : Forall ucs2_tpdu segs).
  { apply Forall_forall. intros s Hs. rewrite Forall_forall in HF. destruct (HF s Hs) as [HA HE].
    split; [exact HA|]. split; [|exact HE]. apply utf16be_bytes in HW. rewrite Forall_forall in *.
    intros x Hx. apply HW, in_concat. exists (UD s). split; [now apply in_map|exact Hx]. }
  unfold decode. rewrite (proj1 (decode_loop_ucs2 _ segs HF')). unfold u2_outcome.
  pose proof (ucs2_decode_text _ _ HW) as E. rewrite ucs2_decode_loop in E by (eapply utf16be_len; exact HW).
  rewrite E. cbn [u2_err u2_runes]. f_equal. symmetry. now apply utf8_text_fun.
Qed.
Print Assumptions C42_text.

(** A message that ends in half a surrogate pair is an error. *)
Theorem C42_dangling : forall segs rs a h l opts,
  Forall (fun s => tpdu_alphabet s = Ok AlphaUCS2 /\ len (UD s) mod 2 = 0) segs ->
  concat (map UD segs) = a ++ [h; l] -> utf16be rs a ->
  0 <= l < 256 -> 55296 <= 256 * h + l < 57344 ->
  decode (map Some segs) opts = Err (Ucs2DanglingSurrogate [h; l]).
Proof.
  intros segs rs a h l opts HF HC HW Hl HS.
  assert (HB : Forall is_byte (concat (map UD segs))).
  { rewrite HC. apply Forall_app. split; [eapply utf16be_bytes; exact HW|].
    constructor; [|constructor; [|constructor]]; unfold is_byte; lia. }
  assert (HF' : Forall ucs2_tpdu segs).
  { apply Forall_forall. intros s Hs. rewrite Forall_forall in HF. destruct (HF s Hs) as [HA HE].
    split; [exact HA|]. split; [|exact HE]. rewrite Forall_forall in *.
    intros x Hx. apply HB, in_concat. exists (UD s). split; [now apply in_map|exact Hx]. }
  unfold decode. rewrite (proj1 (decode_loop_ucs2 _ segs HF')), HC.
  pose proof (utf16be_len _ _ HW) as HE. pose proof (ucs2_decode_text _ _ HW) as E.
  rewrite ucs2_decode_loop in E by exact HE.
  rewrite ucs2_loop_app by (try rewrite E; auto). unfold u2_outcome. cbn [u2_err ucs2_loop].
  assert (is_surrogate (h * 256 + l) = true) as ->; [|reflexivity].
  unfold is_surrogate, in_range. lia.
Qed.
Print Assumptions C42_dangling.

(** Three TPDUs dividing "a", U+1F600, "b" inside the surrogate pair. *)
Definition ucs2_part (ud : bytes) : tpdu := set_UDf (set_DCSf plain_submit 8) ud.
Example C42_instance :
  decode (map Some [ucs2_part [0; 97; 216; 61]; ucs2_part [222; 0]; ucs2_part [0; 98]]) [] =
    Ok [97; 240; 159; 152; 128; 98] /\
  decode (map Some [ucs2_part [0; 97; 216; 61]]) [] = Err (Ucs2DanglingSurrogate [216; 61]) /\
  Forall (fun s => tpdu_alphabet s = Ok AlphaUCS2 /\ len (UD s) mod 2 = 0)
    [ucs2_part [0; 97; 216; 61]; ucs2_part [222; 0]; ucs2_part [0; 98]] /\
  utf16be [97; 128512; 98] [0; 97; 216; 61; 222; 0; 0; 98].
Proof.
  split; [vm_compute; reflexivity|]. split; [vm_compute; reflexivity|]. split.
  - repeat (constructor; [split; vm_compute; reflexivity|]). constructor.
  - exists [97; 55357; 56832; 98]. split; [|repeat (constructor; try lia)].
    change [97; 55357; 56832; 98] with ([97] ++ [55296 + 61; 56320 + 512] ++ [98] ++ []).
    change [97; 128512; 98] with [97; 65536 + 1024 * 61 + 512; 98].
    constructor; [constructor; [unfold scalar|]; lia|]. constructor; [constructor; lia|].
    constructor; [constructor; [unfold scalar|]; lia|constructor].
Qed.

(** ** C43 *)

(** The k-th TPDU of a session (over all its messages) has reference
    MsgCount + 1 + k modulo 256; the j-th multi-part message has concatenation
    reference ConcatRef + 1 + j modulo 256 in every part; the counters end
    advanced by the number of TPDUs and of multi-part messages. *)
Theorem C43_references : forall e calls tpdus e',
  - 2 ^ 63 <= e_msg_count e < 2 ^ 63 -> - 2 ^ 63 <= e_concat_ref e < 2 ^ 63 ->
  session e calls = (tpdus, e') ->
  (forall k s, nth_error (concat tpdus) k = Some s -> MR s = (e_msg_count e + 1 + Z.of_nat k) mod 256) /\
  (forall j segs, nth_error (filter multi_part tpdus) j = Some segs ->
     forall k s, nth_error segs k = Some s -> exists l, UDH s = Some (l ++
     [{| ie_id := 0;
         ie_data := [(e_concat_ref e + 1 + Z.of_nat j) mod 256; len segs mod 256; (Z.of_nat k + 1) mod 256] |}])) /\
  (e_msg_count e' - (e_msg_count e + len (concat tpdus))) mod 2 ^ 64 = 0 /\
  (e_concat_ref e' - (e_concat_ref e + len (filter multi_part tpdus))) mod 2 ^ 64 = 0.
Proof.
  intros e calls tpdus e' H1 H2 H.
  destruct (session_counters calls e tpdus e' (conj (wrap64_id _ H1) (wrap64_id _ H2)) H) as (I1 & I2 & I3 & I4).
  split; [exact I1|]. split; [exact I2|]. rewrite I3, I4.
  destruct (wrap64_eq (e_msg_count e + len (concat tpdus))) as [a ->].
  destruct (wrap64_eq (e_concat_ref e + len (filter multi_part tpdus))) as [b ->].
  split.
  - replace (_ - _) with (a * 2 ^ 64) by lia. apply Z.mod_mul. lia.
  - replace (_ - _) with (b * 2 ^ 64) by lia. apply Z.mod_mul. lia.
Qed.
Print Assumptions C43_references.

(** Threads sharing a counter get distinct values, in any interleaving, until
    the counter has gone round. *)
Theorem C43_distinct : forall c sched i j th1 th2 v1 v2,
  len sched <= 2 ^ 64 -> i <> j ->
  nth_error (counts c sched) i = Some (th1, v1) -> nth_error (counts c sched) j = Some (th2, v2) ->
  v1 <> v2.
Proof.
  intros c sched i j th1 th2 v1 v2 HL HN Hi Hj E. subst v2.
  assert (HX : forall k th v, nth_error (counts c sched) k = Some (th, v) ->
    v = wrap64 (c + 1 + Z.of_nat k) /\ 0 <= Z.of_nat k < 2 ^ 64).
  { intros k th v Hk. assert (k < length sched)%nat as L.
    { rewrite <- (counts_length sched c). apply nth_error_Some. congruence. }
    destruct (nth_error sched k) as [th'|] eqn:E; [|apply nth_error_None in E; lia].
    rewrite (counts_nth _ _ _ _ E) in Hk. injection Hk as _ <-. split; [reflexivity|]. unfold len in HL. lia. }
  destruct (HX _ _ _ Hi) as [E1 B1]. destruct (HX _ _ _ Hj) as [E2 B2].
  rewrite E1 in E2. apply wrap64_inj in E2; lia.
Qed.
Print Assumptions C43_distinct.
(** What a thread that gets the k-th value does with it is covered by C16 and
    C17, which hold for every sequence of counter values. *)

(** Two messages, the second in two parts, from an encoder near wrap-around. *)
Definition ex_encoder : sms_encoder :=
  {| e_eopts := []; e_pdu := plain_submit; e_msg_count := 254; e_concat_ref := 255 |}.
Example C43_instance : exists a b c e',
  session ex_encoder [([104; 105], []); ([104], [EoTemplateOption (OptDCS 128)]); (repeat 97 161, [])]
    = ([[a]; [b; c]], e') /\
  map MR [a; b; c] = [255; 0; 1] /\ e_msg_count e' = 257 /\ e_concat_ref e' = 256 /\
  map tpdu_concat_info [a; b; c] = [None; Some (2, 1, 0); Some (2, 2, 0)] /\
  counts 9 [0; 1; 1; 0]%nat = [(0%nat, 10); (1%nat, 11); (1%nat, 12); (0%nat, 13)].
Proof. eexists _, _, _, _. split; [vm_compute; reflexivity|]. repeat split; vm_compute; reflexivity. Qed.

(** ** C44 *)
Theorem C44_is_complete_message : forall pdus, is_complete_message pdus = true <-> complete pdus.
Proof. exact is_complete_iff. Qed.
Print Assumptions C44_is_complete_message.

(** What ConcatInfo reports: the contents of the last element 0, if it has
    three octets, else of the last element 8, if it has four. *)
Theorem C44_concat_info : forall t,
  tpdu_concat_info t =
  match last_ie 0 (ies (UDH t)), last_ie 8 (ies (UDH t)) with
  | Some [r; n; q], _ => Some (n, q, r)
  | _, Some [h; l; n; q] => Some (n, q, 256 * h + l)
  | _, _ => None
  end.
Proof.
  intros t. unfold tpdu_concat_info. rewrite concat_info_last. reflexivity.
Qed.
Print Assumptions C44_concat_info.

Definition part (ref n q : Z) : tpdu := set_UDHf plain_submit (Some [new_ie8 ref n q]).
Example C44_instance :
  complete [part 7 3 1; part 7 3 2; part 7 3 3] /\ ~ complete [part 7 3 1; part 7 3 3; part 7 3 2] /\
  ~ complete [part 7 3 1; part 8 3 2; part 7 3 3] /\ complete [plain_submit] /\ ~ complete [] /\
  ~ complete [plain_submit; plain_submit] /\ ~ complete [part 7 2 1] /\ complete [part 7 1 1].
Proof. rewrite <- !is_complete_iff. repeat split; vm_compute; congruence. Qed.

(** ** C45 *)

(** Encode can fail only with ErrDcsConflict, and does so exactly when the
    alphabet needed cannot be expressed in the coding group of the DCS. *)
Theorem C45_conflict : forall e msg opts,
  let tmpl := e_pdu (with_options e opts) in
  let charsets := e_eopts (with_options e opts) in
  is_byte (DCS tmpl) ->
  (forall err, encoder_encode e msg opts = Err err -> err = ErrDcsConflict) /\
  (encoder_encode e msg opts = Err ErrDcsConflict <->
   alphabet_expressible (coding_group (DCS tmpl)) (needed_alphabet (DCS tmpl) msg charsets) = false).
Proof.
  intros e msg opts tmpl charsets HB.
  pose proof (prepare_cases (with_options e opts) msg HB) as HP. fold tmpl charsets in HP.
  unfold encoder_encode. fold (with_options e opts).
  assert (HSeg : forall t d err, (pdus <- segment t d (encoder_seg_cfg (with_options e opts));;
            Ok (pdus, advance e pdus)) <> Err err).
  { intros t d err. pose proof (segment_not_err t d (encoder_seg_cfg (with_options e opts))) as HN.
    destruct (segment _ _ _) as [x|e0| |]; cbn [bind]; try discriminate. intros X. now apply (HN e0). }
  assert (HG : given_encoded (DCS tmpl) = true ->
    alphabet_expressible (coding_group (DCS tmpl)) (needed_alphabet (DCS tmpl) msg charsets) = true).
  { clear - HB. intros HG. unfold given_encoded, needed_alphabet in *.
    assert (C : match alphabet_of (DCS tmpl) with
                | Some 1 => alphabet_expressible (coding_group (DCS tmpl)) 1
                | Some 2 => alphabet_expressible (coding_group (DCS tmpl)) 2
                | _ => true end = true).
    { apply (zrange_sweep 256 (fun d => match alphabet_of d with
        | Some 1 => alphabet_expressible (coding_group d) 1
        | Some 2 => alphabet_expressible (coding_group d) 2 | _ => true end)); [vm_compute; reflexivity|exact HB]. }
    destruct (alphabet_of _) as [[|[p|p|]|p]|]; try discriminate; try exact C; destruct p; try discriminate; exact C. }
  destruct (given_encoded (DCS tmpl)) eqn:EG.
  - rewrite HP. cbn [bind]. specialize (HG eq_refl). rewrite HG. split.
    + intros err H. now apply HSeg in H.
    + split; [intros H; now apply HSeg in H|discriminate].
  - assert (needed_alphabet (DCS tmpl) msg charsets = choice_alpha (choose msg charsets)) as ->.
    { unfold needed_alphabet, choice_alpha. unfold given_encoded in EG.
      destruct (alphabet_of _) as [[|[p|p|]|p]|]; try discriminate EG; try reflexivity;
        destruct p; try discriminate EG; reflexivity. }
    destruct (encode_user_data msg charsets) as [[ud h] a]. destruct HP as [_ HP].
    destruct (alphabet_expressible _ _).
    + destruct HP as (t & -> & _). cbn [bind]. split.
      * intros err H. now apply HSeg in H.
      * split; [intros H; now apply HSeg in H|discriminate].
    + rewrite HP. cbn [bind]. split; [|tauto]. intros err H. congruence.
Qed.
Print Assumptions C45_conflict.

(** The TPDUs carry the message in the alphabet needed, which their DCS
    reports; the rest of the DCS is the template's. *)
Theorem C45_honoured : forall e msg opts segs e',
  let tmpl := e_pdu (with_options e opts) in
  let charsets := e_eopts (with_options e opts) in
  is_byte (DCS tmpl) -> encoder_encode e msg opts = Ok (segs, e') ->
  (forall s, In s segs ->
     tpdu_alphabet s = Ok (needed_alphabet (DCS tmpl) msg charsets) /\
     same_bits_except [2; 3] (DCS tmpl) (DCS s)) /\
  if given_encoded (DCS tmpl)
  then concat (map UD segs) = msg /\ (forall s, In s segs -> DCS s = DCS tmpl)
  else exists h, ud_choice msg (choose msg charsets)
         (concat (map UD segs), h, needed_alphabet (DCS tmpl) msg charsets).
Proof.
  intros e msg opts segs e' tmpl charsets HB H.
  destruct (encoder_encode_ok _ _ _ _ _ H) as (t & ud & HPr & HS & _).
  pose proof (prepare_cases (with_options e opts) msg HB) as HP. fold tmpl charsets in HP.
  destruct (segment_lossless _ _ _ _ HS) as (HL & _).
  assert (HD : forall s, In s segs -> DCS s = DCS t).
  { intros s Hs. apply In_nth_error in Hs as (k & Hk). pose proof (segment_inherits _ _ _ _ HS k s Hk) as HI.
    unfold inherits in HI. tauto. }
  destruct (given_encoded (DCS tmpl)) eqn:EG.
  - rewrite HP in HPr. apply ok_pair in HPr as [<- <-]. fold tmpl in HD. split; [|split; assumption].
    intros s Hs. rewrite (HD s Hs). split; [|now intros n _].
    unfold tpdu_alphabet. rewrite (HD s Hs), (alphabet_meaning _ HB). unfold needed_alphabet, given_encoded in *.
    destruct (alphabet_of _) as [[|[p|p|]|p]|]; try discriminate EG; try reflexivity;
      destruct p; try discriminate EG; reflexivity.
  - assert (needed_alphabet (DCS tmpl) msg charsets = choice_alpha (choose msg charsets)) as ->.
    { unfold needed_alphabet, choice_alpha. unfold given_encoded in EG.
      destruct (alphabet_of _) as [[|[p|p|]|p]|]; try discriminate EG; try reflexivity;
        destruct p; try discriminate EG; reflexivity. }
    destruct (encode_user_data msg charsets) as [[ud' h] a]. destruct HP as [HC HP].
    destruct (alphabet_expressible _ _); [|congruence].
    destruct HP as (t' & E & HA & HB' & HSame & _). rewrite E in HPr. apply ok_pair in HPr as [-> ->].
    split.
    + intros s Hs. unfold tpdu_alphabet. rewrite (HD s Hs). split; [|exact HSame].
      rewrite (alphabet_meaning _ HB'), HA. reflexivity.
    + exists h. rewrite HL. rewrite <- (ud_choice_alpha _ _ _ _ _ HC). exact HC.
Qed.
Print Assumptions C45_honoured.

(** Class 1 kept when switching to UCS-2; conflicts in the waiting-7-bit group
    and in the reserved group. *)
Example C45_instance :
  (exists s e', encoder_encode ex_encoder [226; 130; 172; 208; 150] [EoTemplateOption (OptDCS 17)] = Ok ([s], e') /\
     DCS s = 25 /\ UD s = [32; 172; 4; 22]) /\
  encoder_encode ex_encoder [208; 150] [EoTemplateOption (OptDCS 192)] = Err ErrDcsConflict /\
  encoder_encode ex_encoder [97] [EoTemplateOption (OptDCS 128)] = Err ErrDcsConflict.
Proof.
  split; [|split; vm_compute; reflexivity].
  eexists _, _. split; [vm_compute; reflexivity|]. split; reflexivity.
Qed.

(** ** C49 *)

(** False: a header in the template is dropped when the message needs a
    national language table. *)
Definition port_ie : ie := {| ie_id := 5; ie_data := [11; 132; 35; 240] |}.
Theorem C49_template_header_refuted : exists tmpl msg s,
  UDH tmpl = Some [port_ie] /\ fo_udhi (FO tmpl) = true /\
  encode msg [EoTemplate tmpl; EoCharset (OptCharset [1])] = Ok [s] /\
  ~ In port_ie (ies (UDH s)).
Proof.
  exists (set_udh plain_submit (Some [port_ie])), [196; 177]. eexists. split; [reflexivity|].
  split; [reflexivity|]. split; [vm_compute; reflexivity|].
  cbn. intros [X|[]]. discriminate X.
Qed.
Print Assumptions C49_template_header_refuted.

(** What holds: the header of each TPDU starts with the template's, unless
    national language tables are used, when it starts with their elements
    alone; only a concatenation element may follow. *)
Theorem C49_template_header_partial : forall e msg opts segs e',
  let tmpl := e_pdu (with_options e opts) in
  let charsets := e_eopts (with_options e opts) in
  is_byte (DCS tmpl) -> encoder_encode e msg opts = Ok (segs, e') ->
  forall s, In s segs -> exists base last,
    ies (UDH s) = base ++ last /\ (last = [] \/ exists i, last = [i] /\ ie_id i = 0) /\
    (last = [] <-> length segs = 1%nat) /\
    if national (DCS tmpl) msg charsets
    then map (fun i => (ie_id i, ie_data i)) base = choice_header (choose msg charsets)
    else base = ies (UDH tmpl).
Proof.
  intros e msg opts segs e' tmpl charsets HB H s Hs.
  destruct (encoder_encode_ok _ _ _ _ _ H) as (t & ud & HPr & HS & _).
  pose proof (prepare_cases (with_options e opts) msg HB) as HP. fold tmpl charsets in HP.
  assert (HU : if national (DCS tmpl) msg charsets
    then map (fun i => (ie_id i, ie_data i)) (ies (UDH t)) = choice_header (choose msg charsets)
    else ies (UDH t) = ies (UDH tmpl)).
  { unfold national. destruct (given_encoded (DCS tmpl)); cbn [negb andb].
    - rewrite HP in HPr. apply ok_pair in HPr as [<- <-]. reflexivity.
    - destruct (encode_user_data msg charsets) as [[ud' h] a] eqn:EU. destruct HP as [HC HP].
      destruct (alphabet_expressible _ _); [|congruence].
      destruct HP as (t' & E & _ & _ & _ & HU & _). rewrite E in HPr. apply ok_pair in HPr as [-> ->].
      rewrite HU. destruct HC as [HC _].
      assert (HNil : choice_header (choose msg charsets) = [] -> h = None).
      { intros E0. rewrite E0 in HC. apply map_eq_nil in HC. eapply encode_header_nil; eauto. }
      destruct (choose msg charsets); cbn [choice_header] in *;
        try (rewrite HNil by reflexivity; reflexivity);
        (destruct h; [exact HC|discriminate HC]). }
  apply In_nth_error in Hs as (k & Hk). pose proof (segment_inherits _ _ _ _ HS k s Hk) as HI.
  destruct (segment_lossless _ _ _ _ HS) as (_ & _ & HN).
  assert (HNE : (length segs <> 0)%nat) by (intros E; destruct segs; [destruct k; discriminate|discriminate]).
  unfold inherits in HI. destruct HI as (_ & _ & _ & _ & _ & _ & _ & _ & _ & _ & _ & _ & _ & _ & HI).
  destruct (len ud <=? ud_block_size t) eqn:EL.
  - destruct HI as (_ & _ & HI). exists (ies (UDH t)), []. rewrite HI, app_nil_r.
    split; [reflexivity|]. split; [now left|]. split; [|exact HU].
    assert (length segs <= 1)%nat by (apply HN; left; lia). split; [lia|reflexivity].
  - destruct HI as (_ & _ & i & HI & HX). cbn [encoder_seg_cfg sc_wide] in HX.
    exists (ies (UDH t)), [i]. rewrite HI. split; [reflexivity|].
    split; [right; exists i; tauto|]. split; [|exact HU].
    split; [discriminate|]. intros E. exfalso.
    assert (ud <> []) as NE.
    { intros ->. rewrite len_nil in EL. cbn in HS. unfold segment in HS. cbn in HS.
      injection HS as <-. now apply HNE. }
    assert (length segs <= 1)%nat as L by lia. apply HN in L as [L|L]; [lia|contradiction].
Qed.
Print Assumptions C49_template_header_partial.

Example C49_instance : exists a b e',
  encoder_encode {| e_eopts := []; e_pdu := set_udh plain_submit (Some [port_ie]); e_msg_count := 0; e_concat_ref := 0 |}
    (repeat 97 155) [] = Ok ([a; b], e') /\
  UDH a = Some [port_ie; new_ie8 1 2 1] /\ UDH b = Some [port_ie; new_ie8 1 2 2] /\ len (UD b) = 9.
Proof. eexists _, _, _. split; [vm_compute; reflexivity|]. repeat split; vm_compute; reflexivity. Qed.

(** ** C50 *)

(** NewCount succeeds for every message that is not empty and every language
    number, and reports the TPDUs that Encode produces with that language. *)
Theorem C50_counts : forall msg nli, Forall is_byte msg -> msg <> [] ->
  exists pdus k, encode msg (count_opts nli) = Ok pdus /\ new_count msg nli = Ok k /\
    k_messages k = len pdus /\ 1 <= k_messages k /\ 1 <= k_llen k <= k_pdulen k /\
    k_remaining k = k_pdulen k - k_llen k /\
    real_length msg (language_opts nli) <= k_tlen k /\
    k_tlen k = k_pdulen k * (k_messages k - 1) + k_llen k /\
    (k_messages k = 1 -> k_tlen k = real_length msg (language_opts nli)) /\
    k_encoding k = encoding_name msg (language_opts nli).
Proof. exact new_count_spec. Qed.
Print Assumptions C50_counts.

(** The empty message makes it panic, which is why the command rejects it. *)
Theorem C50_empty : forall nli, new_count [] nli = Panic.
Proof. intros nli. unfold new_count. destruct (negb (nli =? 0)); vm_compute; reflexivity. Qed.
Print Assumptions C50_empty.

Example C50_instance :
  new_count (repeat 97 152 ++ [226; 130; 172] ++ repeat 97 20) 0 =
    Ok {| k_encoding := "7BIT_EX"; k_messages := 2; k_tlen := 175; k_llen := 22; k_pdulen := 153; k_remaining := 131 |} /\
  real_length (repeat 97 152 ++ [226; 130; 172] ++ repeat 97 20) [] = 174 /\
  new_count [208; 150; 240; 159; 152; 128] 3 =
    Ok {| k_encoding := "UCS-2"; k_messages := 1; k_tlen := 3; k_llen := 3; k_pdulen := 70; k_remaining := 67 |}.
Proof. repeat split; vm_compute; reflexivity. Qed.
