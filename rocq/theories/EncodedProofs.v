(** Lemmas for C82: what Encode returns is what [SpecEncode] describes. *)
From Verif Require Import GoBase GoLemmas SafeLemmas Utf UtfProofs SpecText SpecDcs Charset Gsm7 Dcs Ucs2 FirstOctet UserData UserDataProofs FlagsProofs
  Tpdu Segment Sms SmsProofs SpecSms SpecSelect SpecSegTpdu SpecBlocks BlocksProofs EncodeProofs SpecEncode SegmentProofs FlowProofs.

(** ** The characters *)
Lemma decode_rune_exact x s1 : Forall is_byte (x :: s1) ->
  (exists r b s', x :: s1 = b ++ s' /\ utf8_char r b) \/ decode_rune (x :: s1) = (rune_error, 1%nat).
Proof.
  intros HB. destruct (decode_rune_inv _ HB ltac:(discriminate)) as (r & n & D & HS & [HE|(b & s' & E & C & L)]); [|left; eauto].
  subst r. destruct n as [|n]; [now right|left]. pose proof (Forall_inv HB) as B0. pose proof (Forall_inv_tail HB) as HB1. unfold is_byte in *.
  cbn [decode_rune] in D. unfold in_range in D.
  destruct (x <? 128) eqn:E0; [discriminate|]. destruct ((194 <=? x) && (x <=? 223)) eqn:E1.
  { destruct s1 as [|b1 s2]; [discriminate|]. destruct ((128 <=? b1) && (b1 <=? 191)) eqn:E2; [|discriminate].
    exists (64 * (x - 192) + (b1 - 128)), [x; b1], s2. split; [reflexivity|].
    replace [x; b1] with [192 + (x - 192); 128 + (b1 - 128)] by (repeat f_equal; lia). apply u8_2; lia. }
  destruct ((224 <=? x) && (x <=? 239)) eqn:E2.
  { destruct s1 as [|b1 [|b2 s3]]; [discriminate|discriminate|]. cbv zeta in D.
    match type of D with context [if ?c then (_, 3%nat) else _] => destruct c eqn:E3 end; [|discriminate].
    exists (4096 * (x - 224) + 64 * (b1 - 128) + (b2 - 128)), [x; b1; b2], s3. split; [reflexivity|].
    replace [x; b1; b2] with [224 + (x - 224); 128 + (b1 - 128); 128 + (b2 - 128)] by (repeat f_equal; lia).
    unfold rune_error in D. apply u8_3; unfold scalar; destruct (x =? 224) eqn:?, (x =? 237) eqn:?; lia. }
  destruct ((240 <=? x) && (x <=? 244)) eqn:E3; [|discriminate].
  destruct s1 as [|b1 [|b2 [|b3 s4]]]; [discriminate|discriminate|discriminate|]. cbv zeta in D.
  match type of D with context [if ?c then (_, 4%nat) else _] => destruct c eqn:E4 end; [|discriminate].
  exists (262144 * (x - 240) + 4096 * (b1 - 128) + 64 * (b2 - 128) + (b3 - 128)), [x; b1; b2; b3], s4. split; [reflexivity|].
  replace [x; b1; b2; b3] with [240 + (x - 240); 128 + (b1 - 128); 128 + (b2 - 128); 128 + (b3 - 128)] by (repeat f_equal; lia).
  apply u8_4; destruct (x =? 240) eqn:?, (x =? 244) eqn:?; lia.
Qed.

Lemma runes_of_wrong x s : decode_rune (x :: s) = (rune_error, 1%nat) -> runes_of (x :: s) = rune_error :: runes_of s.
Proof.
  intros H. unfold runes_of. change (runes_skip 0 (x :: s)) with (let '(r, n) := decode_rune (x :: s) in r :: runes_skip (Nat.pred n) s).
  rewrite H. reflexivity.
Qed.

Lemma characters_runes msg rs : characters msg rs -> Forall is_byte msg -> runes_of msg = rs.
Proof.
  induction 1 as [|r b msg rs C H IH|x msg rs N H IH]; intros HB; [reflexivity| |].
  - rewrite (runes_of_char _ _ _ C). f_equal. apply IH. now apply Forall_app in HB.
  - destruct (decode_rune_exact x msg HB) as [(r & b & s' & E & C)|E]; [now destruct (N r b s' C)|].
    rewrite (runes_of_wrong _ _ E). unfold rune_error. f_equal. apply IH. exact (Forall_inv_tail HB).
Qed.

Lemma characters_exist msg : Forall is_byte msg -> characters msg (runes_of msg).
Proof.
  intros H. pattern msg. revert msg H. apply runes_of_strong; [constructor|]. intros s HB HN IH.
  destruct s as [|x s]; [contradiction|]. destruct (decode_rune_exact x s HB) as [(r & b & s' & E & C)|E].
  - rewrite E in *. rewrite (runes_of_char _ _ _ C). constructor; [exact C|]. apply IH; [|now apply Forall_app in HB].
    pose proof (utf8_char_nonempty _ _ C). destruct b; [contradiction|]. cbn [app length]. rewrite app_length. lia.
  - rewrite (runes_of_wrong _ _ E). constructor; [|apply IH; [cbn; lia|exact (Forall_inv_tail HB)]].
    intros r b more C Q. rewrite Q, (decode_rune_char _ _ _ C) in E. injection E as Er Eb.
    destruct C as [a Ha|a b Hb1 Hb2|a b c|a b c d]; try discriminate Eb. unfold rune_error in Er. lia.
Qed.

Lemma characters_iff msg rs : Forall is_byte msg -> (characters msg rs <-> runes_of msg = rs).
Proof. intros HB. split; [intros H; now apply characters_runes|intros <-; now apply characters_exist]. Qed.

(** ** Their form *)
Lemma septets_iff l s rs ud : septets l s rs ud <-> gsm7_encode_runes (gsm7_new_encoder (Some l) (Some s)) rs = Ok ud.
Proof.
  split.
  - induction 1 as [|r v rs ud A H IH|r v rs ud A B H IH]; [reflexivity| |]; cbn [gsm7_encode_runes gsm7_new_encoder ge_set ge_ext] in *.
    + now rewrite A, IH.
    + now rewrite A, B, IH.
  - revert ud. induction rs as [|r rs IH]; intros ud H; cbn [gsm7_encode_runes gsm7_new_encoder ge_set ge_ext] in H; [injection H as <-; constructor|].
    destruct (assoc (new_encoder l) r) as [v|] eqn:A.
    + apply bind_ok in H as (x & E & H). injection H as <-. constructor; [exact A|]. now apply IH.
    + destruct (assoc (new_ext_encoder s) r) as [v|] eqn:B; [|discriminate].
      apply bind_ok in H as (x & E & H). injection H as <-. apply sp_shift; [exact A|exact B|]. now apply IH.
Qed.

Lemma in_tables_iff l s msg : in_tables l s (runes_of msg) <-> encodable l s msg = true.
Proof.
  split.
  - intros (ud & H). apply septets_iff in H. destruct (encodable l s msg) eqn:E; [reflexivity|].
    rewrite encode_iff in E. unfold gsm7_encode in E. change (oenc l s) with (gsm7_new_encoder (Some l) (Some s)) in E. rewrite H in E. discriminate.
  - intros H. destruct (encodable_ok _ _ _ H) as (ud & E). exists ud. now apply septets_iff.
Qed.

Lemma first_find (P : Z -> Prop) f l n : (forall m, P m <-> f m = true) -> (first_with P n l <-> find f l = Some n).
Proof.
  intros HP. split.
  - intros (b & a & -> & Pn & Hb). induction Hb as [|x b Nx _ IH]; cbn [app find].
    + apply HP in Pn. now rewrite Pn.
    + destruct (f x) eqn:E; [|exact IH]. apply HP in E. contradiction.
  - induction l as [|x l IH]; [discriminate|]. cbn [find]. destruct (f x) eqn:E.
    + intros H. injection H as ->. exists [], l. split; [reflexivity|]. split; [now apply HP|constructor].
    + intros H. destruct (IH H) as (b & a & -> & Pn & Hb). exists (x :: b), a. split; [reflexivity|]. split; [exact Pn|].
      constructor; [|exact Hb]. intros Q. apply HP in Q. congruence.
Qed.
Lemma none_find (P : Z -> Prop) f l : (forall m, P m <-> f m = true) -> (none_with P l <-> find f l = None).
Proof.
  intros HP. unfold none_with. induction l as [|x l IH]; cbn [find]; [split; [reflexivity|constructor]|]. destruct (f x) eqn:E.
  - split; [|discriminate]. intros H. apply HP in E. now destruct (Forall_inv H).
  - rewrite <- IH. split; intros H; [exact (Forall_inv_tail H)|]. constructor; [|exact H]. intros Q. apply HP in Q. congruence.
Qed.

Lemma chosen_iff opts msg c : chosen opts (runes_of msg) c <-> choose msg opts = c.
Proof.
  pose proof (in_tables_iff 0 0 msg) as P0.
  assert (P1 : forall m, in_tables m 0 (runes_of msg) <-> encodable m 0 msg = true) by (intros; apply in_tables_iff).
  assert (P2 : forall m, in_tables 0 m (runes_of msg) <-> encodable 0 m msg = true) by (intros; apply in_tables_iff).
  assert (P3 : forall m, In m (registered false [] opts) /\ in_tables m m (runes_of msg) <->
    existsb (Z.eqb m) (registered false [] opts) && encodable m m msg = true).
  { intros m. rewrite in_tables_iff, andb_true_iff, existsb_exists. split; intros [A B]; (split; [|exact B]).
    - exists m. split; [exact A|lia].
    - destruct A as (y & A & E). apply Z.eqb_eq in E. now subst y. }
  unfold choose. split.
  - intros H. destruct H as [A|n A B|n A B C|n A B C D|A B C D];
      [apply P0 in A; now rewrite A|rewrite P0 in A; apply not_true_is_false in A; rewrite A..].
    + apply (first_find _ _ _ _ P1) in B. now rewrite B.
    + apply (none_find _ _ _ P1) in B. apply (first_find _ _ _ _ P2) in C. now rewrite B, C.
    + apply (none_find _ _ _ P1) in B. apply (none_find _ _ _ P2) in C. apply (first_find _ _ _ _ P3) in D. now rewrite B, C, D.
    + apply (none_find _ _ _ P1) in B. apply (none_find _ _ _ P2) in C. apply (none_find _ _ _ P3) in D. now rewrite B, C, D.
  - destruct (encodable 0 0 msg) eqn:A; [intros <-; constructor; now apply P0|].
    assert (A' : ~ in_tables 0 0 (runes_of msg)) by (rewrite P0; discriminate).
    destruct (find (fun n => encodable n 0 msg) _) as [n|] eqn:B.
    { intros <-. constructor; [exact A'|]. now apply (first_find _ _ _ _ P1). }
    apply (none_find _ _ _ P1) in B. destruct (find (fun n => encodable 0 n msg) _) as [n|] eqn:C.
    { intros <-. constructor; [exact A'|exact B|]. now apply (first_find _ _ _ _ P2). }
    apply (none_find _ _ _ P2) in C. destruct (find _ (registered true [] opts)) as [n|] eqn:D; intros <-.
    + apply ch_both; [exact A'|exact B|exact C|]. now apply (first_find _ _ _ _ P3).
    + apply ch_ucs2; [exact A'|exact B|exact C|]. now apply (none_find _ _ _ P3).
Qed.

Lemma text_in_iff msg c ud : Forall is_byte msg ->
  (text_in (runes_of msg) c ud <-> match choice_tables c with
     | Some (l, s) => gsm7_encode (gsm7_new_encoder (Some l) (Some s)) msg = Ok ud
     | None => ud = ucs2_encode (runes_of msg) end).
Proof.
  intros HB. split.
  - intros H. destruct H as [c l s ud E H|ud H]; [rewrite E; now apply septets_iff in H|]. cbn [choice_tables]. now apply utf16be_fun.
  - destruct (choice_tables c) as [[l s]|] eqn:E; intros H.
    + econstructor; [exact E|]. now apply septets_iff.
    + assert (c = ChUcs2) as -> by (destruct c; try discriminate; reflexivity). subst ud. constructor. now apply ucs2_encode_spec, runes_of_scalar.
Qed.

(** ** The template *)
Definition dcs_for_check (d a : Z) : bool :=
  negb (alphabet_expressible (coding_group d) a) || match dcs_with_alphabet d a with Ok d' => d' =? dcs_for d a | _ => false end.
Lemma dcs_for_computed d a : is_byte d -> 0 <= a <= 2 -> alphabet_expressible (coding_group d) a = true -> dcs_with_alphabet d a = Ok (dcs_for d a).
Proof.
  intros HB Ha E. assert (C : dcs_for_check d a = true) by (apply (zrange_sweep2 256 3); [vm_compute; reflexivity|exact HB|lia]).
  unfold dcs_for_check in C. rewrite E in C. cbn [negb orb] in C. destruct (dcs_with_alphabet d a) as [d'| | |]; try discriminate.
  apply Z.eqb_eq in C. now subst.
Qed.

Lemma header_of msg opts ud h a : encode_user_data msg opts = (ud, h, a) -> forall c, ud_choice msg c (ud, h, a) ->
  h = match map (fun p => {| ie_id := fst p; ie_data := snd p |}) (choice_header c) with [] => None | l => Some l end.
Proof.
  intros E c [H _]. assert (ies h = map (fun p => {| ie_id := fst p; ie_data := snd p |}) (choice_header c)) as HI.
  { rewrite <- H, map_map. rewrite <- (map_id (ies h)) at 1. apply map_ext. now intros []. }
  rewrite <- HI. destruct (ies h) as [|i l] eqn:EI; [now apply (encode_header_nil _ _ _ _ _ E)|]. destruct h as [h|]; [|discriminate]. cbn [ies] in EI. now subst.
Qed.

Definition given (d : Z) : bool := match alphabet_of d with Some 1 | Some 2 => true | _ => false end.
Lemma given_yes d : given d = true <-> exists a, alphabet_of d = Some a /\ (a = 1 \/ a = 2).
Proof.
  unfold given. split.
  - destruct (alphabet_of d) as [[|[p|p|]|p]|]; try discriminate; [destruct p; try discriminate|]; eauto.
  - intros (a & -> & [-> | ->]); reflexivity.
Qed.
Lemma given_no d : given d = false <-> forall a, alphabet_of d = Some a -> a <> 1 /\ a <> 2.
Proof.
  split.
  - intros H a E. split; intros ->; unfold given in H; rewrite E in H; discriminate.
  - intros H. destruct (given d) eqn:E; [|reflexivity]. apply given_yes in E as (a & E & X). destruct (H a E). lia.
Qed.

Lemma prepare_computed e msg : is_byte (DCS (e_pdu e)) ->
  encode_prepare e msg =
  if given (DCS (e_pdu e)) then Ok (e_pdu e, msg)
  else
    let c := choose msg (e_eopts e) in
    if alphabet_expressible (coding_group (DCS (e_pdu e))) (alphabet_for c)
    then Ok (template_for (e_pdu e) c, fst (fst (encode_user_data msg (e_eopts e))))
    else Err ErrDcsConflict.
Proof.
  intros HB. unfold encode_prepare. rewrite (dcs_alpha_spec _ HB). fold (given (DCS (e_pdu e))).
  destruct (given (DCS (e_pdu e))) eqn:G.
  { apply given_yes in G as (a & -> & [-> | ->]); reflexivity. }
  replace (match alphabet_of (DCS (e_pdu e)) with Some 1 => 1 | Some 2 => 2 | _ => 0 end) with 0
    by (unfold given in G; destruct (alphabet_of _) as [[|[p|p|]|p]|]; try discriminate; try reflexivity; destruct p; try discriminate; reflexivity).
  change ((0 =? Alpha8Bit) || (0 =? AlphaUCS2)) with false. cbv iota zeta.
  pose proof (encode_user_data_choice msg (e_eopts e)) as HC. destruct (encode_user_data msg (e_eopts e)) as [[ud h] a] eqn:EU.
  pose proof (header_of _ _ _ _ _ EU _ HC) as HH. pose proof (ud_choice_alpha _ _ _ _ _ HC) as HA. cbn [fst].
  change (choice_alpha (choose msg (e_eopts e))) with (alphabet_for (choose msg (e_eopts e))) in HA.
  set (c := choose msg (e_eopts e)) in *. clearbody c. subst a. assert (Ha : 0 <= alphabet_for c <= 2) by (destruct c; cbn; lia).
  pose proof (with_alphabet_spec _ _ HB Ha) as HW. destruct (alphabet_expressible _ _) eqn:EX; [|now rewrite HW].
  rewrite (dcs_for_computed _ _ HB Ha EX). do 2 f_equal. unfold template_for. rewrite HH. set (t := e_pdu e). set (d := dcs_for (DCS t) (alphabet_for c)).
  set (l := map (fun p => {| ie_id := fst p; ie_data := snd p |}) (choice_header c)). clearbody l. clearbody t. cbv zeta. destruct (d =? DCS t) eqn:ED; cbn [negb].
  - apply Z.eqb_eq in ED. rewrite Z.lor_0_r. destruct l; dtpdu t; cbn [set_udh set_UDHf set_PI set_FO FoUDHI PiUDL
      DCS UDH FO PI Direction OA FCS MR CT MN DA RA SCTS DT ST PID VP UD] in *; rewrite ED; reflexivity.
  - clearbody d. destruct l; dtpdu t; reflexivity.
Qed.

Lemma prepared_iff e msg t ud : is_byte (DCS (e_pdu e)) -> Forall is_byte msg ->
  (encode_prepare e msg = Ok (t, ud) <-> prepared (e_eopts e) (e_pdu e) msg t ud).
Proof.
  intros HB HM. rewrite (prepare_computed e msg HB). cbv zeta. pose proof (encode_user_data_choice msg (e_eopts e)) as HC.
  destruct (encode_user_data msg (e_eopts e)) as [[ud0 h] a]. cbn [fst]. destruct HC as [_ HC].
  assert (HU : forall ud, text_in (runes_of msg) (choose msg (e_eopts e)) ud <-> ud = ud0).
  { intros u. rewrite (text_in_iff msg _ u HM). destruct (choice_tables _) as [[l s]|]; destruct HC as [_ HC]; rewrite HC; [|tauto].
    split; [intros H; now apply ok_inj in H|now intros ->]. }
  split.
  - destruct (given _) eqn:G.
    + intros H. apply ok_pair in H as [<- <-]. apply given_yes in G as (a' & E & X). now apply (pr_given _ _ _ a').
    + destruct (alphabet_expressible _ _) eqn:EX; [|discriminate]. intros H. apply ok_pair in H as [<- <-].
      apply (pr_text _ _ _ (runes_of msg)); [now apply given_no|now apply characters_exist|now apply chosen_iff|exact EX|now apply HU].
  - intros H. destruct H as [a' E X|rs c ud N C1 C2 EX T].
    + assert (given (DCS (e_pdu e)) = true) as -> by (apply given_yes; eauto). reflexivity.
    + apply given_no in N. rewrite N. apply (characters_iff _ _ HM) in C1. subst rs. apply chosen_iff in C2. subst c. rewrite EX.
      apply HU in T. now subst.
Qed.

Lemma conflict_iff e msg er : is_byte (DCS (e_pdu e)) -> Forall is_byte msg ->
  (encode_prepare e msg = Err er <-> er = ErrDcsConflict /\ conflict (e_eopts e) (e_pdu e) msg).
Proof.
  intros HB HM. rewrite (prepare_computed e msg HB). cbv zeta. split.
  - destruct (given _) eqn:G; [discriminate|]. destruct (alphabet_expressible _ _) eqn:EX; [discriminate|]. intros H. split; [congruence|].
    apply (cf_text _ _ _ (runes_of msg) (choose msg (e_eopts e))); [now apply given_no|now apply characters_exist|now apply chosen_iff|exact EX].
  - intros [-> H]. destruct H as [rs c N C1 C2 EX]. apply given_no in N. rewrite N. apply (characters_iff _ _ HM) in C1. subst rs.
    apply chosen_iff in C2. subst c. now rewrite EX.
Qed.

(** ** The numbers *)
Definition same_numbers (cfg cfg' : seg_cfg) : Prop :=
  sc_wide cfg = false /\ sc_wide cfg' = false /\
  exists f g f' g', sc_cr cfg = Some f /\ sc_cr cfg' = Some f' /\ sc_mr cfg = Some g /\ sc_mr cfg' = Some g' /\
    f 0%nat mod 256 = f' 0%nat mod 256 /\ forall k, g k mod 256 = g' k mod 256.
Lemma inherits_numbers t cfg cfg' m k s : same_numbers cfg cfg' -> inherits t cfg m k s ->
  forall m', match m, m' with None, None => True | Some (r, n), Some (r', n') => r mod 256 = r' mod 256 /\ n = n' | _, _ => False end ->
  inherits t cfg' m' k s.
Proof.
  intros (W & W' & f & g & f' & g' & E1 & E2 & E3 & E4 & E5 & E6) H m' HM. unfold inherits in *. rewrite W, E3 in H. rewrite W', E4, <- E6.
  destruct m as [[r n]|], m' as [[r' n']|]; try contradiction; [|exact H]. destruct HM as [HR <-]. rewrite <- HR. exact H.
Qed.
Lemma segmented_numbers mo t cfg cfg' msg segs : same_numbers cfg cfg' -> segmented mo t cfg msg segs -> segmented mo t cfg' msg segs.
Proof.
  intros HS H. pose proof HS as (W & W' & f & g & f' & g' & E1 & E2 & E3 & E4 & E5 & E6).
  destruct H as [|msg s NE L HI HU|msg bs segs ref L HB HR HM HI]; [constructor| |].
  - apply sg_one; auto. now apply (inherits_numbers _ _ _ _ _ _ HS HI).
  - rewrite W in HB. apply (sg_many mo t cfg' msg bs segs (f' 0%nat)); [exact L|now rewrite W'|now rewrite E2|exact HM|].
    intros k s Hk. apply (inherits_numbers _ _ _ _ _ _ HS (HI k s Hk)). rewrite E1 in HR. subst ref. split; [exact E5|reflexivity].
Qed.
Lemma encoder_numbers e : same_numbers (encoder_seg_cfg e) (numbered (e_msg_count e) (e_concat_ref e)).
Proof.
  split; [reflexivity|]. split; [reflexivity|]. do 4 eexists. do 4 (split; [reflexivity|]). split.
  - rewrite counter_nth_eq, wrap64_mod256. f_equal. lia.
  - intros k. now rewrite counter_nth_eq, wrap64_mod256.
Qed.
Lemma same_numbers_sym cfg cfg' : same_numbers cfg cfg' -> same_numbers cfg' cfg.
Proof. intros (W & W' & f & g & f' & g' & E1 & E2 & E3 & E4 & E5 & E6). split; [exact W'|]. split; [exact W|]. exists f', g', f, g. repeat split; auto. Qed.

(** ** The TPDUs *)
Lemma prepared_fields opts t msg t' ud : is_byte (FO t) -> is_byte (DCS t) -> prepared opts t msg t' ud ->
  Direction t' = Direction t /\ is_byte (FO t') /\ is_byte (DCS t').
Proof.
  intros HF HB H. destruct H as [a E X|rs c ud N C1 C2 EX T]; [auto|]. split; [reflexivity|].
  assert (Ha : 0 <= alphabet_for c <= 2) by (destruct c; cbn; lia). cbn [template_for FO DCS]. split.
  - destruct (map _ _); [exact HF|]. now apply FlowProofs.lor64.
  - pose proof (with_alphabet_spec _ _ HB Ha) as W. rewrite EX in W. destruct W as (d & E & B & _). rewrite (dcs_for_computed _ _ HB Ha EX) in E. injection E as ->. exact B.
Qed.

Lemma options_counters opts e : e_msg_count (with_options e opts) = e_msg_count e /\ e_concat_ref (with_options e opts) = e_concat_ref e.
Proof.
  unfold with_options. revert e. induction opts as [|o opts IH]; intros e; [auto|]. cbn [fold_left]. destruct (IH (apply_encoder_opt e o)) as [-> ->].
  destruct o; cbn; auto.
Qed.

Lemma encoder_iff (mo : bool) e msg opts segs e' :
  Direction (e_pdu (with_options e opts)) = (if mo then 1 else 0) ->
  is_byte (FO (e_pdu (with_options e opts))) -> is_byte (DCS (e_pdu (with_options e opts))) -> Forall is_byte msg ->
  - 2 ^ 63 <= e_msg_count e < 2 ^ 63 ->
  (encoder_encode e msg opts = Ok (segs, e') <-> encoded mo (with_options e opts) msg segs /\ e' = counted e segs).
Proof.
  intros HD HF HB HM HR. unfold encoder_encode. cbv zeta. fold (with_options e opts).
  assert (EA : forall l, advance e l = counted e l).
  { intros l. unfold advance, counted. rewrite counter_after_eq by now apply wrap64_id. reflexivity. }
  pose proof (encoder_numbers (with_options e opts)) as HN. set (e1 := with_options e opts) in *. clearbody e1. split.
  - intros H. apply bind_ok in H as ([t ud] & EP & H). apply bind_ok in H as (l & ES & H). apply ok_pair in H as [<- <-].
    split; [|apply EA]. apply (prepared_iff e1 msg t ud HB HM) in EP. exists t, ud. split; [exact EP|].
    destruct (prepared_fields _ _ _ _ _ HF HB EP) as (D' & F' & B'). apply (segmented_numbers _ _ _ _ _ _ HN).
    apply segmented_iff; [unfold is_direction; now rewrite D'|exact F'|exact B'|exact ES].
  - intros [(t & ud & EP & ES) ->]. destruct (prepared_fields _ _ _ _ _ HF HB EP) as (D' & F' & B').
    apply (prepared_iff e1 msg t ud HB HM) in EP. rewrite EP. cbn [bind].
    apply (segmented_numbers _ _ _ _ _ _ (same_numbers_sym _ _ HN)) in ES.
    apply (segmented_iff mo t ud _ segs) in ES; [|unfold is_direction; now rewrite D'|exact F'|exact B']. rewrite ES. cbn [bind]. now rewrite EA.
Qed.
