(** Lemmas about Encode: the alphabet, the header, the counts. *)
From Verif Require Import GoBase GoLemmas SafeLemmas Utf Ucs2 UtfProofs SpecText Charset Gsm7 Dcs FirstOctet
  UserData Tpdu Segment SegmentProofs SegmentOptProofs SegmentFitProofs SpecSegTpdu Sms SpecSelect SpecDcs UserDataProofs
  FlagsProofs SpecSms SmsProofs SpecSegment.

(** Segment has no error result. *)
Definition noerr {A} (r : res A) : Prop := forall e, r <> Err e.
Lemma noerr_bind {A B} (m : res A) (k : A -> res B) : noerr m -> (forall x, noerr (k x)) -> noerr (bind m k).
Proof. intros Hm Hk e. destruct m as [x|e0| |]; cbn [bind]; [apply Hk|intros X; now apply (Hm e0)|discriminate..]. Qed.
Lemma noerr_ok {A} (x : A) : noerr (Ok x).
Proof. intros e. discriminate. Qed.
Lemma noerr_idx {A} (l : list A) i : noerr (idx l i).
Proof. intros e. apply idx_not_err. Qed.
Lemma noerr_slice {A} (l : list A) i j : noerr (slice l i j).
Proof. intros e. apply slice_not_err. Qed.
Lemma noerr_slice_from {A} (l : list A) i : noerr (slice_from l i).
Proof. intros e. apply slice_not_err. Qed.
#[local] Hint Resolve noerr_bind noerr_ok noerr_idx noerr_slice noerr_slice_from : noerr.

Lemma gloop_noerr alpha fuel : forall msg bs a b, noerr (gloop (adj_of alpha) fuel msg bs a b).
Proof.
  induction fuel as [|fuel IH]; intros msg bs a b; cbn [gloop]; [intros e; discriminate|].
  destruct (b <? len msg); [|auto with noerr].
  apply noerr_bind; [|auto with noerr].
  unfold adj_of. destruct (alpha =? AlphaUCS2); [unfold adjU; auto 10 with noerr|].
  destruct (alpha =? Alpha8Bit); [unfold adj8; auto with noerr|].
  unfold adj7. apply noerr_bind; [auto with noerr|]. intros x.
  apply noerr_bind; [|auto with noerr]. destruct (x =? esc); auto with noerr.
Qed.
Lemma segment_not_err t msg cfg e : segment t msg cfg <> Err e.
Proof.
  unfold segment. destruct (len msg =? 0) eqn:EL; [discriminate|].
  destruct (len msg <=? ud_block_size t); [discriminate|]. cbv zeta.
  apply noerr_bind; [|auto with noerr]. rewrite chunk_gloop by lia.
  apply noerr_bind; [|intros; apply gloop_noerr].
  unfold chunk_prologue. apply noerr_bind.
  - intros e2. unfold godiv. destruct (bs_of _ _ =? 0); discriminate.
  - intros q e2. destruct (_ <? _); discriminate.
Qed.

(** The alphabet read from the octet, for the selection made by Encode. *)
Definition alpha_check (d : Z) : bool :=
  match alphabet_of d with
  | Some 1 => dcs_alpha d =? 1
  | Some 2 => dcs_alpha d =? 2
  | _ => dcs_alpha d =? 0
  end.
Lemma dcs_alpha_spec d : is_byte d ->
  dcs_alpha d = match alphabet_of d with Some 1 => 1 | Some 2 => 2 | _ => 0 end.
Proof.
  intros H. assert (C : alpha_check d = true) by (apply (zrange_sweep 256); [vm_compute; reflexivity|exact H]).
  unfold alpha_check in C. destruct (alphabet_of d) as [[|[p|p|]|p]|]; try lia; destruct p; lia.
Qed.

Definition bits_check (d a : Z) : bool :=
  match dcs_with_alphabet d a with
  | Ok d' => Z.land d' 243 =? Z.land d 243
  | _ => true
  end.
Lemma with_alphabet_bits d a d' : is_byte d -> 0 <= a <= 2 -> is_byte d' -> dcs_with_alphabet d a = Ok d' ->
  same_bits_except [2; 3] d d'.
Proof.
  intros H Ha H' E. assert (C : bits_check d a = true).
  { apply (zrange_sweep2 256 3); [vm_compute; reflexivity|exact H|lia]. }
  unfold bits_check in C. rewrite E in C. apply Z.eqb_eq in C.
  intros n Hn. cbn [In] in Hn.
  destruct (Z.lt_ge_cases n 0) as [L|L]; [now rewrite !Z.testbit_neg_r|].
  destruct (Z.lt_ge_cases n 8) as [L8|L8]; [|now rewrite !byte_testbit_hi].
  assert (Z.testbit (Z.land d' 243) n = Z.testbit (Z.land d 243) n) as T by now rewrite C.
  rewrite !Z.land_spec in T.
  assert (Z.testbit 243 n = true) as B.
  { assert (n = 0 \/ n = 1 \/ n = 4 \/ n = 5 \/ n = 6 \/ n = 7) as HX by lia.
    destruct HX as [-> |[-> |[-> |[-> |[-> | ->]]]]]; reflexivity. }
  now rewrite B, !andb_true_r in T.
Qed.

Definition choice_alpha (c : choice) : Z := match c with ChUcs2 => 2 | _ => 0 end.
Lemma ud_choice_alpha msg c ud h a : ud_choice msg c (ud, h, a) -> a = choice_alpha c.
Proof. intros [_ H]. destruct c; cbn [choice_tables choice_alpha] in *; tauto. Qed.
Lemma encode_header_nil msg opts ud h a : encode_user_data msg opts = (ud, h, a) ->
  ies h = [] -> h = None.
Proof.
  unfold encode_user_data.
  assert (HL : forall l enc h, try_locking msg l = Some (enc, h) -> h <> []).
  { induction l as [|n l IH]; cbn [try_locking]; [discriminate|]. intros enc h0.
    destruct (gsm7_encode _ _); try apply IH. intros H. injection H as _ <-. discriminate. }
  assert (HS : forall l enc h, try_shift msg l = Some (enc, h) -> h <> []).
  { induction l as [|n l IH]; cbn [try_shift]; [discriminate|]. intros enc h0.
    destruct (gsm7_encode _ _); try apply IH. intros H. injection H as _ <-. discriminate. }
  assert (HI : forall n l enc h, try_both_inner msg n l = Some (enc, h) -> h <> []).
  { intros n. induction l as [|m l IH]; cbn [try_both_inner]; [discriminate|]. intros enc h0.
    destruct (negb _); [apply IH|].
    destruct (gsm7_encode _ _); try apply IH. intros H. injection H as _ <-. discriminate. }
  assert (HB : forall l s enc h, try_both msg l s = Some (enc, h) -> h <> []).
  { induction l as [|n l IH]; cbn [try_both]; [discriminate|]. intros s enc h0.
    destruct (try_both_inner msg n s) as [[x y]|] eqn:E; [|apply IH].
    intros H. injection H as <- <-. eapply HI; exact E. }
  intros H HN. destruct (gsm7_encode _ msg); [now injection H as _ <- _| | |].
  all: destruct (try_locking _ _) as [[x y]|] eqn:E1;
    [injection H as _ <- _; apply HL in E1; contradiction|].
  all: destruct (try_shift _ _) as [[x y]|] eqn:E2;
    [injection H as _ <- _; apply HS in E2; contradiction|].
  all: destruct (try_both _ _ _) as [[x y]|] eqn:E3;
    [injection H as _ <- _; apply HB in E3; contradiction|].
  all: now injection H as _ <- _.
Qed.

(** What Encode hands to Segment. *)
Definition prep_header (t0 : tpdu) (h : udh) : udh := match h with Some l => Some l | None => UDH t0 end.
Lemma prepare_cases e msg : is_byte (DCS (e_pdu e)) ->
  if given_encoded (DCS (e_pdu e)) then encode_prepare e msg = Ok (e_pdu e, msg)
  else
    let '(ud, h, a) := encode_user_data msg (e_eopts e) in
    ud_choice msg (choose msg (e_eopts e)) (ud, h, a) /\
    if alphabet_expressible (coding_group (DCS (e_pdu e))) (choice_alpha (choose msg (e_eopts e)))
    then exists t, encode_prepare e msg = Ok (t, ud) /\
      alphabet_of (DCS t) = Some (choice_alpha (choose msg (e_eopts e))) /\ is_byte (DCS t) /\
      same_bits_except [2; 3] (DCS (e_pdu e)) (DCS t) /\
      UDH t = prep_header (e_pdu e) h /\
      FO t = (match h with Some _ => Z.lor (FO (e_pdu e)) 64 | None => FO (e_pdu e) end) /\
      (DCS t = DCS (e_pdu e) /\ h = None -> t = e_pdu e) /\
      t = {| Direction := Direction (e_pdu e); FO := FO t; OA := OA (e_pdu e); FCS := FCS (e_pdu e);
             MR := MR (e_pdu e); CT := CT (e_pdu e); MN := MN (e_pdu e); DA := DA (e_pdu e);
             RA := RA (e_pdu e); PI := PI t; SCTS := SCTS (e_pdu e); DT := DT (e_pdu e);
             ST := ST (e_pdu e); PID := PID (e_pdu e); DCS := DCS t; VP := VP (e_pdu e);
             UDH := UDH t; UD := UD (e_pdu e) |}
    else encode_prepare e msg = Err ErrDcsConflict.
Proof.
  intros HB. unfold given_encoded, encode_prepare. rewrite (dcs_alpha_spec _ HB).
  assert (HG : match alphabet_of (DCS (e_pdu e)) with
               | Some 1 | Some 2 => True
               | _ => match alphabet_of (DCS (e_pdu e)) with Some 1 | Some 2 => true | _ => false end = false /\
                      match alphabet_of (DCS (e_pdu e)) with Some 1 => 1 | Some 2 => 2 | _ => 0 end = 0
               end).
  { destruct (alphabet_of _) as [[|[p|p|]|p]|]; try (split; reflexivity); try exact I; destruct p; try (split; reflexivity); exact I. }
  destruct (match alphabet_of (DCS (e_pdu e)) with Some 1 | Some 2 => true | _ => false end) eqn:EG.
  { assert (match alphabet_of (DCS (e_pdu e)) with Some 1 => 1 | Some 2 => 2 | _ => 0 end = 1 \/
            match alphabet_of (DCS (e_pdu e)) with Some 1 => 1 | Some 2 => 2 | _ => 0 end = 2) as HX.
    { destruct (alphabet_of _) as [[|[p|p|]|p]|]; try discriminate; auto; destruct p; try discriminate; auto. }
    destruct HX as [-> | ->]; reflexivity. }
  assert (match alphabet_of (DCS (e_pdu e)) with Some 1 => 1 | Some 2 => 2 | _ => 0 end = 0) as ->.
  { destruct (alphabet_of _) as [[|[p|p|]|p]|]; try discriminate; auto; destruct p; try discriminate; auto. }
  change ((0 =? Alpha8Bit) || (0 =? AlphaUCS2)) with false. cbv iota. clear HG EG.
  pose proof (encode_user_data_choice msg (e_eopts e)) as HC.
  destruct (encode_user_data msg (e_eopts e)) as [[ud h] a] eqn:EU.
  split; [exact HC|]. rewrite <- (ud_choice_alpha _ _ _ _ _ HC).
  assert (0 <= a <= 2) as Ha by (rewrite (ud_choice_alpha _ _ _ _ _ HC); destruct (choose _ _); cbn; lia).
  pose proof (with_alphabet_spec _ a HB Ha) as HW.
  destruct (alphabet_expressible (coding_group (DCS (e_pdu e))) a).
  - destruct HW as (d' & ED & B' & HA' & _). rewrite ED. cbv zeta.
    pose proof (with_alphabet_bits _ _ _ HB Ha B' ED) as HS.
    set (t0 := e_pdu e) in *. clearbody t0.
    eexists. split; [reflexivity|]. destruct (d' =? DCS t0) eqn:E; cbn [negb].
    + assert (d' = DCS t0) as -> by lia. clear E.
      destruct h as [l|]; dtpdu t0; cbn [set_udh set_UDHf set_PI set_FO DCS UDH FO PI prep_header
        Direction OA FCS MR CT MN DA RA SCTS DT ST PID VP UD] in *; unfold FoUDHI, PiUDL;
        do 5 (split; [first [assumption|reflexivity]|]).
      * split; [intros [_ X]; discriminate X|reflexivity].
      * split; reflexivity.
    + destruct h as [l|]; dtpdu t0; cbn [set_dcs set_DCSf set_udh set_UDHf set_PI set_FO DCS UDH FO PI prep_header
        Direction OA FCS MR CT MN DA RA SCTS DT ST PID VP UD] in *; unfold FoUDHI, PiUDL;
        do 5 (split; [first [assumption|reflexivity]|]).
      all: split; [intros [X _]; lia|reflexivity].
  - rewrite HW. reflexivity.
Qed.
