(** Lemmas for C11, C12. *)
From Verif Require Import GoBase GoLemmas Utf Ucs2 UtfProofs SpecText CharsetTables Charset Gsm7
  CharsetProofs Dcs UserData SpecSelect.

Definition oenc (l s : Z) : gsm7_encoder := {| ge_set := new_encoder l; ge_ext := new_ext_encoder s |}.

Lemma encode_iff l s msg :
  encodable l s msg = is_ok (gsm7_encode (oenc l s) msg).
Proof.
  unfold encodable, gsm7_encode. induction (runes_of msg) as [|r rs IH]; [reflexivity|].
  cbn [forallb gsm7_encode_runes]. rewrite IH. unfold covers.
  change (ge_set (oenc l s)) with (new_encoder l). change (ge_ext (oenc l s)) with (new_ext_encoder s).
  destruct (assoc (new_encoder l) r); cbn [orb andb].
  - destruct (gsm7_encode_runes (oenc l s) rs); reflexivity.
  - destruct (assoc (new_ext_encoder s) r); cbn [orb andb]; [|reflexivity].
    destruct (gsm7_encode_runes (oenc l s) rs); reflexivity.
Qed.

Lemma encoder_default : gsm7_new_encoder None None = oenc 0 0.
Proof. reflexivity. Qed.
Lemma encoder_l n : gsm7_new_encoder (Some n) None = oenc n 0.
Proof. reflexivity. Qed.
Lemma encoder_s n : gsm7_new_encoder None (Some n) = oenc 0 n.
Proof. reflexivity. Qed.
Lemma encoder_b n m : gsm7_new_encoder (Some n) (Some m) = oenc n m.
Proof. reflexivity. Qed.

Lemma encodable_ok l s msg : encodable l s msg = true ->
  exists e, gsm7_encode (oenc l s) msg = Ok e.
Proof.
  rewrite encode_iff. destruct (gsm7_encode (oenc l s) msg); try discriminate. eauto.
Qed.
Lemma encodable_no l s msg : encodable l s msg = false ->
  forall (b : bytes * udh * Z) (f : list Z -> bytes * udh * Z),
  match gsm7_encode (oenc l s) msg with Ok e => f e | _ => b end = b.
Proof.
  rewrite encode_iff. destruct (gsm7_encode (oenc l s) msg); cbn [is_ok]; try discriminate; auto.
Qed.

Lemma registered_fold opts : forall c,
  c_locking (fold_left apply_encode_option opts c) = registered true (c_locking c) opts /\
  c_shift (fold_left apply_encode_option opts c) = registered false (c_shift c) opts.
Proof.
  induction opts as [|o opts IH]; intros c; [auto|]. cbn [fold_left].
  destruct (IH (apply_encode_option c o)) as [-> ->]. destruct o; auto.
Qed.

Lemma try_locking_spec msg L :
  match find (fun n => encodable n 0 msg) L with
  | Some n => exists e, gsm7_encode (oenc n 0) msg = Ok e /\
                try_locking msg L = Some (e, [nli_ie lockingIEI n])
  | None => try_locking msg L = None
  end.
Proof.
  induction L as [|n L IH]; [reflexivity|]. cbn [find try_locking]. rewrite encoder_l.
  pose proof (encode_iff n 0 msg) as EI.
  destruct (gsm7_encode (oenc n 0) msg) eqn:E; cbn [is_ok] in EI; rewrite EI; eauto; exact IH.
Qed.
Lemma try_shift_spec msg L :
  match find (fun n => encodable 0 n msg) L with
  | Some n => exists e, gsm7_encode (oenc 0 n) msg = Ok e /\
                try_shift msg L = Some (e, [nli_ie shiftIEI n])
  | None => try_shift msg L = None
  end.
Proof.
  induction L as [|n L IH]; [reflexivity|]. cbn [find try_shift]. rewrite encoder_s.
  pose proof (encode_iff 0 n msg) as EI.
  destruct (gsm7_encode (oenc 0 n) msg) eqn:E; cbn [is_ok] in EI; rewrite EI; eauto; exact IH.
Qed.
Lemma try_both_inner_spec msg n S :
  if existsb (Z.eqb n) S && encodable n n msg
  then exists e, gsm7_encode (oenc n n) msg = Ok e /\
         try_both_inner msg n S = Some (e, [nli_ie lockingIEI n; nli_ie shiftIEI n])
  else try_both_inner msg n S = None.
Proof.
  rewrite encode_iff. destruct (gsm7_encode (oenc n n) msg) as [e| | |] eqn:E; cbn [is_ok].
  1:{ rewrite andb_true_r. induction S as [|m S IH]; [reflexivity|].
      cbn [existsb try_both_inner]. rewrite encoder_b, E. destruct (n =? m); cbn [orb negb]; eauto. }
  all: rewrite andb_false_r; induction S as [|m S IH]; [reflexivity|];
       cbn [try_both_inner]; rewrite encoder_b, E, IH; destruct (n =? m); reflexivity.
Qed.
Lemma try_both_spec msg L S :
  match find (fun n => existsb (Z.eqb n) S && encodable n n msg) L with
  | Some n => exists e, gsm7_encode (oenc n n) msg = Ok e /\
                try_both msg L S = Some (e, [nli_ie lockingIEI n; nli_ie shiftIEI n])
  | None => try_both msg L S = None
  end.
Proof.
  induction L as [|n L IH]; [reflexivity|]. cbn [find try_both].
  pose proof (try_both_inner_spec msg n S) as H.
  destruct (existsb (Z.eqb n) S && encodable n n msg).
  - destruct H as (e & H1 & H2). rewrite H2. eauto.
  - rewrite H. exact IH.
Qed.

(** Unknown languages have the default tables, so are never chosen. *)
Lemma unknown_locking n : ~ (1 <= n <= 13) -> locking_table n = locking_table 0.
Proof.
  intros H. unfold locking_table, nli_turkish, nli_portuguese, nli_bengali,
      nli_gujarati, nli_hindi, nli_kannada, nli_malayalam, nli_oriya, nli_punjabi, nli_tamil,
      nli_telugu, nli_urdu.
  repeat match goal with |- context [n =? ?c] => replace (n =? c) with false by lia end.
  reflexivity.
Qed.
Lemma unknown_shift n : ~ (1 <= n <= 13) -> shift_table n = shift_table 0.
Proof.
  intros H. unfold shift_table, nli_turkish, nli_spanish, nli_portuguese, nli_bengali,
      nli_gujarati, nli_hindi, nli_kannada, nli_malayalam, nli_oriya, nli_punjabi, nli_tamil,
      nli_telugu, nli_urdu.
  repeat match goal with |- context [n =? ?c] => replace (n =? c) with false by lia end.
  reflexivity.
Qed.
Lemma encodable_unknown l s msg : encodable 0 0 msg = false ->
  encodable l s msg = true -> (1 <= l <= 13) \/ (1 <= s <= 13).
Proof.
  intros H0 H. destruct (Z_le_gt_dec 1 l), (Z_le_gt_dec l 13); try (left; lia);
  destruct (Z_le_gt_dec 1 s), (Z_le_gt_dec s 13); try (right; lia);
  exfalso; unfold encodable, new_encoder, new_ext_encoder in *;
  rewrite unknown_locking, unknown_shift in H by lia; congruence.
Qed.

Lemma to_byte_nli n : 1 <= n <= 13 -> to_byte n = n.
Proof. intros. apply to_byte_id. unfold is_byte. lia. Qed.

Lemma find_true {A} (f : A -> bool) l x : find f l = Some x -> f x = true.
Proof. intros H. apply find_some in H. tauto. Qed.

Lemma encode_user_data_choice msg opts :
  ud_choice msg (choose msg opts) (encode_user_data msg opts).
Proof.
  unfold choose, encode_user_data. rewrite encoder_default.
  destruct (encodable 0 0 msg) eqn:E0.
  { destruct (encodable_ok _ _ _ E0) as (e & E). rewrite E. split; [reflexivity|split; [reflexivity|exact E]]. }
  rewrite (encodable_no _ _ _ E0).
  destruct (registered_fold opts ud_cfg_empty) as [-> ->].
  cbn [c_locking c_shift ud_cfg_empty].
  set (L := registered true [] opts). set (S := registered false [] opts).
  pose proof (try_locking_spec msg L) as H1.
  destruct (find (fun n => encodable n 0 msg) L) as [n|] eqn:F1.
  { destruct H1 as (e & He & ->). apply find_true in F1.
    destruct (encodable_unknown _ _ _ E0 F1) as [Hn|Hn]; [|lia].
    unfold ud_choice, nli_ie. rewrite (to_byte_nli n Hn).
    split; [reflexivity|split; [reflexivity|exact He]]. }
  rewrite H1.
  pose proof (try_shift_spec msg S) as H2.
  destruct (find (fun n => encodable 0 n msg) S) as [n|] eqn:F2.
  { destruct H2 as (e & He & ->). apply find_true in F2.
    destruct (encodable_unknown _ _ _ E0 F2) as [Hn|Hn]; [lia|].
    unfold ud_choice, nli_ie. rewrite (to_byte_nli n Hn).
    split; [reflexivity|split; [reflexivity|exact He]]. }
  rewrite H2.
  pose proof (try_both_spec msg L S) as H3.
  destruct (find (fun n => existsb (Z.eqb n) S && encodable n n msg) L) as [n|] eqn:F3.
  { destruct H3 as (e & He & ->). apply find_true, andb_prop in F3 as [_ F3].
    assert (Hn : 1 <= n <= 13) by (destruct (encodable_unknown _ _ _ E0 F3); lia).
    unfold ud_choice, nli_ie. rewrite (to_byte_nli n Hn).
    split; [reflexivity|split; [reflexivity|exact He]]. }
  rewrite H3. split; [reflexivity|split; reflexivity].
Qed.

(** Membership in the decoder configuration. *)
Lemma decode_cfg_mono opts : forall c n,
  (In n (c_locking c) -> In n (c_locking (fold_left apply_decode_option opts c))) /\
  (In n (c_shift c) -> In n (c_shift (fold_left apply_decode_option opts c))).
Proof.
  induction opts as [|o opts IH]; intros c n; [auto|]. cbn [fold_left].
  destruct (IH (apply_decode_option c o) n) as [H1 H2].
  split; intros H; [apply H1|apply H2]; destruct o; cbn [apply_decode_option c_locking c_shift];
    rewrite ?in_app_iff; auto.
Qed.
Lemma decode_cfg_all opts : In OptAllCharsets opts -> forall c n, 1 <= n <= 13 ->
  In n (c_locking (fold_left apply_decode_option opts c)) /\
  In n (c_shift (fold_left apply_decode_option opts c)).
Proof.
  induction opts as [|o opts IH]; intros Hi c n Hn; [contradiction|]. cbn [fold_left].
  destruct Hi as [->|Hi]; [|now apply IH].
  assert (In n all_nli) by (cbn; lia).
  split; apply decode_cfg_mono; cbn; apply in_app_iff; now right.
Qed.
Lemma decode_cfg_registered opts : forall c acc b n, In n (registered b acc opts) ->
  (forall m, In m acc -> In m (if b then c_locking c else c_shift c)) ->
  In n (if b then c_locking (fold_left apply_decode_option opts c)
        else c_shift (fold_left apply_decode_option opts c)).
Proof.
  induction opts as [|o opts IH]; intros c acc b n Hi Hacc; [now apply Hacc|].
  cbn [fold_left registered] in *.
  destruct o; (eapply IH; [exact Hi|]); intros m Hm;
    (destruct b; cbn [apply_decode_option c_locking c_shift] in *;
     rewrite ?in_app_iff in *;
     first [right; exact Hm | destruct Hm as [Hm|Hm]; solve [auto] | auto]).
Qed.

Lemma mem_z_In n l : In n l -> mem_z n l = true.
Proof. intros H. apply existsb_exists. exists n. split; [assumption|apply Z.eqb_refl]. Qed.

Lemma find_in {A} (f : A -> bool) l x : find f l = Some x -> In x l.
Proof. intros H. apply find_some in H. tauto. Qed.
Lemma existsb_In n S : existsb (Z.eqb n) S = true -> In n S.
Proof. intros H. apply existsb_exists in H as (m & Hm & E). now replace n with m by lia. Qed.

Lemma choice_registered msg opts :
  match choose msg opts with
  | ChLocking n => In n (registered true [] opts) /\ 1 <= n <= 13
  | ChShift n => In n (registered false [] opts) /\ 1 <= n <= 13
  | ChBoth n => In n (registered true [] opts) /\ In n (registered false [] opts) /\ 1 <= n <= 13
  | _ => True
  end.
Proof.
  unfold choose. destruct (encodable 0 0 msg) eqn:E0; [exact I|].
  destruct (find _ (registered true [] opts)) as [n|] eqn:F1.
  { split; [now apply find_in in F1|]. apply find_true in F1.
    destruct (encodable_unknown _ _ _ E0 F1); lia. }
  destruct (find _ (registered false [] opts)) as [n|] eqn:F2.
  { split; [now apply find_in in F2|]. apply find_true in F2.
    destruct (encodable_unknown _ _ _ E0 F2); lia. }
  destruct (find (fun n => existsb _ _ && _) (registered true [] opts)) as [n|] eqn:F3; [|exact I].
  split; [now apply find_in in F3|]. apply find_true, andb_prop in F3 as [F3 F3'].
  split; [now apply existsb_In|]. destruct (encodable_unknown _ _ _ E0 F3'); lia.
Qed.

Lemma decoder_available opts dopts n b : decodes_with opts dopts -> 1 <= n <= 13 ->
  In n (registered b [] opts) ->
  mem_z n (if b then c_locking (fold_left apply_decode_option dopts ud_cfg_empty)
           else c_shift (fold_left apply_decode_option dopts ud_cfg_empty)) = true.
Proof.
  intros [->|H] Hn Hi; apply mem_z_In.
  - eapply decode_cfg_registered; [exact Hi|]. intros m [].
  - destruct (decode_cfg_all _ H ud_cfg_empty n Hn). destruct b; assumption.
Qed.

(** Decoder counterpart of [oenc]. *)
Lemma gsm7_roundtrip_o l s ol os msg ud :
  (match ol with Some n => n = l | None => l = 0 end) ->
  (match os with Some n => n = s | None => s = 0 end) ->
  Forall is_byte msg -> ~ In 27 msg -> gsm7_encode (oenc l s) msg = Ok ud ->
  gsm7_decode (gsm7_new_decoder ol os false) ud = Ok msg.
Proof.
  intros Hl Hs HB HN HE. apply gsm7_roundtrip; try assumption.
  destruct ol, os; subst; exact HE.
Qed.

Lemma user_data_roundtrip msg opts dopts ud h alpha :
  valid_utf8 msg -> decodes_with opts dopts ->
  encode_user_data msg opts = (ud, h, alpha) ->
  ~ In 27 msg \/ alpha = AlphaUCS2 ->
  decode_user_data ud (ies h) alpha dopts = {| dd_text := msg; dd_err := None |}.
Proof.
  intros HV HD HE HN.
  pose proof (valid_utf8_runes _ HV) as HT. pose proof (utf8_text_bytes _ _ HT) as HB.
  pose proof (encode_user_data_choice msg opts) as HC. rewrite HE in HC.
  destruct HC as [HH HC]. pose proof (choice_registered msg opts) as HR.
  destruct (choice_tables (choose msg opts)) as [[l s]|] eqn:ET.
  - destruct HC as [-> HG].
    assert (HN' : ~ In 27 msg) by (destruct HN as [HN|HN]; [exact HN|discriminate]).
    unfold decode_user_data. cbn [Z.eqb AlphaUCS2 Alpha8Bit Alpha7Bit].
    change (Alpha7Bit =? AlphaUCS2) with false. change (Alpha7Bit =? Alpha8Bit) with false. cbv iota zeta.
    assert (HS : exists ol os,
      select_nli (ies h) lockingIEI (c_locking (fold_left apply_decode_option dopts ud_cfg_empty)) = ol /\
      select_nli (ies h) shiftIEI (c_shift (fold_left apply_decode_option dopts ud_cfg_empty)) = os /\
      (match ol with Some n => n = l | None => l = 0 end) /\
      (match os with Some n => n = s | None => s = 0 end)).
    { destruct (choose msg opts) as [|n|n|n|]; cbn [choice_tables choice_header] in *;
        try discriminate; injection ET as <- <-.
      - destruct (ies h) as [|i l]; [|discriminate]. exists None, None. repeat split; reflexivity.
      - destruct (ies h) as [|[i d] [|j l]]; try discriminate. injection HH as -> ->.
        destruct HR as [HR Hn]. pose proof (decoder_available _ _ _ true HD Hn HR) as HM.
        exists (Some n), None. cbv iota in HM. repeat split.
        unfold select_nli. cbn. now rewrite HM.
      - destruct (ies h) as [|[i d] [|j l]]; try discriminate. injection HH as -> ->.
        destruct HR as [HR Hn]. pose proof (decoder_available _ _ _ false HD Hn HR) as HM.
        exists None, (Some n). cbv iota in HM. repeat split.
        unfold select_nli. cbn. now rewrite HM.
      - destruct (ies h) as [|[i d] [|[j e] [|k l]]]; try discriminate. injection HH as -> -> -> ->.
        destruct HR as (HR1 & HR2 & Hn).
        pose proof (decoder_available _ _ _ true HD Hn HR1) as HM1.
        pose proof (decoder_available _ _ _ false HD Hn HR2) as HM2.
        exists (Some n), (Some n). cbv iota in HM1, HM2. repeat split;
        unfold select_nli; cbn; [now rewrite HM1|now rewrite HM2]. }
    destruct HS as (ol & os & -> & -> & Hl & Hs).
    now rewrite (gsm7_roundtrip_o l s ol os msg ud Hl Hs HB HN' HG).
  - destruct HC as [-> ->]. unfold decode_user_data. change (AlphaUCS2 =? AlphaUCS2) with true. cbv iota zeta.
    pose proof (utf8_text_scalar _ _ HT) as HSc.
    rewrite (ucs2_decode_text _ _ (ucs2_encode_spec _ HSc)). cbn [u2_runes u2_err].
    now rewrite <- (utf8_text_fun _ _ HT).
Qed.
