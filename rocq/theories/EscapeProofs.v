(** U+001B never comes out of GSM 7-bit decoding. *)
From Verif Require Import GoBase GoLemmas SafeLemmas Utf UtfProofs SpecText Charset Gsm7 CharsetProofs SevenBit SevenBitProofs
  Dcs UserData SpecSelect UserDataProofs Address AddressProofs Tpdu Segment Sms.

(** Only the escape code itself stands for U+001B. *)
Definition only_esc (d : decoder) : bool := forallb (fun '(g, r) => negb (r =? 27) || (g =? 27)) d.
Lemma all_only_esc : forallb (fun n => only_esc (new_decoder n) && only_esc (new_ext_decoder n)) nlis = true.
Proof. vm_compute. reflexivity. Qed.
Lemma only_esc_ok d g : only_esc d = true -> assoc d g = Some 27 -> g = 27.
Proof.
  intros H HA. apply assoc_In in HA. unfold only_esc in H. rewrite forallb_forall in H. apply H in HA. cbn in HA. lia.
Qed.
Lemma locking_esc n g : assoc (new_decoder n) g = Some 27 -> g = 27.
Proof.
  destruct (locking_nli n) as (n' & Hn' & E). unfold new_decoder. rewrite E. apply only_esc_ok.
  pose proof all_only_esc as H. rewrite forallb_forall in H. specialize (H n' Hn'). apply andb_prop in H as [H _]. exact H.
Qed.
Lemma shift_esc n g : assoc (new_ext_decoder n) g = Some 27 -> g = 27.
Proof.
  destruct (shift_nli n) as (n' & Hn' & E). unfold new_ext_decoder. rewrite E. apply only_esc_ok.
  pose proof all_only_esc as H. rewrite forallb_forall in H. specialize (H n' Hn'). apply andb_prop in H as [_ H]. exact H.
Qed.

Lemma chars_no_esc set ext src : (forall g, set g = Some 27 -> g = 27) -> (forall g, ext g = Some 27 -> g = 27) ->
  ~ In 27 (gsm7_chars set ext src).
Proof.
  intros H1 H2. assert (HO : forall o g, g <> 27 -> (o = Some 27 -> g = 27) -> or_space o <> 27).
  { intros [r|] g Hg Ho; cbn [or_space]; [|lia]. intros ->. now apply Hg, Ho. }
  induction src as [|g src IH1 IH2] using list_pair_ind; [now intros []|].
  cbn [gsm7_chars]. destruct (g =? 27) eqn:E.
  - destruct src as [|x src]; cbn [In]; [lia|]. intros [H|H]; [|now apply IH2].
    destruct (x =? 27) eqn:EX; [discriminate|]. revert H. apply HO with (g := x); [lia|].
    unfold or_else. destruct (ext x) eqn:EE; intros X; [apply H2; congruence|now apply H1].
  - cbn [In]. intros [H|H]; [|now apply IH1]. revert H. apply HO with (g := g); [lia|apply H1].
Qed.

Lemma utf8_of_no_esc rs : Forall scalar rs -> ~ In 27 rs -> ~ In 27 (utf8_of rs).
Proof.
  intros HS HN HI. unfold utf8_of in HI. rewrite in_flat_map in HI. destruct HI as (r & Hr & HI).
  rewrite Forall_forall in HS. specialize (HS r Hr). assert (r <> 27) by (intros ->; contradiction).
  unfold scalar in HS. unfold encode_rune, in_range in HI.
  destruct ((r <? 0) || (1114111 <? r) || (55296 <=? r) && (r <=? 57343)) eqn:E; [lia|].
  destruct (r <=? 127) eqn:E1; [cbn [In] in HI; lia|]. destruct (r <=? 2047) eqn:E2; [cbn [In] in HI; lia|].
  destruct (r <=? 65535) eqn:E3; cbn [In] in HI; lia.
Qed.

Lemma decode_no_esc d src out :
  (forall g, assoc (gd_set d) g = Some 27 -> g = 27) -> (forall g, assoc (gd_ext d) g = Some 27 -> g = 27) ->
  (forall g r, assoc (gd_set d) g = Some r -> scalar r) -> (forall g r, assoc (gd_ext d) g = Some r -> scalar r) ->
  gsm7_decode d src = Ok out -> ~ In 27 out.
Proof.
  intros H1 H2 H3 H4 H.
  assert (out = utf8_of (gsm7_chars (assoc (gd_set d)) (assoc (gd_ext d)) src)) as ->.
  { destruct (gd_strict d) eqn:ES.
    - rewrite gsm7_decode_strict in H by assumption. destruct (gsm7_fault _ _ _); [discriminate|congruence].
    - rewrite gsm7_decode_total in H by assumption. congruence. }
  apply utf8_of_no_esc; [now apply gsm7_chars_scalar|now apply chars_no_esc].
Qed.
Lemma gsm7_no_esc l s strict src out : gsm7_decode (gsm7_new_decoder l s strict) src = Ok out -> ~ In 27 out.
Proof.
  apply decode_no_esc; unfold gsm7_new_decoder; cbn [gd_set gd_ext].
  - destruct l; [apply locking_esc|apply (locking_esc 0)].
  - destruct s; [apply shift_esc|apply (shift_esc 0)].
  - apply (new_set_ok l s strict).
  - apply (new_ext_ok l s strict).
Qed.

Lemma gsm7_roundtrip_iff l s strict msg septets : Forall is_byte msg ->
  gsm7_encode (gsm7_new_encoder l s) msg = Ok septets ->
  (gsm7_decode (gsm7_new_decoder l s strict) septets = Ok msg <-> ~ In 27 msg).
Proof. intros HB HE. split; [apply gsm7_no_esc|intros HN; now apply gsm7_roundtrip]. Qed.

Lemma user_data_no_esc ud l alpha dopts : alpha <> AlphaUCS2 -> alpha <> Alpha8Bit ->
  ~ In 27 (dd_text (decode_user_data ud l alpha dopts)).
Proof.
  intros N1 N2. unfold decode_user_data. bfalse (alpha =? AlphaUCS2). bfalse (alpha =? Alpha8Bit). cbv zeta.
  destruct (gsm7_decode _ _) eqn:E; cbn [dd_text]; try now intros []. now apply gsm7_no_esc in E.
Qed.

Lemma addr_no_esc src toa s n : addr_unmarshal src = Ok ({| a_toa := toa; a_addr := s |}, n) -> toa_ton toa = TonAlphanumeric ->
  ~ In 27 s.
Proof.
  intros H HT. unfold addr_unmarshal in H.
  destruct (len src <? 2); [discriminate|].
  destruct (idx src 0) as [l| | |]; try discriminate. destruct (idx src 1) as [toa'| | |]; try discriminate.
  cbn [bind] in H. cbv zeta in H. destruct (len src <? 2 + (l + 1) / 2); [discriminate|].
  destruct (slice src 2 (2 + (l + 1) / 2)) as [b| | |]; try discriminate. cbn [bind] in H.
  destruct (toa_ton toa' =? TonAlphanumeric) eqn:ET.
  - destruct (if l <? (len (unpack7bit b 0) * 7 + 3) / 4 then _ else _) as [u| | |]; try discriminate. cbn [bind] in H.
    destruct (gsm7_decode addr_gsm7_decoder u) as [out| | |] eqn:EG; cbn [on_err bind] in H; try discriminate.
    injection H as <- <- _. revert EG. apply decode_no_esc; unfold addr_gsm7_decoder; cbn [gd_set gd_ext].
    + apply (locking_esc 0).
    + discriminate.
    + apply (tk_scalar _ _ addr_set_ok).
    + discriminate.
  - destruct (on_err (Semioctet.semi_decode l b) _) as [[x m]| | |]; try discriminate. cbn [bind] in H.
    destruct (negb (m =? (l + 1) / 2) || (len x <? l)); [discriminate|]. injection H as <- _ _. lia.
Qed.

Lemma decode_loop_no_esc opts : forall segs dang out,
  Forall (fun s => dcs_alpha (DCS s) <> AlphaUCS2 /\ dcs_alpha (DCS s) <> Alpha8Bit) segs ->
  decode_loop (map Some segs) dang opts = Ok out -> ~ In 27 out.
Proof.
  induction segs as [|s segs IH]; intros dang out HF H; cbn [map decode_loop] in H.
  - destruct dang; [discriminate|]. injection H as <-. now intros [].
  - apply Forall_cons_iff in HF as [(N1 & N2) HF].
    match type of H with context [decode_user_data ?ud ?l ?al ?o] => pose proof (user_data_no_esc ud l al o N1 N2) as X;
      set (d := decode_user_data ud l al o) in * end.
    cbv zeta in H. destruct (dd_err d) as [e|].
    + destruct e; try discriminate. destruct (decode_loop (map Some segs) (Some _) opts) eqn:E; try discriminate.
      cbn [bind] in H. injection H as <-. rewrite in_app_iff. intros [Y|Y]; [contradiction|]. now apply IH in E.
    + destruct (decode_loop (map Some segs) None opts) eqn:E; try discriminate.
      cbn [bind] in H. injection H as <-. rewrite in_app_iff. intros [Y|Y]; [contradiction|]. now apply IH in E.
Qed.
