(** Lemmas for C80: what Decode returns is what [SpecDecode] describes. *)
From Verif Require Import GoBase GoLemmas Utf Ucs2 UtfProofs SpecText SpecDcs SpecHeader Charset CharsetTables Gsm7 CharsetProofs Dcs UserData Tpdu Sms
  EncodeProofs P_Header SpecDecode.

Lemma two_by_two (P : list Z -> Prop) : P [] -> (forall x, P [x]) -> (forall x y l, P (y :: l) -> P l -> P (x :: y :: l)) -> forall l, P l.
Proof.
  intros H0 H1 H2 l. assert (A : P l /\ forall x, P (x :: l)); [|apply A].
  induction l as [|y l [IH1 IH2]]; [now split|]. split; [apply IH2|]. intros x. apply H2; [apply IH2|exact IH1].
Qed.

(** ** UTF-16 *)
Definition half_err (w left : list Z) : option gerr := match w with [] => None | _ => Some (Ucs2DanglingSurrogate left) end.

Lemma be_units_head u us s : be_units (u :: us) s -> exists h l s', s = h :: l :: s' /\ 0 <= h < 256 /\ 0 <= l < 256 /\ u = h * 256 + l /\ be_units us s'.
Proof. intros H. inversion H; subst. exists h, l, s0. repeat split; try assumption; try lia. Qed.
Lemma be_units_empty s : be_units [] s -> s = [].
Proof. intros H. now inversion H. Qed.

Lemma units_read_loop us rs w : units_read us rs w -> forall s left, be_units us s -> be_units w left ->
  ucs2_loop s = {| u2_runes := rs; u2_err := half_err w left |}.
Proof.
  induction 1 as [|u us rs w HS _ IH|u v us rs w HP _ IH|u v us rs w HS HP _ IH|u HS]; intros s left HB HL.
  - apply be_units_empty in HB as ->. reflexivity.
  - apply be_units_head in HB as (h & l & s' & -> & H1 & H2 & -> & HB). cbn [ucs2_loop].
    unfold is_surrogate, in_range. replace ((55296 <=? h * 256 + l) && (h * 256 + l <=? 57343)) with false by (unfold surrogate in HS; lia).
    now rewrite (IH _ _ HB HL).
  - apply be_units_head in HB as (h & l & s' & -> & H1 & H2 & -> & HB).
    apply be_units_head in HB as (h2 & l2 & s2 & -> & H3 & H4 & -> & HB). unfold halves in HP. cbn [ucs2_loop].
    unfold is_surrogate, utf16_decode_rune, in_range.
    replace ((55296 <=? h * 256 + l) && (h * 256 + l <=? 57343)) with true by lia.
    replace ((55296 <=? h * 256 + l) && (h * 256 + l <=? 56319) && ((56320 <=? h2 * 256 + l2) && (h2 * 256 + l2 <=? 57343))) with true by lia.
    rewrite (IH _ _ HB HL). cbn [u2_runes u2_err]. do 2 f_equal. lia.
  - apply be_units_head in HB as (h & l & s' & -> & H1 & H2 & -> & HB).
    apply be_units_head in HB as (h2 & l2 & s2 & -> & H3 & H4 & -> & HB). unfold halves, surrogate in *. cbn [ucs2_loop].
    unfold is_surrogate, utf16_decode_rune, in_range.
    replace ((55296 <=? h * 256 + l) && (h * 256 + l <=? 57343)) with true by lia.
    replace ((55296 <=? h * 256 + l) && (h * 256 + l <=? 56319) && ((56320 <=? h2 * 256 + l2) && (h2 * 256 + l2 <=? 57343))) with false by lia.
    rewrite (IH _ _ HB HL). reflexivity.
  - apply be_units_head in HB as (h & l & s' & -> & H1 & H2 & -> & HB). apply be_units_empty in HB as ->.
    apply be_units_head in HL as (h' & l' & s' & -> & H3 & H4 & E & HB). apply be_units_empty in HB as ->.
    assert (h = h' /\ l = l') as [-> ->] by lia. unfold surrogate in HS. cbn [ucs2_loop].
    unfold is_surrogate, in_range. replace ((55296 <=? h' * 256 + l') && (h' * 256 + l' <=? 57343)) with true by lia. reflexivity.
Qed.

Definition unit16 (u : Z) : Prop := 0 <= u < 65536.
Lemma be_units_exist s : Forall is_byte s -> len s mod 2 = 0 -> exists us, be_units us s /\ Forall unit16 us.
Proof.
  revert s. apply (two_by_two (fun s => Forall is_byte s -> len s mod 2 = 0 -> exists us, be_units us s /\ Forall unit16 us)); [intros HB HE|intros h HB HE|intros h l s _ IH HB HE].
  - exists []. split; constructor.
  - exfalso. change (len [h]) with 1 in HE. discriminate HE.
  - pose proof (Forall_inv HB) as Hh. pose proof (Forall_inv (Forall_inv_tail HB)) as Hl. pose proof (Forall_inv_tail (Forall_inv_tail HB)) as HB2.
    destruct (IH HB2) as (us & B & F); [rewrite !len_cons in HE; lia|].
    exists (256 * h + l :: us). unfold is_byte in *. split; constructor; try assumption; try lia. unfold unit16. lia.
Qed.

Lemma units_read_exist us : Forall unit16 us -> exists rs w, units_read us rs w /\ Forall scalar rs /\ Forall unit16 w.
Proof.
  revert us. assert (ONE : forall u us, ~ surrogate u -> unit16 u -> (exists rs w, units_read us rs w /\ Forall scalar rs /\ Forall unit16 w) ->
      exists rs w, units_read (u :: us) rs w /\ Forall scalar rs /\ Forall unit16 w).
  { intros u us HS HU (rs & w & R & S & W). exists (u :: rs), w. unfold surrogate, unit16 in *.
    repeat split; [now apply ur_char|constructor; [unfold scalar; lia|exact S]|exact W]. }
  assert (NIL : exists rs w, units_read [] rs w /\ Forall scalar rs /\ Forall unit16 w) by (exists [], []; repeat constructor).
  apply (two_by_two (fun us => Forall unit16 us -> exists rs w, units_read us rs w /\ Forall scalar rs /\ Forall unit16 w)); [intros _; exact NIL|intros u HF|intros u v us IH1 IH HF].
  - assert (D : surrogate u \/ ~ surrogate u) by (unfold surrogate; lia). destruct D as [D|D].
    + exists [], [u]. repeat split; [now constructor|constructor|exact HF].
    + apply ONE; [exact D|exact (Forall_inv HF)|exact NIL].
  - pose proof (Forall_inv HF) as Hu. pose proof (Forall_inv_tail HF) as HF1.
    assert (D : surrogate u \/ ~ surrogate u) by (unfold surrogate; lia). destruct D as [D|D]; [|apply ONE; auto].
    destruct (IH (Forall_inv_tail HF1)) as (rs & w & R & S & W).
    assert (D2 : halves u v \/ ~ halves u v) by (unfold halves; lia). destruct D2 as [D2|D2].
    + eexists (_ :: rs), w. repeat split; [apply ur_pair; [exact D2|exact R]|constructor; [unfold halves in D2; unfold scalar; lia|exact S]|exact W].
    + exists (65533 :: rs), w. repeat split; [now apply ur_wrong|constructor; [unfold scalar; lia|exact S]|exact W].
Qed.

Lemma be_units_of us : Forall unit16 us -> exists s, be_units us s /\ Forall is_byte s.
Proof.
  induction 1 as [|u us Hu _ (s & B & F)]; [exists []; split; constructor|].
  exists (u / 256 :: u mod 256 :: s). unfold unit16 in Hu. split.
  - constructor; try lia; try assumption. 
  - repeat constructor; unfold is_byte; try lia; assumption.
Qed.
Lemma be_units_even us s : be_units us s -> len s mod 2 = 0 /\ Forall is_byte s.
Proof.
  induction 1 as [|u us h l s Hh Hl E _ [IH F]]; [split; [reflexivity|constructor]|].
  split; [rewrite !len_cons; lia|repeat constructor; unfold is_byte; try lia; assumption].
Qed.

(** ** Languages *)
Lemma mem_z_in n l : mem_z n l = true <-> In n l.
Proof.
  unfold mem_z. rewrite existsb_exists. split.
  - intros (x & I & E). apply Z.eqb_eq in E. now subst.
  - intros I. exists n. split; [exact I|apply Z.eqb_refl].
Qed.

Definition avail (locking : bool) (c : ud_cfg) : list Z := if locking then c_locking c else c_shift c.
Lemma all_nli_in n : In n all_nli <-> 1 <= n <= 13.
Proof. unfold all_nli. cbn [In]. lia. Qed.
Lemma apply_decode_in locking c o n : In n (avail locking (apply_decode_option c o)) <-> In n (avail locking c) \/ offers locking n o.
Proof.
  destruct o as [l|l|l|]; destruct locking; cbn [apply_decode_option avail c_locking c_shift]; rewrite ?in_app_iff, ?all_nli_in;
    (split; [intros [H|H]; [left; exact H|right; now constructor]|intros [H|H]; [left; exact H|inversion H; subst; try discriminate; right; assumption]]) || idtac.
  - split; [now left|]. intros [H|H]; [exact H|inversion H; discriminate].
  - split; [now left|]. intros [H|H]; [exact H|inversion H; discriminate].
Qed.
Lemma decode_cfg_in locking opts : forall c n, In n (avail locking (fold_left apply_decode_option opts c)) <-> In n (avail locking c) \/ Exists (offers locking n) opts.
Proof.
  induction opts as [|o opts IH]; intros c n; cbn [fold_left].
  - rewrite Exists_nil. tauto.
  - rewrite IH, apply_decode_in, Exists_cons. tauto.
Qed.

Lemma select_used locking opts l n : language_used locking opts l n ->
  let sel := select_nli l (if locking then 25 else 24) (avail locking (fold_left apply_decode_option opts ud_cfg_empty)) in
  sel = Some n \/ sel = None /\ n = 0.
Proof.
  intros H. cbv zeta. unfold select_nli. set (id := if locking then 25 else 24) in *.
  assert (A : forall m, mem_z m (avail locking (fold_left apply_decode_option opts ud_cfg_empty)) = true <-> Exists (offers locking m) opts).
  { intros m. rewrite mem_z_in, decode_cfg_in. destruct locking; cbn [avail ud_cfg_empty c_locking c_shift In]; tauto. }
  destruct H as [i n more L E X|N].
  - apply C55_ie in L. fold id. unfold id in L |- *. rewrite L, E. apply A in X. rewrite X. now left.
  - destruct (find_ie l id) as [i|] eqn:F; [|now right]. destruct (ie_data i) as [|m more] eqn:E; [now right|].
    destruct (mem_z m _) eqn:M; [|now right]. exfalso. apply A in M. revert M. apply (N i m more); [now apply C55_ie|exact E].
Qed.
Lemma used_exists locking opts l : exists n, language_used locking opts l n.
Proof.
  destruct (find_ie l (if locking then 25 else 24)) as [i|] eqn:F.
  - destruct (ie_data i) as [|m more] eqn:E.
    + exists 0. apply l_default. intros j n more L E'. apply C55_ie in L. congruence.
    + assert (D : Exists (offers locking m) opts \/ ~ Exists (offers locking m) opts).
      { pose proof (decode_cfg_in locking opts ud_cfg_empty m) as A. destruct (mem_z m (avail locking (fold_left apply_decode_option opts ud_cfg_empty))) eqn:M.
        - left. apply mem_z_in, A in M as [M|M]; [destruct locking; destruct M|exact M].
        - right. intros X. assert (M' : mem_z m (avail locking (fold_left apply_decode_option opts ud_cfg_empty)) = true) by (apply mem_z_in, A; now right). congruence. }
      destruct D as [D|D].
      * exists m. apply (l_named _ _ _ i m more); [now apply C55_ie|exact E|exact D].
      * exists 0. apply l_default. intros j n more' L E'. apply C55_ie in L. rewrite F in L. injection L as <-. rewrite E in E'. injection E' as <- _. exact D.
  - exists 0. apply l_default. intros j n more L _. apply C55_ie in L. congruence.
Qed.

Lemma default_set : default_decoder = new_decoder 0. Proof. reflexivity. Qed.
Lemma default_ext : default_ext_decoder = new_ext_decoder 0. Proof. reflexivity. Qed.

(** ** User data *)
Definition left_err (left : bytes) : option gerr := match left with [] => None | _ => Some (Ucs2DanglingSurrogate left) end.
Lemma half_left w left : be_units w left -> half_err w left = left_err left.
Proof. destruct 1; reflexivity. Qed.

Lemma ucs2_decode_even s : len s mod 2 = 0 -> ucs2_decode s = ucs2_loop s.
Proof. apply ucs2_decode_loop. Qed.

Lemma data_read_computed opts alpha l ud text left : data_read opts alpha l ud text left ->
  decode_user_data ud l alpha opts = {| dd_text := text; dd_err := left_err left |}.
Proof.
  intros H. unfold decode_user_data, AlphaUCS2, Alpha8Bit.
  destruct H as [A|us rs w text left A B R T W|a b text A1 A2 LA LB T].
  - rewrite A. reflexivity.
  - rewrite A. cbn [Z.eqb Pos.eqb]. destruct (be_units_even _ _ B) as [E _]. rewrite (ucs2_decode_even _ E).
    rewrite (units_read_loop _ _ _ R _ _ B W). cbn [u2_runes u2_err]. rewrite (half_left _ _ W), (utf8_text_fun _ _ T). reflexivity.
  - replace (alpha =? 2) with false by lia. replace (alpha =? 1) with false by lia. cbv zeta.
    rewrite gsm7_decode_total by reflexivity. apply select_used in LA. apply select_used in LB. cbv zeta in LA, LB. cbn [avail] in LA, LB.
    unfold lockingIEI, shiftIEI.
    assert (S1 : gd_set (gsm7_new_decoder (select_nli l 25 (c_locking (fold_left apply_decode_option opts ud_cfg_empty)))
               (select_nli l 24 (c_shift (fold_left apply_decode_option opts ud_cfg_empty))) false) = new_decoder a).
    { cbn [gsm7_new_decoder gd_set]. destruct LA as [-> | [-> ->]]; reflexivity. }
    assert (S2 : gd_ext (gsm7_new_decoder (select_nli l 25 (c_locking (fold_left apply_decode_option opts ud_cfg_empty)))
               (select_nli l 24 (c_shift (fold_left apply_decode_option opts ud_cfg_empty))) false) = new_ext_decoder b).
    { cbn [gsm7_new_decoder gd_ext]. destruct LB as [-> | [-> ->]]; reflexivity. }
    rewrite S1, S2, <- (utf8_text_fun _ _ T). reflexivity.
Qed.

Lemma data_odd_computed opts alpha l ud : data_odd alpha ud ->
  decode_user_data ud l alpha opts = {| dd_text := []; dd_err := Some Ucs2InvalidLength |}.
Proof.
  intros [k A L]. unfold decode_user_data. rewrite A. unfold AlphaUCS2. cbn [Z.eqb Pos.eqb].
  unfold ucs2_decode. pose proof (len_nonneg ud). replace (len ud =? 0) with false by lia.
  replace (Z.land (len ud) 1) with 1; [reflexivity|]. rewrite (Z.land_ones _ 1) by lia. change (2 ^ 1) with 2. lia.
Qed.

Lemma data_exists opts alpha l ud : Forall is_byte ud ->
  (exists text left, data_read opts alpha l ud text left /\ Forall is_byte left) \/ data_odd alpha ud.
Proof.
  intros HB. assert (D : alpha = 1 \/ alpha = 2 \/ alpha <> 1 /\ alpha <> 2) by lia.
  destruct D as [A|[A|[A1 A2]]].
  - left. exists ud, []. split; [now constructor|constructor].
  - destruct (Z.eq_dec (len ud mod 2) 0) as [E|E].
    + left. destruct (be_units_exist _ HB E) as (us & B & U). destruct (units_read_exist _ U) as (rs & w & R & S & W).
      destruct (be_units_of _ W) as (left & BL & BB). exists (utf8_of rs), left. split; [|exact BB].
      apply (dr_ucs2 _ _ _ _ us rs w); auto. now apply utf8_text_utf8_of.
    + right. apply (do_ucs2 _ _ (len ud / 2)); [exact A|lia].
  - left. destruct (used_exists true opts l) as (a & LA). destruct (used_exists false opts l) as (b & LB).
    exists (utf8_of (gsm7_chars (assoc (new_decoder a)) (assoc (new_ext_decoder b)) ud)), []. split; [|constructor].
    apply (dr_septets _ _ _ _ a b); auto. apply utf8_text_utf8_of, gsm7_chars_scalar; [exact (tk_scalar _ _ (locking_ok a))|exact (tk_scalar _ _ (shift_ok b))].
Qed.

(** The alphabet of a TPDU. *)
Lemma alphabet_in_computed s : is_byte (DCS s) -> dcs_alpha (DCS s) = alphabet_in s.
Proof.
  intros HD. unfold alphabet_in. pose proof (dcs_alpha_spec _ HD) as E. rewrite E.
  assert (R : forall a, alphabet_of (DCS s) = Some a -> 0 <= a <= 2).
  { intros a. unfold alphabet_of. destruct (coding_group (DCS s)); intros H; try discriminate; injection H as <-; try lia.
    assert (B : 0 <= DCS s / 4 mod 4 < 4) by lia. destruct (Z.to_nat (DCS s / 4 mod 4)) as [|[|[|[|n]]]] eqn:N; cbn [nth]; try lia. }
  destruct (alphabet_of (DCS s)) as [a|]; [|reflexivity]. specialize (R a eq_refl).
  assert (D : a = 0 \/ a = 1 \/ a = 2) by lia. destruct D as [-> |[-> | ->]]; reflexivity.
Qed.

(** ** Messages *)
Definition carried (left : bytes) : option bytes := match left with [] => None | _ => Some left end.

Lemma loop_step left s segs opts : decode_loop (Some s :: segs) (carried left) opts =
  let d := decode_user_data (left ++ UD s) (ies (UDH s)) (dcs_alpha (DCS s)) opts in
  match dd_err d with
  | None => rest <- decode_loop segs None opts ;; Ok (dd_text d ++ rest)
  | Some (Ucs2DanglingSurrogate b) => rest <- decode_loop segs (Some b) opts ;; Ok (dd_text d ++ rest)
  | Some e => Err e
  end.
Proof. cbn [decode_loop]. destruct left; reflexivity. Qed.

Lemma loop_read left s segs opts text left' : is_byte (DCS s) -> data_read opts (alphabet_in s) (ies (UDH s)) (left ++ UD s) text left' ->
  decode_loop (Some s :: segs) (carried left) opts = (rest <- decode_loop segs (carried left') opts ;; Ok (text ++ rest)).
Proof.
  intros HD H. rewrite loop_step. cbv zeta. rewrite (alphabet_in_computed _ HD), (data_read_computed _ _ _ _ _ _ H). cbn [dd_err dd_text].
  destruct left'; reflexivity.
Qed.

Lemma message_computed opts left segs r : message_read opts left segs r -> Forall octet_fields segs -> decode_loop segs (carried left) opts = r.
Proof.
  induction 1 as [|left NE|left segs|left s segs O|left s segs text left' more D _ IH|left s segs text left' e D _ IH|left s segs text left' D _ IH]; intros HF.
  - reflexivity.
  - destruct left; [congruence|reflexivity].
  - reflexivity.
  - rewrite loop_step. cbv zeta. rewrite (alphabet_in_computed _ (proj1 (Forall_inv HF))), (data_odd_computed _ _ _ _ O). reflexivity.
  - rewrite (loop_read _ _ _ _ _ _ (proj1 (Forall_inv HF)) D), (IH (Forall_inv_tail HF)). reflexivity.
  - rewrite (loop_read _ _ _ _ _ _ (proj1 (Forall_inv HF)) D), (IH (Forall_inv_tail HF)). reflexivity.
  - rewrite (loop_read _ _ _ _ _ _ (proj1 (Forall_inv HF)) D), (IH (Forall_inv_tail HF)). reflexivity.
Qed.

Lemma message_exists opts : forall segs left, Forall octet_fields segs -> Forall is_byte left -> exists r, message_read opts left segs r.
Proof.
  induction segs as [|[s|] segs IH]; intros left HF HL.
  - destruct left as [|x left]; [eexists; apply mr_end|eexists; apply mr_left; discriminate].
  - destruct (Forall_inv HF) as [_ HU]. destruct (data_exists opts (alphabet_in s) (ies (UDH s)) (left ++ UD s)) as [(text & left' & D & B)|O]; [now apply Forall_app| |eexists; now apply mr_odd].
    destruct (IH left' (Forall_inv_tail HF) B) as (r & R).
    assert (E : forall r, message_read opts left' segs r -> r <> Diverge) by (destruct 1; discriminate).
    destruct r as [more|e| |]; [eexists; eapply mr_text; eassumption|eexists; eapply mr_error; eassumption|eexists; eapply mr_panic; eassumption|now apply E in R].
  - eexists. apply mr_nil.
Qed.

Lemma message_iff opts segs r : Forall octet_fields segs -> (decode segs opts = r <-> message_read (or_all opts) [] segs r).
Proof.
  intros HF. unfold decode. fold (or_all opts). split.
  - intros <-. destruct (message_exists (or_all opts) segs [] HF (Forall_nil _)) as (r & R). pose proof (message_computed _ _ _ _ R HF) as E.
    cbn [carried] in E. now rewrite E.
  - intros R. exact (message_computed _ _ _ _ R HF).
Qed.
