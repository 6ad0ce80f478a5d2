(** C69: the errors the library returns, and their texts.  The specification is
    in SpecErrorText.v. *)
From Coq Require Import String Ascii.
From Verif Require Import GoBase GoLemmas SafeLemmas Utf SpecText UtfProofs Charset Gsm7 CharsetProofs Ucs2 Dcs FirstOctet Address GoTime ValidityPeriod
  UserData Tpdu Sms PduMode Collector Print TpduError TpduSafeProofs ErrorText SpecErrorText ErrorTextProofs ErrorsProofs.

(** ** The text tells the error *)
Theorem C69_text_tells : forall e e', proper_error e -> proper_error e' -> error_text e = error_text e' -> e = e'.
Proof. exact error_text_inj. Qed.
Print Assumptions C69_text_tells.

(** ** Which errors there are *)
Lemma decode_cause_proper c : decode_cause c -> proper_error c.
Proof. intros []; cbn; auto; unfold is_byte; lia. Qed.
Lemma encode_cause_proper c : encode_cause c -> proper_error c.
Proof. intros []; cbn; auto. Qed.

(** Unmarshal names the field, the octet and the cause. *)
Theorem C69_unmarshal_errors : forall src mo e, Forall is_byte src -> unmarshal src mo = Err e ->
  exists path off cause, e = DecodeErr path off cause /\ field_path path = true /\ 0 <= off <= len src /\
    decode_cause cause /\ proper_error e.
Proof.
  intros src mo e F H. unfold unmarshal in H.
  pose proof (unmarshal_errs (set_Direction zero_tpdu (if mo then MO else MT)) src F) as E. rewrite H in E.
  destruct E as (p & o & c & -> & P & C); [destruct mo; [right|left]; reflexivity|].
  pose proof (tpdu_unmarshal_safe (set_Direction zero_tpdu (if mo then MO else MT)) src F) as S. rewrite H in S.
  destruct S as (p' & o' & c' & X & L). injection X as <- <- <-.
  exists p, o, c. repeat split; auto; try apply L. now apply decode_cause_proper.
Qed.
Print Assumptions C69_unmarshal_errors.

(** So does pdumode.UnmarshalBinary; the hex form adds the errors of
    encoding/hex. *)
Theorem C69_pdumode_errors :
  (forall src e, pdu_unmarshal src = Err e ->
     exists path off cause, e = DecodeErr path off cause /\ field_path path = true /\ decode_cause cause /\ proper_error e) /\
  (forall s e, Forall is_byte s -> pdu_unmarshal_hex s = Err e ->
     proper_error e /\
     (e = HexLength \/ (exists c, is_byte c /\ e = HexInvalidByte c) \/
      exists b, hex_decode s = Ok b /\ pdu_unmarshal b = Err e)) /\
  (forall p e, Forall is_byte (a_addr (p_smsc p)) -> pdu_marshal p = Err e ->
     exists path cause, e = EncodeErr path cause /\ field_path path = true /\ encode_cause cause /\ proper_error e).
Proof.
  assert (U : forall src e, pdu_unmarshal src = Err e ->
     exists path off cause, e = DecodeErr path off cause /\ field_path path = true /\ decode_cause cause /\ proper_error e).
  { intros src e H. pose proof (pdu_unmarshal_errs src) as E. rewrite H in E. destruct E as (p & o & c & -> & P & C).
    exists p, o, c. repeat split; auto. now apply decode_cause_proper. }
  split; [exact U|]. split.
  - intros s e F H. unfold pdu_unmarshal_hex in H. pose proof (hex_decode_errs s F) as E. destruct (hex_decode s) as [b|e'| |] eqn:HD; try discriminate H.
    + cbn [bind] in H. split; [|right; right; now exists b]. now destruct (U b e H) as (p & o & c & _ & _ & _ & P).
    + cbn [bind] in H. injection H as <-. destruct E as [->|(c & C & ->)]; [now split; [exact I|left]|]. split; [exact C|right; left; now exists c].
  - intros p e F H. pose proof (pdu_marshal_errs p F) as E. rewrite H in E. destruct E as (f & c & -> & P & C).
    exists f, c. repeat split; auto. now apply encode_cause_proper.
Qed.
Print Assumptions C69_pdumode_errors.

(** MarshalBinary names the field and the cause, or the type if it is not
    defined.  (The address of a TPDU is a Go string, hence octets.) *)
Theorem C69_marshal_errors : forall t e,
  Forall is_byte (a_addr (OA t)) -> Forall is_byte (a_addr (DA t)) -> Forall is_byte (a_addr (RA t)) ->
  tpdu_marshal t = Err e ->
  (exists path cause, e = EncodeErr path cause /\ field_path path = true /\ encode_cause cause /\ proper_error e) \/
  (e = ErrUnsupportedSmsType (tpdu_type t) /\
   ~ In (tpdu_type t) [SmsDeliver; SmsDeliverReport; SmsSubmitReport; SmsSubmit; SmsStatusReport; SmsCommand]).
Proof.
  intros t e FO FD FR H. pose proof (tpdu_marshal_errs t FO FD FR) as E. rewrite H in E. destruct E as [(p & c & -> & P & C)| ->].
  - left. exists p, c. repeat split; auto. now apply encode_cause_proper.
  - right. split; [reflexivity|]. intros I. unfold tpdu_marshal in H.
    assert (N : forall (r : res bytes) f x, on_err r (encode_error f) <> Err (ErrUnsupportedSmsType x)).
    { intros [b|e'| |] f x; cbn; try discriminate. destruct e'; discriminate. }
    cbn [In] in I.
    repeat match type of H with (if ?x =? ?n then _ else _) = _ => destruct (x =? n) eqn:?; [now apply N in H|] end.
    lia.
Qed.
Print Assumptions C69_marshal_errors.

Definition half_pair (d : bytes) : Prop := exists h l, d = [h; l] /\ is_byte h /\ is_byte l /\ 216 <= h <= 223.
Lemma user_data_errs ud l a opts : Forall is_byte ud ->
  match dd_err (decode_user_data ud l a opts) with
  | None => True
  | Some e => e = Ucs2InvalidLength \/ exists d, half_pair d /\ e = Ucs2DanglingSurrogate d
  end.
Proof.
  intros F. unfold decode_user_data. destruct (a =? AlphaUCS2); [|destruct (a =? Alpha8Bit); [exact I|]].
  - cbn [dd_err]. destruct (ucs2_decode_errors ud F) as (O & E).
    assert (len ud mod 2 = 1 \/ len ud mod 2 = 0) as [L|L] by lia.
    + rewrite (O L). now left.
    + destruct (E L) as [-> |(s0 & h & l0 & -> & S & -> & _)]; [exact I|]. right. exists [h; l0]. split; [|reflexivity].
      exists h, l0. split; [reflexivity|]. apply Forall_app in F as (_ & F). pose proof (Forall_inv F) as H. apply Forall_inv_tail, Forall_inv in F.
      split; [exact H|]. split; [exact F|]. unfold is_surrogate, in_range in S. unfold is_byte in *. lia.
  - rewrite gsm7_decode_total by reflexivity. exact I.
Qed.

(** Decode returns the errors of UCS-2 only: 7-bit and 8-bit user data are
    always decoded. *)
Theorem C69_decode_errors : forall segs opts e, (forall t, In (Some t) segs -> Forall is_byte (UD t)) ->
  decode segs opts = Err e ->
  e = Ucs2InvalidLength \/
  exists h l, e = Ucs2DanglingSurrogate [h; l] /\ is_byte h /\ is_byte l /\ 55296 <= 256 * h + l <= 57343.
Proof.
  intros segs opts e HB H.
  assert (L : e = Ucs2InvalidLength \/ exists d, half_pair d /\ e = Ucs2DanglingSurrogate d).
  { revert H. unfold decode. generalize (match opts with [] => [OptAllCharsets] | _ => opts end). clear opts. intros opts.
    assert (L : forall dang, match dang with Some d => half_pair d | None => True end -> decode_loop segs dang opts = Err e ->
      e = Ucs2InvalidLength \/ exists d, half_pair d /\ e = Ucs2DanglingSurrogate d); [|now apply (L None)].
    induction segs as [|[t|] segs IH]; intros dang D H; cbn [decode_loop] in H; [| |discriminate].
    - destruct dang as [d|]; [|discriminate]. injection H as <-. right. now exists d.
    - assert (HT : forall t, In (Some t) segs -> Forall is_byte (UD t)) by (intros x X; apply HB; now right).
      specialize (IH HT). clear HT.
      set (ud := match dang with Some b => b ++ UD t | None => UD t end) in H.
      assert (F : Forall is_byte ud).
      { assert (FU : Forall is_byte (UD t)) by (apply HB; now left). subst ud. destruct dang as [d|]; [|exact FU].
        destruct D as (h & l & -> & A & B & _). constructor; [exact A|]. now constructor. }
      pose proof (user_data_errs ud (ies (UDH t)) (dcs_alpha (DCS t)) opts F) as E.
      destruct (decode_user_data ud (ies (UDH t)) (dcs_alpha (DCS t)) opts) as [txt [e1|]]; cbn [dd_err dd_text] in *.
      + destruct E as [->|(d & Q & ->)]; [injection H as <-; now left|].
        destruct (decode_loop segs (Some d) opts) eqn:R; cbn [bind] in H; try discriminate. injection H as <-. now apply (IH (Some d)).
      + destruct (decode_loop segs None opts) eqn:R; cbn [bind] in H; try discriminate. injection H as <-. now apply (IH None). }
  destruct L as [->|(d & (h & l & -> & A & B & C) & ->)]; [now left|]. right. exists h, l. unfold is_byte in *. repeat split; auto; lia.
Qed.
Print Assumptions C69_decode_errors.

(** Collect. *)
Theorem C69_collect_errors : forall cfg s g s' d e, collect cfg s g = (s', CReturn d (Some e)) ->
  d = None /\
  In e [ErrClosed; ErrReassemblyInconsistency; ErrDuplicateSegment; ErrUnsupportedSmsType (tpdu_type (sg_pdu g))].
Proof.
  intros cfg s g s' d e H.
  assert (K : forall n r, match snd (pdu_key (sg_pdu g) n r) with None => True | Some x => x = ErrUnsupportedSmsType (tpdu_type (sg_pdu g)) end).
  { intros n r. unfold pdu_key. destruct (_ =? _); [exact I|]. now destruct (_ =? _). }
  assert (S : forall s id key n q err s' d, match err with None => True | Some x => x = ErrUnsupportedSmsType (tpdu_type (sg_pdu g)) end ->
    store cfg s id key n q g err = (s', CReturn d (Some e)) -> d = None /\ e = ErrUnsupportedSmsType (tpdu_type (sg_pdu g))).
  { clear H. intros s0 id key n q err s1 d1 E X. unfold store in X. destruct (nth_error _ _); [|discriminate].
    destruct (_ =? n); [discriminate|]. destruct (cf_timeout cfg); injection X as _ <- ->; now split. }
  cbn [In]. unfold collect in H. destruct (c_closed s); [injection H as _ <- <-; auto|].
  destruct (tpdu_concat_info (sg_pdu g)) as [[[n q] r]|]; [|discriminate].
  destruct (n <? 2); [discriminate|]. destruct (_ || _); [injection H as _ <- <-; auto|].
  specialize (K n r). destruct (pdu_key (sg_pdu g) n r) as [key err]. cbn [snd] in K.
  destruct (klookup (c_pipes s) key) as [id|].
  - destruct (nth_error (c_heap s) id) as [p|]; [|discriminate]. destruct (idx (p_segs p) (q - 1)) as [[x|]|x| |]; try discriminate.
    + injection H as _ <- <-. auto 6.
    + destruct (p_cleanup p) as [tid|]; [destruct (stop_timer s tid) as [s1 [|]]; [|destruct (new_pipe s1 key n) as [s2 id2]]|];
        apply S in H as [-> ->]; auto 6.
  - destruct (new_pipe s key n) as [s2 id2]. apply S in H as [-> ->]; auto 6.
Qed.
Print Assumptions C69_collect_errors.

(** ** Examples *)
Example C69_examples :
  let text r := match r with Err e => error_text e | _ => [] end in
  text (unmarshal [0; 4; 145] false) = str "tpdu: error decoding SmsDeliver.oa.addr at octet 3: underflow" /\
  text (unmarshal [3] false) =
    str "tpdu: error decoding tpdu.firstOctet at octet 0: unsupported SMS type: 0x6" /\
  text (unmarshal [0; 0; 129; 0; 0; 26; 16; 16; 0; 0; 0; 0; 0] false) =
    str "tpdu: error decoding SmsDeliver.scts at octet 5: bcd: invalid octet: 0x1a" /\
  error_text (SemiInvalidDigit 80) = str "semioctet: invalid digit: 'P' - 0x50" /\
  error_text (Gsm7InvalidUTF8 9787) = str "gsm7: invalid utf8 '" ++ [226; 152; 187] ++ str "' (U+263B)" /\
  error_text (Ucs2DanglingSurrogate [216; 61]) = str "ucs2: dangling surrogate: []byte{0xd8, 0x3d}" /\
  error_text (HexInvalidByte 103) = str "encoding/hex: invalid byte: U+0067 'g'" /\
  error_text (new_decode_error "nested" 40 (new_decode_error "inner" 2 ErrInvalid)) =
    str "tpdu: error decoding nested.inner at octet 42: invalid".
Proof. vm_compute. repeat split. Qed.

(** Every cause of a refusal occurs: octets, whether they are from the mobile,
    and the error. *)
Example C69_causes :
  let cause r := match r with Err (DecodeErr _ _ c) => Some c | _ => None end in
  cause (unmarshal [] false) = Some ErrUnderflow /\
  cause (unmarshal [0; 0; 129; 0; 0; 16; 16; 16; 0; 0; 0; 0; 1; 65; 65; 65] false) = Some ErrOverlength /\
  cause (unmarshal [0; 0; 129; 0; 128; 16; 16; 16; 0; 0; 0; 0; 1; 65] false) = Some ErrInvalid /\
  cause (unmarshal [3] true) = Some (ErrUnsupportedSmsType 7) /\
  cause (unmarshal [9; 0; 0; 129; 0; 0; 1; 1; 1; 0; 0; 0; 0; 0] true) = Some ErrNonZero /\
  cause (unmarshal [0; 3; 129; 33; 67; 0; 0; 16; 16; 16; 0; 0; 0; 0; 0] false) = Some SemiMissingFill /\
  cause (unmarshal [0; 0; 129; 0; 8; 16; 16; 16; 0; 0; 0; 0; 1; 65] false) = Some ErrOddUCS2Length /\
  cause (unmarshal [0; 0; 129; 0; 0; 26; 16; 16; 0; 0; 0; 0; 0] false) = Some (BcdInvalidOctet 26) /\
  cause (unmarshal [0; 4; 208; 155; 0; 0; 0; 16; 16; 16; 0; 0; 0; 0; 0] false) = Some (Gsm7InvalidSeptet 1).
Proof. vm_compute. repeat split. Qed.
