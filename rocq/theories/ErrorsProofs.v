(** Proofs about which errors the library returns. *)
From Coq Require Import String Ascii.
From Verif Require Import GoBase GoLemmas SafeLemmas Utf SpecText UtfProofs Bcd Semioctet SevenBit SevenBitProofs Charset Gsm7 Dcs FirstOctet TpduError
  Address GoTime ValidityPeriod UserData Tpdu PduMode SpecErrorText TpduSafeProofs PrintProofs.

Definition errs {A} (Q : gerr -> Prop) (r : res A) : Prop := match r with Err e => Q e | _ => True end.
Lemma errs_bind {A B} Q (m : res A) (k : A -> res B) : errs Q m -> (forall a, m = Ok a -> errs Q (k a)) -> errs Q (bind m k).
Proof. intros H K. destruct m; cbn; auto. Qed.
Lemma errs_if {A} Q (c : bool) (a b : res A) : errs Q a -> errs Q b -> errs Q (if c then a else b).
Proof. now destruct c. Qed.
Lemma errs_weaken {A} (Q Q' : gerr -> Prop) (r : res A) : errs Q r -> (forall e, Q e -> Q' e) -> errs Q' r.
Proof. destruct r; cbn; auto. Qed.

(** ** Decoding *)
Definition located (e : gerr) : Prop := exists p o c, e = DecodeErr p o c /\ field_path p = true /\ decode_cause c.
Definition bare (e : gerr) : Prop := located e \/ decode_cause e \/ e = EOF.
Lemma path_app a b : field_path a = true -> field_path b = true -> field_path (a ++ b) = true.
Proof. intros A B. induction a as [|c a IH]; [exact B|]. cbn in *. apply andb_true_iff in A as [-> A]. now rewrite IH. Qed.
Lemma nde_located f o e : field_path f = true -> bare e -> located (new_decode_error f o e).
Proof.
  intros F [(p & o' & c & -> & P & C)|[C| ->]].
  - exists (f ++ "." ++ p)%string, (o' + o), c. split; [reflexivity|]. split; [|exact C]. apply path_app; [exact F|]. now apply (path_app ".").
  - exists f, o, e. split; [|now split]. now destruct C.
  - exists f, o, ErrUnderflow. split; [reflexivity|]. split; [exact F|constructor].
Qed.
Lemma nde_errs {A} f o (r : res A) : field_path f = true -> errs bare r -> errs located (on_err r (new_decode_error f o)).
Proof. intros F H. destruct r; cbn in *; auto. now apply nde_located. Qed.
Lemma located_bare {A} (r : res A) : errs located r -> errs bare r.
Proof. intros H. eapply errs_weaken; [exact H|]. now left. Qed.
Lemma errs_idx {A} Q (l : list A) i : errs Q (idx l i).
Proof. unfold idx. destruct (i <? 0); [exact I|]. now destruct (nth_error _ _). Qed.
Lemma errs_slice {A} Q (l : list A) i j : errs Q (slice l i j).
Proof. unfold slice. now destruct (_ && _). Qed.
Lemma errs_slice_from {A} Q (l : list A) i : errs Q (slice_from l i).
Proof. apply errs_slice. Qed.

Ltac cause := first [now constructor | right; left; now constructor].
Ltac leaf := cbn [errs]; first [exact I | cause | apply nde_located; [reflexivity|right; left; constructor] | apply nde_located; [reflexivity|right; right; reflexivity]].
Ltac step :=
  first [ apply errs_idx | apply errs_slice | apply errs_slice_from
        | apply errs_bind; [|intros ? ?] | apply errs_if | progress leaf ].


Lemma bcd_decode_errs b : is_byte b -> errs bare (bcd_decode b).
Proof. intros H. unfold bcd_decode. apply errs_if; [|exact I]. right. left. now constructor. Qed.
Lemma bcd_signed_errs b : is_byte b -> errs bare (bcd_decode_signed b).
Proof. intros H. unfold bcd_decode_signed. apply errs_if; [|now apply errs_if]. right. left. now constructor. Qed.
Lemma ts_unmarshal_errs src : Forall is_byte src -> errs bare (ts_unmarshal src).
Proof.
  intros F. unfold ts_unmarshal. apply errs_if; [leaf|].
  do 6 (apply errs_bind; [apply errs_idx|intros ? B]; apply errs_bind; [apply bcd_decode_errs; eapply idx_byte; eassumption|intros ? _]; clear B).
  apply errs_bind; [apply errs_idx|intros ? B]; apply errs_bind; [apply bcd_signed_errs; eapply idx_byte; eassumption|intros ? _]. exact I.
Qed.
Lemma semi_loop_errs dlen src : forall out ri, errs bare (semi_decode_loop dlen src out ri).
Proof.
  induction src as [|o src IH]; intros out ri; cbn [semi_decode_loop]; (apply errs_if; [exact I|]); [exact I|].
  do 2 (apply errs_bind; [apply errs_idx|intros ? _]). apply errs_if; [leaf|]. apply errs_if; [apply IH|]. apply errs_if; [apply IH|exact I].
Qed.
Lemma gsm7_loop_errs d src : Forall (fun g => 0 <= g < 128) src -> forall esc, errs bare (gsm7_decode_loop d esc src).
Proof.
  induction 1 as [|g src G F IH]; intros e; cbn [gsm7_decode_loop]; [now destruct e|].
  assert (R : forall (k : bytes -> res bytes) b, (forall x, errs bare (k x)) -> errs bare (bind (gsm7_decode_loop d b src) k)).
  { intros k b K. apply errs_bind; [apply IH|intros ? _; apply K]. }
  assert (L : errs bare (Err (A:=bytes) (Gsm7InvalidSeptet g))) by (right; left; now constructor).
  assert (S : errs bare match assoc (gd_set d) g with
        | Some m => rest <- gsm7_decode_loop d false src ;; Ok (encode_rune m ++ rest)
        | None => if gd_strict d then Err (Gsm7InvalidSeptet g)
                  else rest <- gsm7_decode_loop d false src ;; Ok (sp :: rest) end).
  { destruct (assoc (gd_set d) g); [apply R; intros; exact I|]. apply errs_if; [exact L|apply R; intros; exact I]. }
  destruct e.
  - apply errs_if; [apply R; intros; exact I|]. destruct (assoc (gd_ext d) g); [apply R; intros; exact I|]. apply errs_if; [exact L|exact S].
  - apply errs_if; [apply IH|exact S].
Qed.
Lemma addr_unmarshal_errs src : Forall is_byte src -> errs located (addr_unmarshal src).
Proof.
  intros F. unfold addr_unmarshal. apply errs_if; [leaf|]. apply errs_bind; [apply errs_idx|intros l _].
  apply errs_bind; [apply errs_idx|intros toa _]. apply errs_if; [leaf|]. apply errs_bind; [apply errs_slice|intros body B].
  pose proof (slice_bytes _ _ _ _ F B) as FB.
  apply errs_if.
  - apply errs_bind; [apply errs_if; [apply errs_slice|exact I]|intros u U].
    assert (FU : Forall (fun g => 0 <= g < 128) u).
    { assert (G : Forall (fun g => 0 <= g < 128) (unpack7bit body 0)) by (apply (unpack7bit_spec body 0 FB); lia).
      destruct (_ <? _); [|apply ok_inj in U as <-; exact G].
      unfold slice in U. destruct (_ && _); [|discriminate]. apply ok_inj in U as <-. now apply Forall_firstn'. }
    apply errs_bind; [|intros ? _; exact I]. apply nde_errs; [reflexivity|]. now apply gsm7_loop_errs.
  - apply errs_bind; [|intros [ba n] _; apply errs_if; leaf]. apply nde_errs; [reflexivity|]. apply semi_loop_errs.
Qed.
Lemma check_fill_errs src n : forall i, errs located (check_fill src i n).
Proof. induction n as [|n IH]; intros i; cbn [check_fill]; [exact I|]. apply errs_bind; [apply errs_idx|intros ? _]. apply errs_if; [leaf|apply IH]. Qed.
Lemma vp_unmarshal_errs v src f : Forall is_byte src -> errs bare (vp_unmarshal v src f).
Proof.
  intros F. unfold vp_unmarshal. apply errs_if; [apply errs_bind; [now apply ts_unmarshal_errs|intros; exact I]|].
  apply errs_if; [|apply errs_if; [|apply errs_if; [exact I|]]].
  - apply errs_bind; [|intros [a b] _; exact I]. unfold vp_unmarshal_enhanced. apply errs_if; [leaf|].
    apply errs_bind; [apply errs_idx|intros efi _]. apply errs_bind.
    + apply located_bare. apply errs_if; [exact I|]. apply errs_if; [apply errs_bind; [apply errs_idx|intros; exact I]|].
      apply errs_if; [apply errs_bind; [apply errs_idx|intros; exact I]|]. apply errs_if; [|leaf].
      do 3 (apply errs_bind; [apply errs_idx|intros ? B]; apply errs_bind; [apply nde_errs; [reflexivity|apply bcd_decode_errs; eapply idx_byte; eassumption]|intros ? _]; clear B).
      exact I.
    + intros [d u] _. apply errs_bind; [apply located_bare, check_fill_errs|intros; exact I].
  - apply errs_if; [leaf|]. apply errs_bind; [apply errs_idx|intros; exact I].
  - apply located_bare. leaf.
Qed.
Lemma udh_loop_errs src lim fuel : forall ri, errs located (udh_loop fuel src lim ri).
Proof.
  induction fuel as [|n IH]; intros ri; cbn [udh_loop]; (apply errs_if; [exact I|]); [exact I|]. apply errs_if; [leaf|].
  do 2 (apply errs_bind; [apply errs_idx|intros ? _]). apply errs_if; [leaf|]. apply errs_bind; [apply errs_slice|intros ? _].
  apply errs_bind; [apply IH|intros; exact I].
Qed.
Lemma udh_unmarshal_errs src : errs located (udh_unmarshal src).
Proof.
  unfold udh_unmarshal. apply errs_if; [leaf|]. apply errs_bind; [apply errs_idx|intros ? _]. apply errs_if; [leaf|].
  apply errs_bind; [apply udh_loop_errs|intros; exact I].
Qed.
Lemma alphabet_errs t : errs (fun e => e = ErrInvalid) (tpdu_alphabet t).
Proof.
  unfold tpdu_alphabet, dcs_alphabet, dcs_alphabet_raw.
  repeat match goal with |- context [if ?c then _ else _] => destruct c end; cbn; auto.
Qed.
Lemma decode_7bit_errs a b c : errs bare (decode_7bit a b c).
Proof.
  unfold decode_7bit. apply errs_if; [leaf|]. apply errs_if; [|exact I]. apply errs_if; [leaf|].
  apply errs_bind; [apply errs_idx|intros ? _]. apply errs_if; [leaf|apply errs_slice].
Qed.
Lemma decode_ud_errs t src : errs located (decode_ud t src).
Proof.
  unfold decode_ud. apply errs_if; [leaf|]. apply errs_bind; [apply errs_idx|intros udl _]. apply errs_if; [exact I|].
  apply errs_bind.
  { apply nde_errs; [reflexivity|]. eapply errs_weaken; [apply alphabet_errs|]. intros e ->. right. left. constructor. }
  intros al _. apply errs_if; [leaf|]. apply errs_if; [leaf|].
  apply errs_bind.
  { apply errs_if; [|exact I]. apply errs_bind; [apply errs_slice_from|intros s _]. apply nde_errs; [reflexivity|]. apply located_bare, udh_unmarshal_errs. }
  intros [h hl] _. apply errs_if; [exact I|]. apply errs_bind; [apply errs_slice_from|intros s _]. apply errs_if.
  - apply errs_bind; [|intros; exact I]. apply nde_errs; [reflexivity|apply decode_7bit_errs].
  - apply errs_if; [leaf|exact I].
Qed.
Lemma ud_at t b f o : field_path f = true -> errs located (on_err (decode_ud t b) (new_decode_error f o)).
Proof. intros F. apply nde_errs; [exact F|]. apply located_bare, decode_ud_errs. Qed.
Lemma addr_at b f o : Forall is_byte b -> field_path f = true -> errs located (on_err (addr_unmarshal b) (new_decode_error f o)).
Proof. intros H F. apply nde_errs; [exact F|]. now apply located_bare, addr_unmarshal_errs. Qed.
Lemma ts_at b f o : Forall is_byte b -> field_path f = true -> errs located (on_err (ts_unmarshal b) (new_decode_error f o)).
Proof. intros H F. apply nde_errs; [exact F|]. now apply ts_unmarshal_errs. Qed.
Lemma read_byte_errs f o b : field_path f = true -> errs located (read_byte f o b).
Proof. intros F. destruct b; [|exact I]. apply nde_located; [exact F|]. right. now right. Qed.
Lemma read_byte_rest f o b x b' : Forall is_byte b -> read_byte f o b = Ok (x, b') -> Forall is_byte b'.
Proof. intros F E. apply read_byte_ok in E as ->. now apply Forall_inv_tail in F. Qed.
Lemma errs_slice_then {B} src i j (k : bytes -> res B) : Forall is_byte src -> (forall s, Forall is_byte s -> errs located (k s)) ->
  errs located (bind (slice src i j) k).
Proof. intros F K. apply errs_bind; [apply errs_slice|]. intros s E. apply K. eapply slice_bytes; eassumption. Qed.
Lemma optionals_errs t src ri : errs located (unmarshal_optionals t src ri).
Proof.
  unfold unmarshal_optionals.
  apply errs_bind; [apply errs_if; [apply errs_if; [leaf|apply errs_bind; [apply errs_idx|intros; exact I]]|exact I]|intros [t1 r1] _].
  apply errs_bind; [apply errs_if; [apply errs_if; [leaf|apply errs_bind; [apply errs_idx|intros; exact I]]|exact I]|intros [t2 r2] _].
  apply errs_if; [|exact I]. apply errs_bind; [apply errs_slice_from|intros s _]. now apply ud_at.
Qed.
Ltac octet := apply errs_if; [leaf|]; apply errs_bind; [apply errs_idx|intros ? _].
Ltac readb := apply errs_bind; [now apply read_byte_errs|]; let E := fresh in intros [? ?] E; apply read_byte_rest in E; [|assumption].
Lemma command_errs t src : Forall is_byte src -> errs located (unmarshal_command t src).
Proof.
  intros F. unfold unmarshal_command. readb. readb. readb. readb.
  apply errs_bind; [now apply addr_at|intros [ad n] _]. now apply ud_at.
Qed.
Lemma deliver_errs t src : Forall is_byte src -> errs located (unmarshal_deliver t src).
Proof.
  intros F. unfold unmarshal_deliver. apply errs_bind; [now apply addr_at|intros [ad n] _].
  apply errs_slice_then; [exact F|]. intros b FB. readb. readb.
  apply errs_bind; [now apply ts_at|intros ts _]. now apply ud_at.
Qed.
Lemma deliver_report_errs t src : errs located (unmarshal_deliver_report t src).
Proof. unfold unmarshal_deliver_report. octet. octet. apply optionals_errs. Qed.
Lemma submit_report_errs t src : Forall is_byte src -> errs located (unmarshal_submit_report t src).
Proof.
  intros F. unfold unmarshal_submit_report. octet. octet. apply errs_if; [leaf|]. apply errs_slice_then; [exact F|]. intros s FS.
  apply errs_bind; [now apply ts_at|intros ? _]. apply optionals_errs.
Qed.
Lemma status_report_errs t src : Forall is_byte src -> errs located (unmarshal_status_report t src).
Proof.
  intros F. unfold unmarshal_status_report. octet. apply errs_slice_then; [exact F|]. intros s FS.
  apply errs_bind; [now apply addr_at|intros [ad n] _]. apply errs_if; [leaf|]. apply errs_slice_then; [exact F|]. intros s2 F2.
  apply errs_bind; [now apply ts_at|intros ? _]. apply errs_if; [leaf|]. apply errs_slice_then; [exact F|]. intros s3 F3.
  apply errs_bind; [now apply ts_at|intros ? _]. octet. apply errs_if; [|exact I]. apply errs_bind; [apply errs_idx|intros ? _].
  apply optionals_errs.
Qed.
Lemma submit_errs t src : Forall is_byte src -> errs located (unmarshal_submit t src).
Proof.
  intros F. unfold unmarshal_submit. octet. apply errs_slice_then; [exact F|]. intros s FS.
  apply errs_bind; [now apply addr_at|intros [ad n] _]. octet. octet. apply errs_slice_then; [exact F|]. intros s2 F2.
  apply errs_bind; [apply nde_errs; [reflexivity|now apply vp_unmarshal_errs]|intros [v n2] _].
  apply errs_slice_then; [exact F|]. intros s3 F3. now apply ud_at.
Qed.
Lemma type_path st : field_path (sms_type_string st) = true.
Proof. unfold sms_type_string. repeat (destruct (_ =? _); [reflexivity|]). reflexivity. Qed.
Lemma type_range m d : 0 <= m <= 3 -> 0 <= d <= 1 -> 0 <= sms_type m d <= 7.
Proof.
  intros M D. assert (m = 0 \/ m = 1 \/ m = 2 \/ m = 3) as [-> |[-> |[-> | ->]]] by lia;
    (assert (d = 0 \/ d = 1) as [-> | ->] by lia); cbv; split; discriminate.
Qed.
Lemma mti_range f : 0 <= fo_mti f <= 3.
Proof. unfold fo_mti, FoMTIMask. change (Z.land f 3) with (Z.land f (Z.ones 2)). rewrite Z.land_ones by lia. change (2 ^ 2) with 4. lia. Qed.
Lemma unmarshal_errs t src : Forall is_byte src -> (Direction t = MT \/ Direction t = MO) -> errs located (tpdu_unmarshal t src).
Proof.
  intros F D. unfold tpdu_unmarshal. octet. apply errs_slice_then; [exact F|]. intros s FS.
  set (t1 := set_FO t a).
  assert (R : 0 <= tpdu_type t1 <= 7).
  { apply type_range; [apply mti_range|]. replace (Direction t1) with (Direction t) by (now destruct t). unfold MT, MO in D. lia. }
  unfold SmsDeliver, SmsDeliverReport, SmsSubmitReport, SmsSubmit, SmsStatusReport, SmsCommand.
  repeat match goal with |- context [if ?x =? ?n then _ else _] => destruct (x =? n) eqn:?;
    [apply nde_errs; [apply type_path|apply located_bare; first [now apply deliver_errs|apply deliver_report_errs
    |now apply submit_report_errs|now apply submit_errs|now apply status_report_errs|now apply command_errs]]|] end.
  apply nde_located; [reflexivity|]. right. left. constructor. lia.
Qed.

(** ** Encoding *)
Definition named (e : gerr) : Prop := exists p c, e = EncodeErr p c /\ field_path p = true /\ encode_cause c.
Definition unnamed (e : gerr) : Prop := named e \/ encode_cause e.
Lemma ee_named f e : field_path f = true -> unnamed e -> named (encode_error f e).
Proof.
  intros F [(p & c & -> & P & C)|C].
  - exists (f ++ "." ++ p)%string, c. split; [reflexivity|]. split; [|exact C]. apply path_app; [exact F|]. now apply (path_app ".").
  - exists f, e. split; [|now split]. now destruct C.
Qed.
Lemma ee_errs {A} f (r : res A) : field_path f = true -> errs unnamed r -> errs named (on_err r (encode_error f)).
Proof. intros F H. destruct r; cbn in *; auto. now apply ee_named. Qed.
Lemma named_unnamed {A} (r : res A) : errs named r -> errs unnamed r.
Proof. intros H. eapply errs_weaken; [exact H|]. now left. Qed.
Lemma semi_encode_errs s : Forall is_byte s -> errs unnamed (semi_encode s).
Proof.
  intros F. unfold semi_encode. apply errs_if; [exact I|]. generalize (@None Z). induction F as [|d s D F IH]; intros p; cbn [semi_encode_loop]; [now destruct p|].
  destruct (encode_digit d); [|right; now constructor]. destruct p; [|apply IH]. apply errs_bind; [apply IH|intros; exact I].
Qed.
Lemma gsm7_runes_errs e rs : Forall scalar rs -> errs unnamed (gsm7_encode_runes e rs).
Proof.
  induction 1 as [|r rs R F IH]; cbn [gsm7_encode_runes]; [exact I|]. destruct (assoc (ge_set e) r); [apply errs_bind; [exact IH|intros; exact I]|].
  destruct (assoc (ge_ext e) r); [apply errs_bind; [exact IH|intros; exact I]|]. right. now constructor.
Qed.
Lemma addr_marshal_errs a : Forall is_byte (a_addr a) -> errs named (addr_marshal a).
Proof.
  intros F. unfold addr_marshal. apply errs_if; (apply errs_bind; [|intros; exact I]); (apply ee_errs; [reflexivity|]).
  - apply gsm7_runes_errs. now apply runes_of_scalar.
  - now apply semi_encode_errs.
Qed.
Lemma bcd_encode_errs u : errs unnamed (bcd_encode u).
Proof. unfold bcd_encode. apply errs_if; [right; constructor|exact I]. Qed.
Lemma bcd_encode_signed_errs u : errs unnamed (bcd_encode_signed u).
Proof. unfold bcd_encode_signed. apply errs_if; [right; constructor|exact I]. Qed.
Lemma ts_marshal_errs t : errs unnamed (ts_marshal t).
Proof.
  unfold ts_marshal. destruct (t_date t) as [[y m] d].
  do 6 (apply errs_bind; [apply bcd_encode_errs|intros ? _]). apply errs_bind; [apply bcd_encode_signed_errs|intros; exact I].
Qed.
Lemma vp_marshal_errs v : errs unnamed (vp_marshal v).
Proof.
  unfold vp_marshal. apply errs_if; [apply ts_marshal_errs|].
  assert (N : forall A f, field_path f = true -> errs unnamed (Err (A:=A) (encode_error f ErrInvalid))).
  { intros A f F. left. apply ee_named; [exact F|]. right. constructor. }
  apply errs_if; [|apply errs_if; [exact I|apply errs_if; [exact I|now apply N]]].
  apply errs_if; [now apply N|]. do 2 (apply errs_if; [exact I|]). apply errs_if; [|exact I].
  do 3 (apply errs_bind; [apply named_unnamed, ee_errs; [reflexivity|apply bcd_encode_errs]|intros ? _]). exact I.
Qed.
Lemma encode_ud_errs t : errs unnamed (encode_ud t).
Proof.
  unfold encode_ud. apply errs_bind.
  - apply named_unnamed, ee_errs; [reflexivity|]. eapply errs_weaken; [apply alphabet_errs|]. intros e ->. right. constructor.
  - intros a _. apply errs_if; [exact I|]. apply errs_if; [|exact I]. left. apply ee_named; [reflexivity|]. right. constructor.
Qed.
Ltac enc := first [exact I | apply ee_errs; [first [reflexivity|apply type_path]|]; first [assumption | now apply named_unnamed, addr_marshal_errs | apply ts_marshal_errs | apply encode_ud_errs | apply vp_marshal_errs]].
Lemma tpdu_marshal_errs t : Forall is_byte (a_addr (OA t)) -> Forall is_byte (a_addr (DA t)) -> Forall is_byte (a_addr (RA t)) ->
  errs (fun e => named e \/ e = ErrUnsupportedSmsType (tpdu_type t)) (tpdu_marshal t).
Proof.
  intros FO FD FR. unfold tpdu_marshal.
  assert (W : forall r : res bytes, errs named r -> errs (fun e => named e \/ e = ErrUnsupportedSmsType (tpdu_type t))
     (on_err r (encode_error (sms_type_string (tpdu_type t))))).
  { intros r H. eapply errs_weaken; [apply ee_errs; [apply type_path|apply named_unnamed, H]|]. now left. }
  apply errs_if; [apply W; unfold marshal_deliver; do 3 (apply errs_bind; [enc|intros ? _]); exact I|].
  apply errs_if; [apply W; unfold marshal_deliver_report; apply errs_bind; [apply errs_if; enc|intros; exact I]|].
  apply errs_if; [apply W; unfold marshal_submit_report; apply errs_bind; [enc|intros ? _]; apply errs_bind; [apply errs_if; enc|intros; exact I]|].
  apply errs_if; [apply W; unfold marshal_submit; do 2 (apply errs_bind; [enc|intros ? _]); apply errs_bind; [apply errs_if; enc|intros; exact I]|].
  apply errs_if; [apply W; unfold marshal_status_report; do 3 (apply errs_bind; [enc|intros ? _]); apply errs_bind; [apply errs_if; enc|intros ? _; apply errs_if; exact I]|].
  apply errs_if; [apply W; unfold marshal_command; apply errs_bind; [enc|intros ? _]; exact I|]. now right.
Qed.

(** ** PDU mode *)
Lemma smsc_unmarshal_errs a src : errs located (smsc_unmarshal a src).
Proof.
  unfold smsc_unmarshal. apply errs_if; [leaf|]. apply errs_bind; [apply errs_idx|intros ? _]. apply errs_if; [exact I|].
  apply errs_if; [leaf|]. apply errs_bind; [apply errs_idx|intros ? _]. apply errs_if; [leaf|]. apply errs_bind; [apply errs_slice|intros ? _].
  apply errs_bind; [|intros [x y] _; exact I]. apply nde_errs; [reflexivity|apply semi_loop_errs].
Qed.
Lemma pdu_unmarshal_errs src : errs located (pdu_unmarshal src).
Proof.
  unfold pdu_unmarshal, pdu_unmarshal_into. apply errs_bind; [apply smsc_unmarshal_errs|intros [a n] _]. apply errs_bind; [apply errs_slice_from|intros; exact I].
Qed.
Lemma hex_decode_errs s : Forall is_byte s -> errs (fun e => e = HexLength \/ exists c, is_byte c /\ e = HexInvalidByte c) (hex_decode s).
Proof.
  assert (G : forall n s, (length s <= n)%nat -> Forall is_byte s -> errs (fun e => e = HexLength \/ exists c, is_byte c /\ e = HexInvalidByte c) (hex_decode s)).
  { induction n as [|n IH]; intros [|a [|b l]] L F; cbn [hex_decode length] in *; try exact I; try lia.
    - apply Forall_inv in F. destruct (from_hex_char a); cbn; [now left|right; now exists a].
    - pose proof (Forall_inv F) as A. apply Forall_inv_tail in F. pose proof (Forall_inv F) as B. apply Forall_inv_tail in F.
      destruct (from_hex_char a); [|right; now exists a]. destruct (from_hex_char b); [|right; now exists b].
      apply errs_bind; [apply IH; [lia|exact F]|intros; exact I]. }
  intros F. now apply (G (length s)).
Qed.
Lemma pdu_marshal_errs p : Forall is_byte (a_addr (p_smsc p)) -> errs named (pdu_marshal p).
Proof.
  intros F. unfold pdu_marshal, smsc_marshal. apply errs_bind; [|intros; exact I]. apply errs_bind; [|intros; apply errs_if; exact I].
  apply ee_errs; [reflexivity|now apply semi_encode_errs].
Qed.
