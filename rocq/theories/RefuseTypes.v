(** Lemmas for C79: type by type. *)
From Verif Require Import GoBase GoLemmas SafeLemmas Dcs FirstOctet TpduError Address GoTime ValidityPeriod UserData Tpdu
  TpduProofs TpduLeft LeftProofs SpecText SpecBits SpecDigits SpecTime SpecVP SpecDcs SpecAlphabet SpecShown SpecTpdu SpecSegment SpecLeft SpecWire SpecRefuse Sms
  WireProofs RefuseProofs RefuseParts RefuseTpdu.

Lemma string_app_assoc (a b c : string) : (a ++ (b ++ c) = (a ++ b) ++ c)%string.
Proof. induction a as [|x a IH]; cbn; [reflexivity|now rewrite IH]. Qed.
Lemma within_path T name part : (T ++ "." ++ within name part)%string = within (T ++ "." ++ name) part.
Proof. unfold within. destruct (part =? "")%string; [reflexivity|]. now rewrite !string_app_assoc. Qed.

(** What is said in the end, of a field at these octets. *)
Lemma said T name f (before b : bytes) fo s : before ++ b = fo :: s -> new_decode_error T 1 (told name (len s - len b) f) = told (T ++ "." ++ name) (len before) f.
Proof.
  intros E. destruct f as [part at_ why]. cbn [told new_decode_error]. rewrite within_path. f_equal.
  apply (f_equal (@len Z)) in E. rewrite len_app, len_cons in E. lia.
Qed.
Lemma optional_part fo pi b part at_ why : optional_fails fo pi b (Fault part at_ why) -> (part =? "")%string = false.
Proof. inversion 1 as [| |? ? ? ? ? part1]; try reflexivity. subst. unfold within. destruct (part1 =? "")%string; reflexivity. Qed.
Lemma said_optional T fo pi f (before b : bytes) fo1 s : optional_fails fo pi b f -> before ++ b = fo1 :: s ->
  new_decode_error T 1 (from (len s - len b) f) = told T (len before) f.
Proof.
  intros O E. destruct f as [part at_ why]. cbn [told from new_decode_error]. unfold within. rewrite (optional_part _ _ _ _ _ _ O). f_equal.
  apply (f_equal (@len Z)) in E. rewrite len_app, len_cons in E. lia.
Qed.
Lemma unreadable_field mo before field fails b f src e : comes mo before field fails -> fails b f -> src = before ++ b -> e = told field (len before) f ->
  unreadable mo src e.
Proof. intros C F -> ->. destruct f as [part at_ why]. exact (ur_field mo before field fails b part at_ why C F). Qed.

(** The readers of a type against the fields that come. *)
Definition of_type (mo : bool) (dir st : Z) (T : string) (c : Z) : Prop := forall fo s e, Forall is_byte (fo :: s) -> fo mod 4 = c ->
  (exists e1, ge (readers st) (len s) (fresh_tpdu dir fo) s e1 /\ e = new_decode_error T 1 e1) <-> unreadable mo (fo :: s) e.

Ltac this C before := eapply (unreadable_field _ before); [eapply C; eassumption|eassumption|now rewrite <- ?app_assoc|].
Ltac out := match goal with H : here _ _ _ _ _ |- _ => let f := fresh "f" in let F := fresh "F" in destruct H as (f & F & ->); cbn [field_name] end.
Ltac say := eapply said; rewrite <- ?app_assoc; reflexivity.
Ltac bytes := repeat match goal with
  | HB : Forall is_byte (_ :: _) |- _ => apply Forall_cons_iff in HB as (? & HB)
  | HB : Forall is_byte (_ ++ _) |- _ => apply Forall_app in HB as (? & HB)
  end.

(** And back: past the fields that can be read to the one that cannot. *)
Ltac split_bytes := repeat match goal with
  | HB : Forall is_byte (_ ++ _) |- _ => apply Forall_app in HB; destruct HB
  | HB : Forall is_byte (_ :: _) |- _ => apply Forall_cons_iff in HB; destruct HB
  end.
Lemma bytes_app (a b : bytes) : Forall is_byte a -> Forall is_byte b -> Forall is_byte (a ++ b).
Proof. intros. apply Forall_app. now split. Qed.
Ltac join_bytes := repeat first [assumption|apply bytes_app|apply Forall_cons|apply Forall_nil].
Ltac fails F := left; eexists; split; [exact F|reflexivity].
Ltac step F := match goal with
  | |- ge (rd_addr _ _ :: _) _ _ _ _ => apply ge_addr; [join_bytes|first [fails F|right; eexists _, _, _; split; [reflexivity|]; split; [eassumption|]]]
  | |- ge (rd_into _ _ :: _) _ _ _ _ => apply ge_into; first [fails F|right; eexists _, _; split; [reflexivity|]]
  | |- ge (rd_byte _ _ EOF :: _) _ _ _ _ => apply ge_byte; [now left|first [fails F|right; eexists _, _; split; [reflexivity|]]]
  | |- ge (rd_byte _ _ ErrUnderflow :: _) _ _ _ _ => apply ge_byte; [now right|first [fails F|right; eexists _, _; split; [reflexivity|]]]
  | |- ge (rd_ts _ _ :: _) _ _ _ _ => apply ge_ts; [join_bytes|first [fails F|right; eexists _, _, _; split; [reflexivity|]; split; [eassumption|]]]
  | |- ge (rd_vp :: _) _ _ _ _ => apply ge_vp; [join_bytes|reflexivity|first [fails F|right; eexists _, _, _; split; [reflexivity|]; split; [eassumption|]]]
  | |- ge (rd_last_pi :: _) _ _ _ _ => apply ge_last_pi; eexists _, _; split; [reflexivity|]
  | |- ge (rd_ud _ :: _) _ _ _ _ => apply ge_ud; [join_bytes|assumption|split; [reflexivity|eexists; split; [exact F|reflexivity]]]
  | |- ge optionals _ _ _ _ => apply ge_optionals; [join_bytes|reflexivity|eexists; split; [exact F|reflexivity]]
  end.
Ltac back F := match goal with |- exists e1, _ /\ DecodeErr (within _ ?part) (len ?before + ?at_) ?why = new_decode_error ?T 1 e1 =>
  match type of F with _ ?b _ => eexists; split;
    [|symmetry; first [refine (said T _ (Fault part at_ why) before b _ _ _)|refine (said_optional T _ _ (Fault part at_ why) before b _ _ F _)]; rewrite <- ?app_assoc; reflexivity]
  end end.

Lemma deliver_type : of_type false MT SmsDeliver "SmsDeliver" 0.
Proof.
  intros fo s e HB M. apply Forall_cons_iff in HB as (Bf & HB). change (readers SmsDeliver) with
    [rd_addr F_OA set_OA; rd_into F_PID set_PIDf; rd_byte F_DCS set_DCSf EOF; rd_ts F_SCTS set_SCTS; rd_ud (fun _ => true)].
  split.
  - intros (e1 & H & ->).
    apply ge_addr in H as [H|(a & q & b1 & -> & A & H)]; [out; this d_oa [fo]; say| |exact HB]. apply Forall_app in HB as (_ & HB).
    apply ge_into in H as [H|(pid & b2 & -> & H)]; [out; this d_pid ([fo] ++ q); say|]. apply Forall_cons_iff in HB as (_ & HB).
    apply ge_byte in H as [H|(dcs & b3 & -> & H)]; [out; this d_dcs ([fo] ++ q ++ [pid]); say| |now left]. apply Forall_cons_iff in HB as (Bd & HB).
    apply ge_ts in H as [H|(ts & q2 & b4 & -> & T & H)]; [out; this d_scts ([fo] ++ q ++ [pid; dcs]); say| |exact HB]. apply Forall_app in HB as (_ & HB).
    apply ge_ud in H as (_ & H); [|exact HB|exact Bd]. out. this d_ud ([fo] ++ q ++ [pid; dcs] ++ q2). say.
  - intros U. inversion U as [| |mo before field fails b part at_ why C F E1 E2]; subst; [lia|].
    inversion C; subst; try (exfalso; injection E2; intros; subst; lia); rewrite <- ?app_assoc in E2; cbn [app] in E2; injection E2; intros; subst; clear E2.
    all: back F.
    all: split_bytes.
    all: repeat (step F).
Qed.
Lemma submit_type : of_type true MO SmsSubmit "SmsSubmit" 1.
Proof.
  intros fo s e HB M. apply Forall_cons_iff in HB as (Bf & HB). change (readers SmsSubmit) with
    [rd_byte F_MR set_MR ErrUnderflow; rd_addr F_DA set_DA; rd_byte F_PID set_PIDf ErrUnderflow;
     rd_byte F_DCS set_DCSf ErrUnderflow; rd_vp; rd_ud (fun _ => true)].
  split.
  - intros (e1 & H & ->).
    apply ge_byte in H as [H|(mr & b0 & -> & H)]; [out; this s_mr [fo]; say| |now right]. apply Forall_cons_iff in HB as (_ & HB).
    apply ge_addr in H as [H|(a & q & b1 & -> & A & H)]; [out; this s_da [fo; mr]; say| |exact HB]. apply Forall_app in HB as (_ & HB).
    apply ge_byte in H as [H|(pid & b2 & -> & H)]; [out; this s_pid ([fo; mr] ++ q); say| |now right]. apply Forall_cons_iff in HB as (_ & HB).
    apply ge_byte in H as [H|(dcs & b3 & -> & H)]; [out; this s_dcs ([fo; mr] ++ q ++ [pid]); say| |now right]. apply Forall_cons_iff in HB as (Bd & HB).
    apply ge_vp in H as [H|(v & q2 & b4 & -> & T & H)]; [out; this s_vp ([fo; mr] ++ q ++ [pid; dcs]); say| |exact HB|reflexivity]. apply Forall_app in HB as (_ & HB).
    apply ge_ud in H as (_ & H); [|exact HB|exact Bd]. out. this s_ud ([fo; mr] ++ q ++ [pid; dcs] ++ q2). say.
  - intros U. inversion U as [| |mo before field fails b part at_ why C F E1 E2]; subst; [lia|].
    inversion C; subst; try (exfalso; injection E2; intros; subst; lia); rewrite <- ?app_assoc in E2; cbn [app] in E2; injection E2; intros; subst; clear E2.
    all: back F.
    all: split_bytes.
    all: repeat (step F).
Qed.
Lemma command_type : of_type true MO SmsCommand "SmsCommand" 2.
Proof.
  intros fo s e HB M. apply Forall_cons_iff in HB as (Bf & HB). change (readers SmsCommand) with
    [rd_into F_MR set_MR; rd_into F_PID set_PIDf; rd_into F_CT set_CT; rd_into F_MN set_MN;
     rd_addr F_DA set_DA; rd_dcs8; rd_ud (fun _ => true)].
  assert (B4 : is_byte 4) by (unfold is_byte; lia).
  assert (D8 : forall total t b e, ge [rd_dcs8; rd_ud (fun _ => true)] total t b e <-> ge [rd_ud (fun _ => true)] total (set_DCSf t 4) b e) by reflexivity.
  split.
  - intros (e1 & H & ->).
    apply ge_into in H as [H|(mr & b0 & -> & H)]; [out; this c_mr [fo]; say|]. apply Forall_cons_iff in HB as (_ & HB).
    apply ge_into in H as [H|(pid & b1 & -> & H)]; [out; this c_pid [fo; mr]; say|]. apply Forall_cons_iff in HB as (_ & HB).
    apply ge_into in H as [H|(ct & b2 & -> & H)]; [out; this c_ct [fo; mr; pid]; say|]. apply Forall_cons_iff in HB as (_ & HB).
    apply ge_into in H as [H|(mn & b3 & -> & H)]; [out; this c_mn [fo; mr; pid; ct]; say|]. apply Forall_cons_iff in HB as (_ & HB).
    apply ge_addr in H as [H|(a & q & b4 & -> & A & H)]; [out; this c_da [fo; mr; pid; ct; mn]; say| |exact HB]. apply Forall_app in HB as (_ & HB).
    apply D8 in H. apply ge_ud in H as (_ & H); [|exact HB|exact B4]. out. this c_ud ([fo; mr; pid; ct; mn] ++ q). say.
  - intros U. inversion U as [| |mo before field fails b part at_ why C F E1 E2]; subst; [lia|].
    inversion C; subst; try (exfalso; injection E2; intros; subst; lia); rewrite <- ?app_assoc in E2; cbn [app] in E2; injection E2; intros; subst; clear E2.
    all: back F.
    all: split_bytes.
    all: repeat (step F).
    apply D8. step F.
Qed.
Lemma deliver_report_type : of_type true MO SmsDeliverReport "SmsDeliverReport" 0.
Proof.
  intros fo s e HB M. apply Forall_cons_iff in HB as (Bf & HB). change (readers SmsDeliverReport) with
    (rd_byte F_FCS set_FCS ErrUnderflow :: rd_byte F_PI set_PI ErrUnderflow :: optionals).
  split.
  - intros (e1 & H & ->).
    apply ge_byte in H as [H|(fcs & b0 & -> & H)]; [out; this dr_fcs [fo]; say| |now right]. apply Forall_cons_iff in HB as (_ & HB).
    apply ge_byte in H as [H|(pi & b1 & -> & H)]; [out; this dr_pi [fo; fcs]; say| |now right]. apply Forall_cons_iff in HB as (_ & HB).
    apply ge_optionals in H as (f & F & ->); [|exact HB|reflexivity]. this dr_rest [fo; fcs; pi]. eapply said_optional; [exact F|reflexivity].
  - intros U. inversion U as [| |mo before field fails b part at_ why C F E1 E2]; subst; [lia|].
    inversion C; subst; try (exfalso; injection E2; intros; subst; lia); rewrite <- ?app_assoc in E2; cbn [app] in E2; injection E2; intros; subst; clear E2.
    all: back F.
    all: split_bytes.
    all: repeat (step F).
Qed.
Lemma submit_report_type : of_type false MT SmsSubmitReport "SmsSubmitReport" 1.
Proof.
  intros fo s e HB M. apply Forall_cons_iff in HB as (Bf & HB). change (readers SmsSubmitReport) with
    (rd_byte F_FCS set_FCS ErrUnderflow :: rd_byte F_PI set_PI ErrUnderflow :: rd_ts F_SCTS set_SCTS :: optionals).
  split.
  - intros (e1 & H & ->).
    apply ge_byte in H as [H|(fcs & b0 & -> & H)]; [out; this sr_fcs [fo]; say| |now right]. apply Forall_cons_iff in HB as (_ & HB).
    apply ge_byte in H as [H|(pi & b1 & -> & H)]; [out; this sr_pi [fo; fcs]; say| |now right]. apply Forall_cons_iff in HB as (_ & HB).
    apply ge_ts in H as [H|(ts & q2 & b4 & -> & T & H)]; [out; this sr_scts [fo; fcs; pi]; say| |exact HB]. apply Forall_app in HB as (_ & HB).
    apply ge_optionals in H as (f & F & ->); [|exact HB|reflexivity]. this sr_rest ([fo; fcs; pi] ++ q2). eapply said_optional; [exact F|now rewrite <- app_assoc].
  - intros U. inversion U as [| |mo before field fails b part at_ why C F E1 E2]; subst; [lia|].
    inversion C; subst; try (exfalso; injection E2; intros; subst; lia); rewrite <- ?app_assoc in E2; cbn [app] in E2; injection E2; intros; subst; clear E2.
    all: back F.
    all: split_bytes.
    all: repeat (step F).
Qed.
Lemma status_report_type : of_type false MT SmsStatusReport "SmsStatusReport" 2.
Proof.
  intros fo s e HB M. apply Forall_cons_iff in HB as (Bf & HB). change (readers SmsStatusReport) with
    (rd_byte F_MR set_MR ErrUnderflow :: rd_addr F_RA set_RA :: rd_ts F_SCTS set_SCTS :: rd_ts F_DT set_DT ::
     rd_byte F_ST set_ST ErrUnderflow :: rd_last_pi :: optionals).
  split.
  - intros (e1 & H & ->).
    apply ge_byte in H as [H|(mr & b0 & -> & H)]; [out; this st_mr [fo]; say| |now right]. apply Forall_cons_iff in HB as (_ & HB).
    apply ge_addr in H as [H|(a & q & b1 & -> & A & H)]; [out; this st_ra [fo; mr]; say| |exact HB]. apply Forall_app in HB as (_ & HB).
    apply ge_ts in H as [H|(ts & q2 & b2 & -> & T & H)]; [out; this st_scts ([fo; mr] ++ q); say| |exact HB]. apply Forall_app in HB as (_ & HB).
    apply ge_ts in H as [H|(dt & q3 & b3 & -> & T2 & H)]; [out; this st_dt ([fo; mr] ++ q ++ q2); say| |exact HB]. apply Forall_app in HB as (_ & HB).
    apply ge_byte in H as [H|(st & b4 & -> & H)].
    { out. eapply (unreadable_field _ ([fo; mr] ++ q ++ q2 ++ q3)); [exact (st_st fo mr a q ts q2 dt q3 M A T T2)|eassumption|now rewrite <- ?app_assoc|say]. }
    2:{ now right. }
    apply Forall_cons_iff in HB as (_ & HB).
    apply ge_last_pi in H as (pi & b5 & -> & H). apply Forall_cons_iff in HB as (_ & HB).
    apply ge_optionals in H as (f & F & ->); [|exact HB|reflexivity].
    eapply (unreadable_field _ ([fo; mr] ++ q ++ q2 ++ q3 ++ [st; pi])); [exact (st_rest fo mr a q ts q2 dt q3 st pi M A T T2)|eassumption|now rewrite <- ?app_assoc|].
    eapply said_optional; [exact F|now rewrite <- ?app_assoc].
  - intros U. inversion U as [| |mo before field fails b part at_ why C F E1 E2]; subst; [lia|].
    inversion C; subst; try (exfalso; injection E2; intros; subst; lia); rewrite <- ?app_assoc in E2; cbn [app] in E2; injection E2; intros; subst; clear E2.
    all: back F.
    all: split_bytes.
    all: repeat (step F).
Qed.

Lemma unreadable_iff src mo e : Forall is_byte src -> (unmarshal src mo = Err e <-> unreadable mo src e).
Proof.
  intros HB. unfold unmarshal. destruct src as [|fo s].
  { split.
    - intros X. cbn in X. injection X as <-. constructor.
    - intros U. inversion U as [| |mo' before field fails b part at_ why C F E1 E2]; [reflexivity|]. destruct C; discriminate. }
  pose proof (Forall_inv HB) as Bf. pose proof (Forall_inv_tail HB) as Bs. set (dir := if mo then MO else MT).
  assert (DIR : dir = 0 \/ dir = 1) by (subst dir; destruct mo; [right|left]; reflexivity).
  pose proof (type_of_fo dir fo Bf DIR) as TY.
  assert (W : tpdu_unmarshal (set_Direction zero_tpdu dir) (fo :: s) = outcome (unmarshal_left (set_Direction zero_tpdu dir) (fo :: s))) by (symmetry; apply outcome_unmarshal).
  rewrite W, unmarshal_left_go by exact Bs. cbv zeta. fold (fresh_tpdu dir fo). clear W.
  assert (K : forall st, tpdu_type (fresh_tpdu dir fo) = st -> known_type st = true ->
    (outcome (if known_type (tpdu_type (fresh_tpdu dir fo)) then
       (fst (go (readers (tpdu_type (fresh_tpdu dir fo))) (len s) (fresh_tpdu dir fo) s),
        on_err (snd (go (readers (tpdu_type (fresh_tpdu dir fo))) (len s) (fresh_tpdu dir fo) s)) (new_decode_error (sms_type_string (tpdu_type (fresh_tpdu dir fo))) 1))
      else (set_FO (fresh_tpdu dir fo) 0, Err (new_decode_error "tpdu.firstOctet" 0 (ErrUnsupportedSmsType (tpdu_type (fresh_tpdu dir fo)))))) = Err e <->
     exists e1, ge (readers st) (len s) (fresh_tpdu dir fo) s e1 /\ e = new_decode_error (sms_type_string st) 1 e1)).
  { intros st <- ->. unfold ge. destruct (snd (go _ _ _ _)) as [v|e1| |]; cbn [on_err outcome].
    - split; [discriminate|]. intros (e1 & X & _). discriminate.
    - split; [intros X; injection X as <-; now exists e1|]. intros (e2 & X & ->). injection X as <-. reflexivity.
    - split; [discriminate|]. intros (e1 & X & _). discriminate.
    - split; [discriminate|]. intros (e1 & X & _). discriminate. }
  assert (M : fo mod 4 = 0 \/ fo mod 4 = 1 \/ fo mod 4 = 2 \/ fo mod 4 = 3) by lia.
  destruct M as [M|[M|[M|M]]]; rewrite M in TY.
  - destruct mo; subst dir; rewrite (K _ TY eq_refl); [now apply deliver_report_type|now apply deliver_type].
  - destruct mo; subst dir; rewrite (K _ TY eq_refl); [now apply submit_type|now apply submit_report_type].
  - destruct mo; subst dir; rewrite (K _ TY eq_refl); [now apply command_type|now apply status_report_type].
  - clear K. rewrite TY. subst dir. destruct mo.
    + change (known_type (2 * 3 + MO)) with false. cbv iota. cbn [outcome]. split.
      * intros X. injection X as <-. now apply (ur_type true).
      * intros U. inversion U as [|mo' fo' b' E0 E1 E2|mo' before field fails b part at_ why C F E1 E2]; subst; [reflexivity|].
        destruct C; cbn [app] in E2; injection E2; intros; subst; lia.
    + change (known_type (2 * 3 + MT)) with false. cbv iota. cbn [outcome]. split.
      * intros X. injection X as <-. now apply (ur_type false).
      * intros U. inversion U as [|mo' fo' b' E0 E1 E2|mo' before field fails b part at_ why C F E1 E2]; subst; [reflexivity|].
        destruct C; cbn [app] in E2; injection E2; intros; subst; lia.
Qed.
