(** C82: what Encode returns, exactly.  [encoder_encode] models Encoder.Encode and
    [encode] Encode; what they should return is SpecEncode.  [with_options] is the
    encoder with the options of the call (see C75 for what they ask for). *)
From Verif Require Import GoBase GoLemmas SafeLemmas Utf UtfProofs SpecText SpecDcs UserData Tpdu Segment Sms SmsProofs SpecSms SpecSelect SpecBlocks
  SpecEncode EncodeProofs EncodedProofs.

(** Any message, be it valid text or not, any options, any template and any history
    of the encoder. *)
Theorem C82_encode : forall (mo : bool) e msg opts segs e',
  Direction (e_pdu (with_options e opts)) = (if mo then 1 else 0) ->
  is_byte (FO (e_pdu (with_options e opts))) -> is_byte (DCS (e_pdu (with_options e opts))) -> Forall is_byte msg ->
  - 2 ^ 63 <= e_msg_count e < 2 ^ 63 ->
  (encoder_encode e msg opts = Ok (segs, e') <-> encoded mo (with_options e opts) msg segs /\ e' = counted e segs).
Proof. exact encoder_iff. Qed.
Print Assumptions C82_encode.

(** The only error: the data coding scheme of the template cannot name the alphabet
    of the text. *)
Theorem C82_error : forall e msg opts er, is_byte (DCS (e_pdu (with_options e opts))) -> Forall is_byte msg ->
  (encoder_encode e msg opts = Err er <->
   er = ErrDcsConflict /\ conflict (e_eopts (with_options e opts)) (e_pdu (with_options e opts)) msg).
Proof.
  intros e msg opts er HB HM. rewrite <- (conflict_iff _ _ _ HB HM). unfold encoder_encode. cbv zeta. fold (with_options e opts).
  destruct (encode_prepare (with_options e opts) msg) as [[t ud]|x| |]; cbn [bind]; [|split; intros H; congruence|split; discriminate|split; discriminate].
  split; [|discriminate]. intros H. destruct (segment _ _ _) as [l|y| |] eqn:E; try discriminate H. now apply segment_not_err in E.
Qed.
Print Assumptions C82_error.

(** Encode is a new encoder for SMS-SUBMIT: the numbers start at 1. *)
Theorem C82_encode_function : forall (mo : bool) msg opts segs,
  let e := with_options zero_encoder (AsSubmit :: opts) in
  Direction (e_pdu e) = (if mo then 1 else 0) -> is_byte (FO (e_pdu e)) -> is_byte (DCS (e_pdu e)) -> Forall is_byte msg ->
  (encode msg opts = Ok segs <-> exists t ud,
     prepared (e_eopts e) (e_pdu e) msg t ud /\ segmented mo t (numbered 0 0) ud segs).
Proof.
  intros mo msg opts segs e HD HF HB HM. destruct (options_counters (AsSubmit :: opts) zero_encoder) as [C1 C2]. fold e in C1, C2.
  change (sms_new_encoder (AsSubmit :: opts)) with e. unfold encode. change (sms_new_encoder (AsSubmit :: opts)) with e.
  pose proof (fun e' => C82_encode mo e msg [] segs e' HD HF HB HM) as H. rewrite C1 in H. cbn [e_msg_count zero_encoder] in H.
  assert (R : - 2 ^ 63 <= 0 < 2 ^ 63) by lia. specialize (fun e' => H e' R). change (with_options e []) with e in H. unfold encoded in H. rewrite C1, C2 in H.
  cbn [e_msg_count e_concat_ref zero_encoder] in H. split.
  - intros E. apply bind_ok in E as ([l e'] & E & E2). apply ok_inj in E2 as <-. now apply (H e') in E.
  - intros E. destruct (H (counted e segs)) as [_ H2]. rewrite H2; [reflexivity|]. split; [exact E|reflexivity].
Qed.
Print Assumptions C82_encode_function.

(** The description leaves no choice, and for the text there always is one. *)
Theorem C82_one : forall opts t msg, is_byte (DCS t) -> Forall is_byte msg ->
  (exists t' ud, prepared opts t msg t' ud /\ ~ conflict opts t msg /\
     forall t2 ud2, prepared opts t msg t2 ud2 -> t2 = t' /\ ud2 = ud) \/
  (conflict opts t msg /\ forall t' ud, ~ prepared opts t msg t' ud).
Proof.
  intros opts t msg HB HM.
  set (e := {| e_eopts := opts; e_pdu := t; e_msg_count := 0; e_concat_ref := 0 |}).
  pose proof (fun t' ud => prepared_iff e msg t' ud HB HM) as HP. pose proof (fun er => conflict_iff e msg er HB HM) as HC.
  cbn [e_eopts e_pdu e] in HP, HC. pose proof (prepare_computed e msg HB) as E. cbv zeta in E.
  destruct (encode_prepare e msg) as [[t' ud]|er| |] eqn:EP.
  - left. exists t', ud. split; [now apply HP|]. split; [intros X; pose proof (proj2 (HC ErrDcsConflict) (conj eq_refl X)) as Y; discriminate Y|].
    intros t2 ud2 H. apply HP in H. apply ok_pair in H as [<- <-]. auto.
  - right. split; [now apply (HC er)|]. intros t' ud H. apply HP in H. discriminate H.
  - destruct (given _); [discriminate|]. destruct (alphabet_expressible _ _); discriminate.
  - destruct (given _); [discriminate|]. destruct (alphabet_expressible _ _); discriminate.
Qed.
Print Assumptions C82_one.

(** What Go makes of octets that need not be UTF-8, when it ranges over a string or
    converts one to runes. *)
Theorem C82_characters : forall msg rs, Forall is_byte msg -> (characters msg rs <-> runes_of msg = rs).
Proof. exact characters_iff. Qed.
Print Assumptions C82_characters.

(** A message of two parts of Turkish text behind a template with a header and a
    class in its data coding scheme. *)
Definition eg_template : tpdu :=
  set_udh (set_dcs (set_FO (set_Direction new_tpdu 1) 1) 17) (Some [{| ie_id := 36; ie_data := [3] |}]).
Definition eg_opts : list encoder_opt := [EoTemplate eg_template; EoCharset OptAllCharsets].
Definition eg_msg : bytes := flat_map (fun _ => [196; 159]) (repeat tt 160).
Example C82_instance : exists segs,
  encoded true (with_options zero_encoder eg_opts) eg_msg segs /\
  map MR segs = [1; 2] /\ map (fun s => len (UD s)) segs = [149; 11] /\ map DCS segs = [17; 17] /\
  map UDH segs = [Some [{| ie_id := 25; ie_data := [1] |}; {| ie_id := 0; ie_data := [1; 2; 1] |}];
                  Some [{| ie_id := 25; ie_data := [1] |}; {| ie_id := 0; ie_data := [1; 2; 2] |}]].
Proof.
  destruct (encoder_encode zero_encoder eg_msg eg_opts) as [[segs e']|x| |] eqn:E; [|exfalso..].
  - exists segs. split.
    + apply (C82_encode true zero_encoder eg_msg eg_opts segs e'); [reflexivity|unfold is_byte; cbn; lia|unfold is_byte; cbn; lia| |cbn; lia|exact E].
      apply Forall_forall. intros x Hx. apply in_flat_map in Hx as (u & _ & Hx). cbn [In] in Hx. unfold is_byte. lia.
    + vm_compute in E. injection E as <- _. repeat split; reflexivity.
  - vm_compute in E. discriminate.
  - vm_compute in E. discriminate.
  - vm_compute in E. discriminate.
Qed.
(** The same text without options needs UCS-2, which is named in the data coding
    scheme; and octets that are no UTF-8 too. *)
Example C82_instance_ucs2 : exists t,
  prepared [] eg_template [196; 159; 255] t [1; 31; 255; 253] /\ DCS t = 25 /\ PI t = Z.lor (PI eg_template) 2 /\ UDH t = UDH eg_template.
Proof.
  assert (B : Forall is_byte [196; 159; 255]) by (repeat constructor; unfold is_byte; lia).
  set (e := {| e_eopts := []; e_pdu := eg_template; e_msg_count := 0; e_concat_ref := 0 |}).
  exists (template_for eg_template ChUcs2). split; [|repeat split; vm_compute; reflexivity].
  apply (prepared_iff e [196; 159; 255]); [unfold is_byte; cbn; lia|exact B|vm_compute; reflexivity].
Qed.
(** A template of the group of waiting messages for the default alphabet. *)
Example C82_instance_conflict : conflict [] (set_dcs new_tpdu 200) [196; 159].
Proof.
  assert (B : Forall is_byte [196; 159]) by (repeat constructor; unfold is_byte; lia).
  set (e := {| e_eopts := []; e_pdu := set_dcs new_tpdu 200; e_msg_count := 0; e_concat_ref := 0 |}).
  apply (conflict_iff e [196; 159] ErrDcsConflict); [unfold is_byte; cbn; lia|exact B|vm_compute; reflexivity].
Qed.
