(** C78: frames of PDU mode, and what semioctet.Decode reads (C04).
    [pdu_unmarshal], [pdu_unmarshal_hex], [pdu_marshal] and [pdu_marshal_hex]
    model pdumode.UnmarshalBinary, UnmarshalHexString, PDU.MarshalBinary and
    PDU.MarshalHexString; [semi_decode room] models semioctet.Decode with a
    destination of length [room]. *)
From Verif Require Import GoBase GoLemmas SafeLemmas Utf UtfProofs Semioctet Address PduMode
  SpecText SpecBits SpecDigits SpecTpdu SpecWire WireProofs DigitsProofs PduModeProofs SpecPdu PduExact.

(** Exactly the digits there are, up to the room for them. *)
Theorem C04_semioctet_decode_exact : forall room src r, 0 <= room -> Forall is_byte src ->
  (semi_decode room src = r <-> semi_read room src r).
Proof. exact semi_read_iff. Qed.
Print Assumptions C04_semioctet_decode_exact.
Example C04_decode_instance :
  semi_read 3 [33; 243; 69] (Ok ([49; 50; 51], 2)) /\ semi_read 3 [33; 67; 69] (Err SemiMissingFill) /\
  semi_read 9 [255; 33; 79] (Ok ([49; 50; 52], 3)).
Proof. repeat split; apply semi_read_iff; try lia; try reflexivity; unfold is_byte; repeat constructor; lia. Qed.

(** Octets are read as a frame exactly if they are one, and refused, with the
    field that is cut short, exactly if they are too few. *)
Theorem C78_read : forall src, Forall is_byte src ->
  (forall p, pdu_unmarshal src = Ok p <-> frame p src) /\
  (forall e, pdu_unmarshal src = Err e <-> frame_refused src e) /\
  ((exists p, frame p src) \/ (exists e, frame_refused src e)).
Proof.
  intros src HB. split; [|split].
  - intros p. now apply frame_iff.
  - intros e. now apply frame_refused_iff.
  - now apply frame_or_refused.
Qed.
Print Assumptions C78_read.

(** The same of strings: they must be hexadecimal. *)
Theorem C78_read_hex : forall s,
  (forall p, pdu_unmarshal_hex s = Ok p <-> exists b, hex_text b s /\ frame p b) /\
  (forall e, pdu_unmarshal_hex s = Err e <-> hex_refused s e \/ exists b, hex_text b s /\ frame_refused b e) /\
  ((exists p, pdu_unmarshal_hex s = Ok p) \/ (exists e, pdu_unmarshal_hex s = Err e)).
Proof.
  intros s. unfold pdu_unmarshal_hex. destruct (hex_decode s) as [b|x| |] eqn:H.
  - apply hex_text_iff in H as T. pose proof (hex_text_bytes _ _ T) as HB. cbn [bind].
    assert (U : forall b', hex_text b' s -> b' = b) by (intros b' T'; apply hex_text_iff in T'; rewrite H in T'; apply ok_inj in T'; congruence).
    split; [|split].
    + intros p. rewrite (frame_iff b p HB). split; [eauto|]. intros (b' & T' & F). now rewrite <- (U _ T').
    + intros e. rewrite (frame_refused_iff b e HB). split; [eauto|]. intros [R|(b' & T' & F)]; [apply hex_refused_complete in R; congruence|]. now rewrite <- (U _ T').
    + destruct (frame_or_refused b HB) as [(p & F)|(e & F)]; [left; exists p; now apply frame_complete|right; exists e; now apply frame_refused_complete].
  - cbn [bind]. split; [|split].
    + intros p. split; [discriminate|]. intros (b & T & _). apply hex_text_iff in T. congruence.
    + intros e. split.
      * intros E. left. assert (x = e) as -> by congruence. now apply hex_refused_exists.
      * intros [R|(b & T & _)]; [apply hex_refused_complete in R; congruence|]. apply hex_text_iff in T. congruence.
    + right. eauto.
  - destruct (hex_decode_safe s) as [(b & E & _)|[E|(c & E)]]; congruence.
  - destruct (hex_decode_safe s) as [(b & E & _)|[E|(c & E)]]; congruence.
Qed.
Print Assumptions C78_read_hex.

(** What is written, and why it is not; in hexadecimal, in lower case. *)
Theorem C78_written : forall p,
  (forall r, pdu_marshal p = r <-> frame_written p r) /\
  (forall b, Forall is_byte b -> frame_written p (Ok b) -> exists s, pdu_marshal_hex p = Ok s /\ hex_text b s /\ Forall lower s) /\
  (forall e, frame_written p (Err e) -> pdu_marshal_hex p = Err e).
Proof.
  intros p. split; [|split].
  - intros r. apply written_iff.
  - intros b HB W. apply written_iff in W. unfold pdu_marshal_hex. rewrite W. exists (hex_encode b). destruct (hex_encode_is b HB) as (T & L). now split.
  - intros e W. apply written_iff in W. unfold pdu_marshal_hex. now rewrite W.
Qed.
Print Assumptions C78_written.

(** A frame that was read is written and read again as the same, unless it has a
    type of address without a number, which is not written. *)
Theorem C78_again : forall src p, Forall is_byte src -> pdu_unmarshal src = Ok p ->
  exists b, pdu_marshal p = Ok b /\ Forall is_byte b /\
    (pdu_unmarshal b = Ok p <-> a_addr (p_smsc p) <> [] \/ a_toa (p_smsc p) = 0).
Proof. exact frame_again. Qed.
Print Assumptions C78_again.

(** +1234 and a TPDU of three octets; a filler in the middle; an address cut
    short; a type of address without a number. *)
Example C78_read_instance :
  frame {| p_smsc := {| a_toa := 145; a_addr := [49; 50; 51; 52] |}; p_tpdu := [1; 2; 3] |} [3; 145; 33; 67; 1; 2; 3] /\
  frame {| p_smsc := {| a_toa := 145; a_addr := [49; 51; 52] |}; p_tpdu := [1; 2; 3] |} [3; 145; 241; 67; 1; 2; 3] /\
  frame_refused [3; 145; 33] (DecodeErr "addr" 2 ErrUnderflow).
Proof.
  split; [|split].
  - exists [3; 145; 33; 67]. split; [|reflexivity]. apply (so_number 3 145 [33; 67]); [lia|reflexivity].
  - exists [3; 145; 241; 67]. split; [|reflexivity]. apply (so_number 3 145 [241; 67]); [lia|reflexivity].
  - apply fr_number. vm_compute. reflexivity.
Qed.
Example C78_hex_instance : pdu_unmarshal_hex [48; 51; 57; 49; 50; 49; 52; 51; 65; 98] =
  Ok {| p_smsc := {| a_toa := 145; a_addr := [49; 50; 51; 52] |}; p_tpdu := [171] |} /\
  hex_refused [48; 51; 57; 120] (HexInvalidByte 120) /\ hex_refused [48; 51; 57] HexLength.
Proof.
  split; [reflexivity|split].
  - apply hex_refused_exists. reflexivity.
  - apply hex_refused_exists. reflexivity.
Qed.
Example C78_written_instance :
  frame_written {| p_smsc := {| a_toa := 145; a_addr := [49; 50; 51] |}; p_tpdu := [1; 2; 3] |} (Ok [3; 145; 33; 243; 1; 2; 3]) /\
  frame_written {| p_smsc := {| a_toa := 145; a_addr := [49; 120; 51] |}; p_tpdu := [1; 2; 3] |} (Err (EncodeErr "addr" (SemiInvalidDigit 120))).
Proof. split; apply written_iff; reflexivity. Qed.
Example C78_type_lost : exists p b, pdu_unmarshal [1; 145; 7] = Ok p /\ pdu_marshal p = Ok b /\ pdu_unmarshal b <> Ok p.
Proof. eexists. eexists. split; [reflexivity|]. split; [reflexivity|]. vm_compute. discriminate. Qed.

(** C22 the other way round: these are all the PDUs that come back. *)
Theorem C22_pdu_exactly : forall p, is_byte (a_toa (p_smsc p)) -> Forall is_byte (p_tpdu p) ->
  ((exists b, pdu_marshal p = Ok b /\ pdu_unmarshal b = Ok p) <->
   p_smsc p = {| a_toa := 0; a_addr := [] |} \/
   (a_addr (p_smsc p) <> [] /\ Forall is_semi_digit (a_addr (p_smsc p)) /\ len (a_addr (p_smsc p)) <= 508)).
Proof.
  intros [[toa ds] tp]. cbn [p_smsc p_tpdu a_toa a_addr]. intros HT HB. split.
  - intros (b & W & R). apply written_iff in W. inversion W as [E|q N P|]; subst; cbn [p_smsc p_tpdu a_toa a_addr] in *.
    + subst ds. rewrite smsc_none in R. left. apply ok_inj in R. congruence.
    + right. split; [exact N|]. destruct (semi_packed_len _ _ P) as (_ & QB & QS). split; [exact QS|].
      assert (BB : Forall is_byte ((len q + 1) mod 256 :: toa :: q ++ tp)).
      { constructor; [unfold is_byte; pose proof (Z.mod_pos_bound (len q + 1) 256); lia|]. constructor; [exact HT|]. apply Forall_app. now split. }
      apply (frame_iff _ _ BB) in R as (x & X & EQ). cbn [p_smsc p_tpdu] in *. remember {| a_toa := toa; a_addr := ds |} as a eqn:EA. destruct X as [|n t p' Hn L]; injection EA as E0 E1; subst.
      * now destruct N.
      * cbn [app] in EQ. assert (E2 : (len q + 1) mod 256 = n) by congruence. pose proof (digits_len p'). pose proof (Z.mod_pos_bound (len q + 1) 256). lia.
  - intros [E|(N & S & L)].
    + injection E as -> ->. exists (0 :: tp). split; [reflexivity|apply smsc_none].
    + destruct (pdu_roundtrip zero_pdu toa ds tp N S L) as (b & M & _ & R). exists b. now split.
Qed.
Print Assumptions C22_pdu_exactly.
Example C22_exactly_instance :
  (exists b, pdu_marshal {| p_smsc := {| a_toa := 145; a_addr := [49; 50; 51] |}; p_tpdu := [1; 2; 3] |} = Ok b) /\
  ~ (exists b, pdu_marshal {| p_smsc := {| a_toa := 145; a_addr := [] |}; p_tpdu := [1; 2; 3] |} = Ok b /\
       pdu_unmarshal b = Ok {| p_smsc := {| a_toa := 145; a_addr := [] |}; p_tpdu := [1; 2; 3] |}).
Proof.
  split; [eexists; reflexivity|]. intros X. apply C22_pdu_exactly in X as [X|(X & _)]; cbn in *.
  - discriminate.
  - now apply X.
  - unfold is_byte. lia.
  - repeat constructor; unfold is_byte; lia.
Qed.
