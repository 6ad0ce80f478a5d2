(** C80: what Decode and DecodeUserData return, exactly.  [decode] models
    sms.Decode and [decode_user_data] tpdu.DecodeUserData; what they should return
    is SpecDecode. *)
From Verif Require Import GoBase GoLemmas SafeLemmas Utf UtfProofs SpecText SpecDcs SpecHeader Charset UserData Tpdu Sms SpecDecode DecodeProofs CharsetProofs P_Header.

(** Any number of TPDUs, with whatever user data, alphabets and headers, and any
    options. *)
Theorem C80_decode : forall segs opts r, Forall octet_fields segs ->
  (decode segs opts = r <-> message_read (or_all opts) [] segs r).
Proof. intros. now apply message_iff. Qed.
Print Assumptions C80_decode.

(** DecodeUserData, which returns the text before a half of a surrogate pair
    together with the error that holds it. *)
Theorem C80_user_data : forall opts alpha l ud, Forall is_byte ud ->
  (forall text left, data_read opts alpha l ud text left <->
     decode_user_data ud l alpha opts = {| dd_text := text; dd_err := match left with [] => None | _ => Some (Ucs2DanglingSurrogate left) end |}) /\
  (data_odd alpha ud <-> decode_user_data ud l alpha opts = {| dd_text := []; dd_err := Some Ucs2InvalidLength |}).
Proof.
  intros opts alpha l ud HB. split; [intros text left|]; (split; [|intros E]).
  - apply data_read_computed.
  - destruct (data_exists opts alpha l ud HB) as [(text' & left' & D & _)|O].
    + pose proof (data_read_computed _ _ _ _ _ _ D) as E'. rewrite E in E'. injection E' as <- EL.
      assert (left = left') as -> by (destruct left, left'; cbn [left_err] in EL; congruence). exact D.
    + rewrite (data_odd_computed opts alpha l ud O) in E. injection E as _ EL. destruct left; discriminate.
  - apply data_odd_computed.
  - destruct (data_exists opts alpha l ud HB) as [(text' & left' & D & _)|O]; [|exact O].
    pose proof (data_read_computed _ _ _ _ _ _ D) as E'. rewrite E in E'. injection E' as _ EL. destruct left'; discriminate.
Qed.
Print Assumptions C80_user_data.

(** One thing is read. *)
Theorem C80_one : forall opts segs r r', Forall octet_fields segs ->
  message_read opts [] segs r -> message_read opts [] segs r' -> r = r'.
Proof. intros opts segs r r' HF R R'. apply message_computed in R; [|exact HF]. apply message_computed in R'; [|exact HF]. congruence. Qed.
Print Assumptions C80_one.

(** The only reasons for an error are an odd number of octets of UCS-2 and a half
    pair at the end of the message; a panic needs a nil pointer. *)
Theorem C80_errors : forall segs opts, Forall octet_fields segs -> ~ In None segs ->
  (exists text, decode segs opts = Ok text) \/ decode segs opts = Err Ucs2InvalidLength \/
  exists h l, 55296 <= 256 * h + l < 57344 /\ 0 <= l < 256 /\ decode segs opts = Err (Ucs2DanglingSurrogate [h; l]).
Proof.
  intros segs opts HF HN. destruct (message_exists (or_all opts) segs [] HF (Forall_nil _)) as (r & R).
  pose proof (proj2 (message_iff opts segs r HF) R) as E. rewrite E. clear E HF.
  assert (L : forall alpha l ud text left, data_read (or_all opts) alpha l ud text left -> left = [] \/ exists h l, 55296 <= 256 * h + l < 57344 /\ 0 <= l < 256 /\ left = [h; l]).
  { intros alpha l ud text left H. destruct H as [A|us rs w text left A B U T W|a b text A1 A2 LA LB T]; [now left| |now left].
    assert (X : w = [] \/ exists u, surrogate u /\ w = [u]) by (clear - U; induction U; eauto).
    destruct X as [-> |(u & S & ->)]; [left; now apply be_units_empty|right].
    apply be_units_head in W as (h & l' & s & -> & H1 & H2 & -> & W). apply be_units_empty in W as ->.
    exists h, l'. unfold surrogate in S. repeat split; lia. }
  assert (G : forall left segs r, message_read (or_all opts) left segs r -> ~ In None segs ->
     (left = [] \/ exists h l, 55296 <= 256 * h + l < 57344 /\ 0 <= l < 256 /\ left = [h; l]) ->
     (exists text, r = Ok text) \/ r = Err Ucs2InvalidLength \/ exists h l, 55296 <= 256 * h + l < 57344 /\ 0 <= l < 256 /\ r = Err (Ucs2DanglingSurrogate [h; l])).
  { clear - L. intros left segs r R. induction R as [|left NE|left segs|left s segs O|left s segs text left' more D _ IH|left s segs text left' e D _ IH|left s segs text left' D _ IH]; intros HN HL.
    - left. now eexists.
    - destruct HL as [-> |(h & l & A & B & ->)]; [congruence|]. right. right. now exists h, l.
    - exfalso. apply HN. now left.
    - right. now left.
    - left. now eexists.
    - apply IH; [intros I; apply HN; now right|eapply L; exact D].
    - apply IH; [intros I; apply HN; now right|eapply L; exact D]. }
  apply (G _ _ _ R HN). now left.
Qed.
Print Assumptions C80_errors.

(** Without TPDUs of octets the text is valid UTF-8. *)
Theorem C80_valid : forall segs opts text, Forall octet_fields segs ->
  Forall (fun s => match s with Some t => alphabet_in t <> 1 | None => True end) segs ->
  decode segs opts = Ok text -> valid_utf8 text.
Proof.
  intros segs opts text HF HA E. apply message_iff in E; [|exact HF]. clear HF. remember [] as left eqn:EL. clear EL.
  remember (Ok text) as r eqn:ER. revert text ER.
  induction E as [|left NE|left segs|left s segs O|left s segs t left' more D _ IH|left s segs t left' e D _ IH|left s segs t left' D _ IH]; intros text ER; try discriminate.
  - apply ok_inj in ER as <-. exists []. constructor.
  - apply ok_inj in ER as <-. destruct (IH (Forall_inv_tail HA) more eq_refl) as (rs & T). pose proof (Forall_inv HA) as A. cbv beta iota in A.
    destruct D as [A'|us rs' w t left' A' B U T' W|a b t A1 A2 LA LB T']; [contradiction| |]; (eexists; apply utf8_text_app; [exact T'|exact T]).
Qed.
Print Assumptions C80_valid.

(** ** Instances *)
Definition C80_seg (dcs : Z) (h : udh) (ud : bytes) : option tpdu := Some (set_UDf (set_UDHf (set_DCSf zero_tpdu dcs) h) ud).

(** A pair cut between two TPDUs; a half that is followed by something else, which
    is lost with it; a half in front of octets; and a header that names Turkish,
    with and without it being on offer. *)
Example C80_instance :
  Forall octet_fields [C80_seg 8 None [0; 72; 216; 61]; C80_seg 8 None [222; 0; 0; 33]] /\
  message_read [OptAllCharsets] [] [C80_seg 8 None [0; 72; 216; 61]; C80_seg 8 None [222; 0; 0; 33]] (Ok [72; 240; 159; 152; 128; 33]) /\
  decode [C80_seg 8 None [0; 72; 216; 61]; C80_seg 8 None [222; 0; 0; 33]] [] = Ok [72; 240; 159; 152; 128; 33] /\
  decode [C80_seg 8 None [216; 61; 0; 33; 0; 34]] [] = Ok [239; 191; 189; 34] /\
  decode [C80_seg 8 None [0; 72; 216; 61]; C80_seg 4 None [65]] [] = Ok [72; 216; 61; 65] /\
  decode [C80_seg 8 None [0; 72; 216; 61]; C80_seg 8 None [222]] [] = Err Ucs2InvalidLength /\
  decode [C80_seg 8 None [0; 72; 216; 61]] [] = Err (Ucs2DanglingSurrogate [216; 61]) /\
  decode [C80_seg 0 (Some [{| ie_id := 25; ie_data := [1] |}]) [7; 27; 71]] [] = Ok [196; 177; 71] /\
  decode [C80_seg 0 (Some [{| ie_id := 24; ie_data := [1] |}]) [7; 27; 71]] [OptShift [1]] = Ok [195; 172; 196; 158] /\
  decode [C80_seg 0 (Some [{| ie_id := 25; ie_data := [1] |}]) [7; 27; 71]] [OptShift [1]] = Ok [195; 172; 71].
Proof.
  assert (HF : Forall octet_fields [C80_seg 8 None [0; 72; 216; 61]; C80_seg 8 None [222; 0; 0; 33]]).
  { repeat constructor; try (unfold is_byte; cbn; lia). }
  split; [exact HF|]. split; [apply (C80_decode _ []); [exact HF|vm_compute; reflexivity]|].
  repeat split; vm_compute; reflexivity.
Qed.
