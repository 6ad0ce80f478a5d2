(** C70: what the tools charsets, smssubmit, smscounter and smsdeliver print. *)
From Coq Require Import String Ascii.
From Verif Require Import GoBase GoLemmas SafeLemmas Utf SpecText UtfProofs SpecDigits Charset CharsetProofs FirstOctet Address Tpdu Sms PduMode Collector
  CollectorMsgProofs SpecSms SpecFlow SpecSelect Cmd P_Sms P_Cmd Print PrintProofs ErrorText ErrorTextProofs PrintTools SpecTools ToolsProofs.

(** ** charsets *)
(** A table of 16 rows and 8 columns: the character of a septet stands in the
    row of its low and the column of its high four bits. *)
Theorem C70_charset_grid : forall m, (forall k v, assoc m k = Some v -> scalar v) ->
  exists grid : list (list bytes),
    display m = str "      0x0_ 0x1_ 0x2_ 0x3_ 0x4_ 0x5_ 0x6_ 0x7_ " ++ [10] ++
      concat (map (fun '(label, cells) => str "0x_" ++ [label] ++ str ": " ++ concat cells ++ [10])
                  (combine (str "0123456789abcdef") grid)) /\
    length grid = 16%nat /\ Forall (fun cells => length cells = 8%nat) grid /\
    forall hi lo, 0 <= hi < 8 -> 0 <= lo < 16 ->
      exists cells text, nth_error grid (Z.to_nat lo) = Some cells /\ nth_error cells (Z.to_nat hi) = Some text /\
        shown_as (assoc m (16 * hi + lo)) text.
Proof.
  intros m S. exists (map (fun r => map (fun c => cell (assoc m (to_byte (c * 16 + r)))) columns) rows).
  split; [|split; [reflexivity|split; [repeat constructor|]]].
  - unfold display, display_row, rows. cbn [flat_map map combine concat app str list_ascii_of_string].
    rewrite !flat_map_concat_map. reflexivity.
  - intros hi lo H L. exists (map (fun c => cell (assoc m (to_byte (c * 16 + lo)))) columns), (cell (assoc m (16 * hi + lo))).
    assert (R : nth_error rows (Z.to_nat lo) = Some lo).
    { assert (X : forall z, 0 <= z < 16 -> (match nth_error rows (Z.to_nat z) with Some y => y =? z | None => false end) = true)
        by now apply (zrange_sweep 16%nat).
      specialize (X lo L). destruct (nth_error rows (Z.to_nat lo)); [|discriminate]. apply Z.eqb_eq in X. now subst. }
    assert (C : nth_error columns (Z.to_nat hi) = Some hi).
    { assert (X : forall z, 0 <= z < 8 -> (match nth_error columns (Z.to_nat z) with Some y => y =? z | None => false end) = true)
        by now apply (zrange_sweep 8%nat).
      specialize (X hi H). destruct (nth_error columns (Z.to_nat hi)); [|discriminate]. apply Z.eqb_eq in X. now subst. }
    split; [now apply map_nth_error with (f := fun r => map (fun c => cell (assoc m (to_byte (c * 16 + r)))) columns) in R|].
    split.
    + apply map_nth_error with (f := fun c => cell (assoc m (to_byte (c * 16 + lo)))) in C. rewrite C.
      replace (to_byte (hi * 16 + lo)) with (16 * hi + lo); [reflexivity|unfold to_byte; lia].
    + apply cell_shape. destruct (assoc m _) eqn:A; [now apply S in A|exact I].
Qed.
Print Assumptions C70_charset_grid.

(** Tables that look the same are the same. *)
Theorem C70_charset_tells : forall m m',
  (forall k v, assoc m k = Some v -> scalar v) -> (forall k v, assoc m' k = Some v -> scalar v) ->
  display m = display m' -> forall k, 0 <= k < 128 -> assoc m k = assoc m' k.
Proof. exact display_inj. Qed.
Print Assumptions C70_charset_tells.

(** charsets prints both tables of all fourteen languages, with their names and
    numbers (one name is misspelt). *)
Theorem C70_charsets_prints :
  (forall nli k v, assoc (new_decoder nli) k = Some v \/ assoc (new_ext_decoder nli) k = Some v -> scalar v) /\
    charsets_text = Ok (concat (map (fun '(nli, name) =>
      str name ++ str " Locking (NLI=" ++ fmt_int nli ++ str ")" ++ [10] ++ display (new_decoder nli) ++ [10] ++
      str name ++ str " Shift (NLI=" ++ fmt_int nli ++ str ")" ++ [10] ++ display (new_ext_decoder nli) ++ [10])
      [(0, "Basic (default)"); (1, "Turkish"); (2, "Spanish"); (3, "Portuguese"); (4, "Bengali"); (5, "Gujaranti"); (6, "Hindi");
       (7, "Kannada"); (8, "Malayalam"); (9, "Oriya"); (10, "Punjabi"); (11, "Tamil"); (12, "Telugu"); (13, "Urdu")]%string)).
Proof.
  split.
  - intros nli k v [H|H]; [now apply (tk_scalar _ _ (locking_ok nli)) in H|now apply (tk_scalar _ _ (shift_ok nli)) in H].
  - unfold charsets_text. change (Z.to_nat (nli_urdu + 1)) with 14%nat. unfold nli_default.
    Opaque display new_decoder new_ext_decoder. cbn -[str fmt_int app]. rewrite <- !app_assoc. reflexivity.
    Transparent display new_decoder new_ext_decoder.
Qed.
Print Assumptions C70_charsets_prints.

(** The cell of the euro sign, in the shift table of every language: septet
    0x65, fifth row, sixth column. *)
Example C70_charset_example :
  assoc default_ext_decoder 101 = Some 8364 /\ shown_as (Some 8364) [32; 32; 226; 130; 172; 32; 32] /\
  shown_as (Some 8218) (str "201a ") /\ shown_as (Some 64) (str "  @  ") /\ shown_as None (str "     ") /\
  display_row (new_decoder 0) 0 = str "0x_0:   @    " ++ [206; 148] ++ str "   SP    0    " ++ [194; 161] ++ str "    P    " ++ [194; 191] ++ str "    p  " ++ [10].
Proof.
  split; [reflexivity|]. split; [apply (sh_char (Some 8364) 8364); unfold scalar; [lia|right; repeat split; lia]|].
  split; [apply (sh_code 8218); unfold scalar; lia|]. split; [apply (sh_char (Some 64) 64); unfold scalar; [lia|right; repeat split; lia]|].
  split; [apply (sh_char None 32); unfold scalar; [lia|now left]|]. vm_compute. reflexivity.
Qed.

(** ** smssubmit *)
(** What smssubmit prints tells the TPDUs, hence the number and the message.
    (The hypotheses on the message and the number are those of
    C54_smssubmit_partial.) *)
Theorem C70_submit_tells : forall number ds msg nli number' ds' msg' nli' out,
  valid_utf8 msg -> ~ In 27 msg \/ choose msg (submit_charsets nli) = ChUcs2 -> msg <> [] -> dialled number ds ->
  valid_utf8 msg' -> ~ In 27 msg' \/ choose msg' (submit_charsets nli') = ChUcs2 -> msg' <> [] -> dialled number' ds' ->
  smssubmit_text number msg nli = Ok out -> smssubmit_text number' msg' nli' = Ok out ->
  smssubmit number msg nli = smssubmit number' msg' nli' /\ msg = msg' /\ ds = ds'.
Proof.
  intros number ds msg nli number' ds' msg' nli' out V E N D V' E' N' D' O O'.
  destruct (C54_smssubmit_partial number ds msg nli V E D) as (lines & S & R).
  destruct (C54_smssubmit_partial number' ds' msg' nli' V' E' D') as (lines' & S' & R').
  destruct R as (rcvd & F & HD), R' as (rcvd' & F' & HD').
  unfold smssubmit_text in O, O'. rewrite S in O. rewrite S' in O'. cbn [bind] in O, O'. apply ok_inj in O. apply ok_inj in O'.
  assert (OL : forall n ls rs, Forall2 (fun l r => smsdecode l false true = Ok (r, None) /\ tpdu_type r = SmsSubmit /\ addr_number (DA r) = 43 :: n) ls rs ->
    Forall one_line ls).
  { clear. induction 1 as [|l r ls rs (H & _) _ IH]; constructor; [|exact IH]. unfold smsdecode in H.
    destruct (hex_decode l) as [b| | |] eqn:X; try discriminate H. now apply hex_decode_one_line in X. }
  assert (lines = lines') as <-.
  { apply submit_text_inj; [eapply OL; eassumption..|congruence]. }
  split; [congruence|].
  assert (rcvd = rcvd') as <-.
  { clear - F F'. revert rcvd' F'. induction F as [|l r ls rs (H & _) _ IH]; intros rcvd' F'; inversion F' as [|? r' ? rs' (H' & _) F2]; subst; [reflexivity|].
    rewrite H in H'. injection H' as <-. f_equal. now apply IH. }
  split; [congruence|]. destruct F as [|l r ls rs (_ & _ & A) _]; [change (Ok (A := bytes) [] = Ok msg) in HD; apply ok_inj in HD; congruence|].
  inversion F' as [|? ? ? ? (_ & _ & A') _]; subst. congruence.
Qed.
Print Assumptions C70_submit_tells.

(** The examples of the README. *)
Example C70_submit_example :
  smssubmit_text (str "12345") (str "Hello world") 0 =
    Ok (str "Submit TPDU:" ++ [10] ++ str "010105912143f500000bc8329bfd06dddf723619" ++ [10]) /\
  submit_text [str "41"; str "42"] = str "Submit TPDU 1:" ++ [10] ++ str "41" ++ [10] ++ str "Submit TPDU 2:" ++ [10] ++ str "42" ++ [10].
Proof. split; vm_compute; reflexivity. Qed.

(** ** smscounter *)
Theorem C70_counter_tells : forall msg nli msg' nli' k k',
  Forall is_byte msg -> msg <> [] -> Forall is_byte msg' -> msg' <> [] ->
  new_count msg nli = Ok k -> new_count msg' nli' = Ok k' -> count_string k = count_string k' -> k = k'.
Proof.
  intros msg nli msg' nli' k k' F N F' N' K K' E.
  destruct (C50_counts msg nli F N) as (_ & k1 & _ & H & _ & _ & _ & _ & _ & _ & _ & X).
  destruct (C50_counts msg' nli' F' N') as (_ & k2 & _ & H' & _ & _ & _ & _ & _ & _ & _ & X').
  rewrite K in H. apply ok_inj in H. subst k1. rewrite K' in H'. apply ok_inj in H'. subst k2.
  apply count_string_inj; [| |exact E].
  - rewrite X. unfold encoding_name. destruct (choice_tables _) as [[? ?]|]; [destruct (existsb _ _)|]; apply one_line_str; reflexivity.
  - rewrite X'. unfold encoding_name. destruct (choice_tables _) as [[? ?]|]; [destruct (existsb _ _)|]; apply one_line_str; reflexivity.
Qed.
Print Assumptions C70_counter_tells.

(** ** smsdeliver *)
(** Two runs that print the same show the same messages of the same senders in
    the same order, if the messages have no line feed and the numbers no
    colon. *)
Theorem C70_deliver_tells_partial : forall pm args pm' args' ls z ls' z',
  let clear p := ~ In 58 (fst p) /\ ~ In 10 (snd p) in
  smsdeliver pm args = (ls, z) -> smsdeliver pm' args' = (ls', z') ->
  Forall clear (messages_of ls) -> Forall clear (messages_of ls') ->
  deliver_text ls = deliver_text ls' -> messages_of ls = messages_of ls'.
Proof.
  intros pm args pm' args' ls z ls' z' clear _ _ F F' E. rewrite !deliver_messages in E. now apply deliver_inj in E.
Qed.
Print Assumptions C70_deliver_tells_partial.

(** A message with a line feed can look like two messages, the second from a
    number of the first sender's choice. *)
Definition deliver_args (d : Z) (text : bytes) : bytes :=
  hex_encode ([4; 1; 145; 240 + d; 0; 4; 2; 1; 1; 0; 0; 0; 0; len text] ++ text).
Theorem C70_deliver_tells_refuted : exists args args' ls ls' s s',
  smsdeliver false args = (ls, SdDone s) /\ smsdeliver false args' = (ls', SdDone s') /\
  deliver_text ls = deliver_text ls' /\
  messages_of ls = [(str "+1", str "a" ++ [10] ++ str "+2: b")] /\
  messages_of ls' = [(str "+1", str "a"); (str "+2", str "b")].
Proof.
  exists [deliver_args 1 (str "a" ++ [10] ++ str "+2: b")], [deliver_args 1 (str "a"); deliver_args 2 (str "b")].
  exists [SdPrint (str "+1") (str "a" ++ [10] ++ str "+2: b")], [SdPrint (str "+1") (str "a"); SdPrint (str "+2") (str "b")].
  exists new_collector, new_collector. vm_compute. repeat split.
Qed.
Print Assumptions C70_deliver_tells_refuted.

(** The example of the README. *)
Example C70_deliver_example :
  deliver_text (fst (smsdeliver true [str "07911614220991F1040B911605935713F200008140806113912304D7F79B0E"])) =
  str "+61503975312: Woot" ++ [10].
Proof. vm_compute. reflexivity. Qed.
