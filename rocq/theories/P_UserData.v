(** C11, C12: user data encoding. *)
From Verif Require Import GoBase GoLemmas Utf Ucs2 UtfProofs SpecText Charset Gsm7 Dcs UserData
  SpecSelect UserDataProofs EscapeProofs EncodeProofs.

(** C11.  The full claim is false for the same reason as C06. *)
Theorem C11_user_data_roundtrip_refuted : exists msg ud h alpha,
  valid_utf8 msg /\ encode_user_data msg [] = (ud, h, alpha) /\
  decode_user_data ud (ies h) alpha [] <> {| dd_text := msg; dd_err := None |}.
Proof.
  exists [27; 101], [27; 101], None, 0. split; [|split].
  - exists [27; 101]. change [27; 101] with ([27] ++ [101] ++ []) at 2.
    repeat (constructor; try lia).
  - vm_compute. reflexivity.
  - vm_compute. discriminate.
Qed.
Print Assumptions C11_user_data_roundtrip_refuted.

(** What holds: every valid UTF-8 message survives encoding with any options and
    decoding with the same options or with all character sets, unless it
    contains U+001B and is encoded in GSM7. *)
Theorem C11_user_data_roundtrip_partial : forall msg opts dopts ud h alpha,
  valid_utf8 msg -> decodes_with opts dopts ->
  encode_user_data msg opts = (ud, h, alpha) ->
  ~ In 27 msg \/ alpha = AlphaUCS2 ->
  decode_user_data ud (ies h) alpha dopts = {| dd_text := msg; dd_err := None |}.
Proof. exact user_data_roundtrip. Qed.
Print Assumptions C11_user_data_roundtrip_partial.

(** Exactly those messages survive. *)
Theorem C11_user_data_roundtrip_iff : forall msg opts dopts ud h alpha,
  valid_utf8 msg -> decodes_with opts dopts ->
  encode_user_data msg opts = (ud, h, alpha) ->
  (decode_user_data ud (ies h) alpha dopts = {| dd_text := msg; dd_err := None |} <->
   ~ In 27 msg \/ alpha = AlphaUCS2).
Proof.
  intros msg opts dopts ud h alpha HV HD HE. split; [|now apply user_data_roundtrip with (opts := opts)].
  intros H. destruct (Z.eq_dec alpha AlphaUCS2) as [->|N]; [now right|left].
  assert (alpha = Alpha7Bit) as ->.
  { pose proof (encode_user_data_choice msg opts) as C. rewrite HE in C. apply ud_choice_alpha in C.
    rewrite C in *. destruct (choose msg opts); try reflexivity. now destruct N. }
  pose proof (user_data_no_esc ud (ies h) Alpha7Bit dopts) as X. rewrite H in X. apply X; discriminate.
Qed.
Print Assumptions C11_user_data_roundtrip_iff.

(** C12.  The user data, header and alphabet are those of the specified choice:
    default, else the first locking table, else the first shift table, else the
    first language with both, else UCS-2 (SpecSelect.v). *)
Theorem C12_alphabet_selection : forall msg opts,
  ud_choice msg (choose msg opts) (encode_user_data msg opts).
Proof. exact encode_user_data_choice. Qed.
Print Assumptions C12_alphabet_selection.

(** A language is chosen only if registered, and then its identifier fits the
    one octet that carries it. *)
Theorem C12_choice_registered : forall msg opts,
  match choose msg opts with
  | ChLocking n => In n (registered true [] opts) /\ 1 <= n <= 13
  | ChShift n => In n (registered false [] opts) /\ 1 <= n <= 13
  | ChBoth n => In n (registered true [] opts) /\ In n (registered false [] opts) /\ 1 <= n <= 13
  | _ => True
  end.
Proof. exact choice_registered. Qed.
Print Assumptions C12_choice_registered.

(** Concrete cases: default; Turkish locking then shift; Hindi with both;
    fallback to UCS-2 when the language is not registered. *)
Example C11_C12_instance :
  choose [104; 105] [OptAllCharsets] = ChDefault /\
  choose [196; 177] [OptAllCharsets] = ChLocking 1 /\      (* dotless i *)
  choose [195; 167] [OptShift [1]] = ChShift 1 /\          (* c cedilla *)
  choose [224; 164; 133; 226; 130; 185] [OptAllCharsets] = ChUcs2 /\
  choose [224; 164; 133; 224; 165; 144; 65] [OptCharset [6]] = ChBoth 6 /\
  choose [196; 177] [OptCharset [2]] = ChUcs2 /\
  encode_user_data [196; 177] [OptAllCharsets] = ([7], Some [nli_ie 25 1], Alpha7Bit).
Proof. repeat split; vm_compute; reflexivity. Qed.
