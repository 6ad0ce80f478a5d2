(** Model of the options and methods that configure the coders of
    encoding/gsm7/gsm7.go.  A nil map is [None]. *)
From Verif Require Import GoBase Charset Gsm7.

(** The implementations of encoding/gsm7/gsm7.go:33-35 [DecoderOption]:
    [CharsetOption] (:130), [ExtCharsetOption] (:144), [NullDecoder] (:168) and
    [StrictOption] (:176). *)
Inductive decoder_option := DCharset (nli : Z) | DExtCharset (nli : Z) | DNoExtCharset | DStrict.
(** Those of encoding/gsm7/gsm7.go:38-40 [EncoderOption]. *)
Inductive encoder_option := ECharset (nli : Z) | EExtCharset (nli : Z).

(** encoding/gsm7/gsm7.go:20-24 and 27-30: the structs while they are being
    filled, when the maps may be nil. *)
Record raw_decoder := { rd_set : option decoder; rd_ext : option decoder; rd_strict : bool }.
Record raw_encoder := { re_set : option encoder; re_ext : option encoder }.

(** encoding/gsm7/gsm7.go:134, 148, 170 and 178 [applyDecoderOption]. *)
Definition apply_decoder_option (d : raw_decoder) (o : decoder_option) : raw_decoder :=
  match o with
  | DCharset n => {| rd_set := Some (new_decoder n); rd_ext := rd_ext d; rd_strict := rd_strict d |}
  | DExtCharset n =>
      {| rd_set := rd_set d; rd_ext := Some (new_ext_decoder n); rd_strict := rd_strict d |}
  | DNoExtCharset => {| rd_set := rd_set d; rd_ext := Some []; rd_strict := rd_strict d |}
  | DStrict => {| rd_set := rd_set d; rd_ext := rd_ext d; rd_strict := true |}
  end.
(** encoding/gsm7/gsm7.go:138 and 152 [applyEncoderOption]. *)
Definition apply_encoder_option (e : raw_encoder) (o : encoder_option) : raw_encoder :=
  match o with
  | ECharset n => {| re_set := Some (new_encoder n); re_ext := re_ext e |}
  | EExtCharset n => {| re_set := re_set e; re_ext := Some (new_ext_encoder n) |}
  end.

(** encoding/gsm7/gsm7.go:43-55 [NewDecoder]. *)
Definition new_decoder_with (opts : list decoder_option) : gsm7_decoder :=
  let d := fold_left apply_decoder_option opts
             {| rd_set := None; rd_ext := None; rd_strict := false |} in
  {| gd_set := match rd_set d with Some m => m | None => default_decoder end;
     gd_ext := match rd_ext d with Some m => m | None => default_ext_decoder end;
     gd_strict := rd_strict d |}.
(** encoding/gsm7/gsm7.go:58-70 [NewEncoder]. *)
Definition new_encoder_with (opts : list encoder_option) : gsm7_encoder :=
  let e := fold_left apply_encoder_option opts {| re_set := None; re_ext := None |} in
  {| ge_set := match re_set e with Some m => m | None => default_encoder end;
     ge_ext := match re_ext e with Some m => m | None => default_ext_encoder end |}.

(** encoding/gsm7/gsm7.go:73-76 [Decode] and 82-85 [Encode]. *)
Definition decode_with (src : list Z) (opts : list decoder_option) : res bytes :=
  gsm7_decode (new_decoder_with opts) src.
Definition encode_with (src : bytes) (opts : list encoder_option) : res (list Z) :=
  gsm7_encode (new_encoder_with opts) src.

(** encoding/gsm7/gsm7.go:193-209, the methods of Decoder, and 237-246, those of
    Encoder.  A lookup in a nil map finds nothing, so a table given by the caller
    is a list; the receivers are values, so each method returns a changed copy. *)
Definition with_charset (d : gsm7_decoder) (set : decoder) : gsm7_decoder :=
  {| gd_set := set; gd_ext := gd_ext d; gd_strict := gd_strict d |}.
Definition with_ext_charset (d : gsm7_decoder) (ext : decoder) : gsm7_decoder :=
  {| gd_set := gd_set d; gd_ext := ext; gd_strict := gd_strict d |}.
Definition strict (d : gsm7_decoder) : gsm7_decoder :=
  {| gd_set := gd_set d; gd_ext := gd_ext d; gd_strict := true |}.
Definition e_with_charset (e : gsm7_encoder) (set : encoder) : gsm7_encoder :=
  {| ge_set := set; ge_ext := ge_ext e |}.
Definition e_with_ext_charset (e : gsm7_encoder) (ext : encoder) : gsm7_encoder :=
  {| ge_set := ge_set e; ge_ext := ext |}.
