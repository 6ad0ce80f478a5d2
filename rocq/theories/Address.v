(** Model of encoding/tpdu/address.go. *)
From Verif Require Import GoBase Semioctet SevenBit Charset Gsm7 Dcs TpduError.

(** encoding/tpdu/address.go:13-16 [Address]. *)
Record address := { a_toa : Z; a_addr : bytes }.

(** encoding/tpdu/address.go:164-188 [TypeOfNumber] and 195-231
    [NumberingPlan]: the values the code tests or sets. *)
Definition TonInternational : Z := 1.
Definition TonAlphanumeric : Z := 5.
Definition NpISDN : Z := 1.

(** encoding/tpdu/address.go:154-156 [Address.TypeOfNumber]. *)
Definition toa_ton (toa : Z) : Z := Z.land (Z.shiftr toa 4) 7.
Definition addr_ton (a : address) : Z := toa_ton (a_toa a).
(** encoding/tpdu/address.go:139-141 [Address.NumberingPlan]. *)
Definition addr_npi (a : address) : Z := Z.land (a_toa a) 15.
(** encoding/tpdu/address.go:144-146 [Address.SetNumberingPlan]. *)
Definition addr_set_npi (a : address) (np : Z) : address :=
  {| a_toa := Z.lor (andnot8 (a_toa a) 15) (Z.land np 15); a_addr := a_addr a |}.
(** encoding/tpdu/address.go:149-151 [Address.SetTypeOfNumber]. *)
Definition addr_set_ton (a : address) (ton : Z) : address :=
  {| a_toa := Z.lor (andnot8 (a_toa a) 112) (shl8 (Z.land ton 7) 4);
     a_addr := a_addr a |}.

(** '+', encoding/tpdu/address.go:121. *)
Definition plus_char : Z := 43.

(** encoding/tpdu/address.go:119-124 [Address.Number]. *)
Definition addr_number (a : address) : bytes :=
  if addr_ton a =? TonInternational then plus_char :: a_addr a else a_addr a.

(** encoding/tpdu/address.go:129-136 [Address.SetNumber]. *)
Definition addr_set_number (a : address) (number : bytes) : address :=
  let number := match number with
                | c :: rest => if c =? plus_char then rest else number
                | [] => number
                end in
  {| a_toa := a_toa (addr_set_npi (addr_set_ton a TonInternational) NpISDN);
     a_addr := number |}.

(** encoding/tpdu/address.go:22-30 [NewAddress], without options and with the
    single option [FromNumber] (36-41). *)
Definition new_address : address := {| a_toa := 128; a_addr := [] |}.
Definition new_address_number (number : bytes) : address :=
  let a := addr_set_number {| a_toa := 0; a_addr := [] |} number in
  {| a_toa := Z.lor (a_toa a) 128; a_addr := a_addr a |}.

(** gsm7.NewEncoder().WithExtCharset(nil) (encoding/tpdu/address.go:53) and
    gsm7.NewDecoder().WithExtCharset(nil).Strict() (encoding/tpdu/address.go:96). *)
Definition addr_gsm7_encoder : gsm7_encoder :=
  {| ge_set := default_encoder; ge_ext := [] |}.
Definition addr_gsm7_decoder : gsm7_decoder :=
  {| gd_set := default_decoder; gd_ext := []; gd_strict := true |}.

(** encoding/tpdu/address.go:47-71 [Address.MarshalBinary]. *)
Definition addr_marshal (a : address) : res bytes :=
  if addr_ton a =? TonAlphanumeric then
    u <- on_err (gsm7_encode addr_gsm7_encoder (a_addr a)) (encode_error "addr") ;;
    let l := (len u * 7 + 3) / 4 in
    Ok (to_byte l :: a_toa a :: pack7bit u 0)
  else
    s <- on_err (semi_encode (a_addr a)) (encode_error "addr") ;;
    Ok (to_byte (len (a_addr a)) :: a_toa a :: s).

(** encoding/tpdu/address.go:77-116 [Address.UnmarshalBinary].  On success the
    address and the number of octets read.  The receiver's previous value is
    irrelevant on success; on error Go leaves it unchanged (except nothing is
    written), which the callers' partial results on error ignore. *)
Definition addr_unmarshal (src : bytes) : res (address * Z) :=
  if len src <? 2 then Err (new_decode_error "addr" 0 ErrUnderflow) else
  l <- idx src 0 ;;
  let ol := (l + 1) / 2 in
  toa <- idx src 1 ;;
  let ton := toa_ton toa in
  let ri := 2 in
  if len src <? ri + ol then Err (new_decode_error "addr" ri ErrUnderflow) else
  body <- slice src ri (ri + ol) ;;
  if ton =? TonAlphanumeric then
    let u := unpack7bit body 0 in
    u <- (if l <? (len u * 7 + 3) / 4 then slice u 0 (len u - 1) else Ok u) ;;
    baddr <- on_err (gsm7_decode addr_gsm7_decoder u) (new_decode_error "addr" ri) ;;
    Ok ({| a_toa := toa; a_addr := baddr |}, ri + ol)
  else
    '(baddr, n) <- on_err (semi_decode l body) (new_decode_error "addr" ri) ;;
    if negb (n =? ol) || (len baddr <? l)
    then Err (new_decode_error "addr" ri ErrUnderflow)
    else Ok ({| a_toa := toa; a_addr := baddr |}, ri + n).
