(** Model of encoding/pdumode/pdu.go and encoding/pdumode/smscaddress.go. *)
From Verif Require Import GoBase Utf Semioctet TpduError Address.

(** encoding/pdumode/smscaddress.go:27-41 [SMSCAddress.MarshalBinary]. *)
Definition smsc_marshal (a : address) : res bytes :=
  addr <- on_err (semi_encode (a_addr a)) (encode_error "addr") ;;
  if len addr =? 0 then Ok [0]
  else Ok (to_byte (len addr + 1) :: a_toa a :: addr).

(** encoding/pdumode/smscaddress.go:47-73 [SMSCAddress.UnmarshalBinary]. [a]
    is the receiver before the call, unchanged when the length is zero. *)
Definition smsc_unmarshal (a : address) (src : bytes) : res (address * Z) :=
  if len src <? 1 then Err (new_decode_error "length" 0 ErrUnderflow) else
  l <- idx src 0 ;;
  if l =? 0 then Ok (a, 1) else
  if len src <? 2 then Err (new_decode_error "toa" 1 ErrUnderflow) else
  toa <- idx src 1 ;;
  let ri := 2 in
  let l := l - 1 in
  if len src <? ri + l then Err (new_decode_error "addr" ri ErrUnderflow) else
  s <- slice src ri (ri + l) ;;
  '(baddr, n) <- on_err (semi_decode (l * 2) s) (new_decode_error "addr" ri) ;;
  Ok ({| a_toa := toa; a_addr := baddr |}, ri + n).

(** encoding/pdumode/pdu.go:12-18 [PDU]. *)
Record pdu := { p_smsc : address; p_tpdu : bytes }.
Definition zero_pdu : pdu := {| p_smsc := {| a_toa := 0; a_addr := [] |}; p_tpdu := [] |}.

(** encoding/pdumode/pdu.go:45-52 [PDU.UnmarshalBinary]. *)
Definition pdu_unmarshal_into (p : pdu) (src : bytes) : res pdu :=
  '(a, n) <- smsc_unmarshal (p_smsc p) src ;;
  rest <- slice_from src n ;;
  Ok {| p_smsc := a; p_tpdu := rest |}.

(** encoding/pdumode/pdu.go:23-31 [UnmarshalBinary]. *)
Definition pdu_unmarshal (src : bytes) : res pdu := pdu_unmarshal_into zero_pdu src.

(** encoding/pdumode/pdu.go:34-42 [UnmarshalHexString] and 55-61
    [PDU.UnmarshalHexString]. *)
Definition pdu_unmarshal_hex (s : bytes) : res pdu :=
  b <- hex_decode s ;; pdu_unmarshal b.

(** encoding/pdumode/pdu.go:64-71 [PDU.MarshalBinary]. *)
Definition pdu_marshal (p : pdu) : res bytes :=
  dst <- smsc_marshal (p_smsc p) ;; Ok (dst ++ p_tpdu p).

(** encoding/pdumode/pdu.go:74-80 [PDU.MarshalHexString]. *)
Definition pdu_marshal_hex (p : pdu) : res bytes :=
  b <- pdu_marshal p ;; Ok (hex_encode b).
