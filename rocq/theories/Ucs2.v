(** Model of encoding/ucs2/ucs2.go. *)
From Verif Require Import GoBase Utf.

(** The outcome of ucs2.Decode, encoding/ucs2/ucs2.go:19-41: the decoded runes together with the error, as
    in Go (the runes are meaningful with ErrDanglingSurrogate). *)
Record ucs2_result := { u2_runes : list Z; u2_err : option gerr }.

(** encoding/ucs2/ucs2.go:28-39, the decoding loop from offset [ri], written
    over the remaining octets src[ri:].  The test [ri >= len(src)-3] is "fewer
    than 4 octets remain". *)
Fixpoint ucs2_loop (rest : bytes) : ucs2_result :=
  match rest with
  | h :: l :: rest1 =>
      let r := h * 256 + l in
      if is_surrogate r then
        match rest1 with
        | h2 :: l2 :: rest2 =>
            let r2 := h2 * 256 + l2 in
            let d := ucs2_loop rest2 in
            {| u2_runes := utf16_decode_rune r r2 :: u2_runes d;
               u2_err := u2_err d |}
        | _ => {| u2_runes := [];
                  u2_err := Some (Ucs2DanglingSurrogate rest) |}
        end
      else
        let d := ucs2_loop rest1 in
        {| u2_runes := r :: u2_runes d; u2_err := u2_err d |}
  | _ => {| u2_runes := []; u2_err := None |}
  end.

(** encoding/ucs2/ucs2.go:19-41 [Decode]. *)
Definition ucs2_decode (src : bytes) : ucs2_result :=
  if len src =? 0 then {| u2_runes := []; u2_err := None |}
  else if Z.land (len src) 1 =? 1
  then {| u2_runes := []; u2_err := Some Ucs2InvalidLength |}
  else ucs2_loop src.

(** encoding/ucs2/ucs2.go:45-57 [Encode]; binary.BigEndian.PutUint16. *)
Definition ucs2_encode (src : list Z) : bytes :=
  flat_map (fun u => [(u / 256) mod 256; u mod 256]) (utf16_encode src).
