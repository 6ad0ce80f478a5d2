(** Model of encoding/gsm7/gsm7.go. *)
From Verif Require Import GoBase Utf Charset.

(** encoding/gsm7/gsm7.go:15-16. *)
Definition esc : Z := 27.
Definition sp : Z := 32.

(** encoding/gsm7/gsm7.go:20-24 [Decoder]. *)
Record gsm7_decoder := { gd_set : decoder; gd_ext : decoder; gd_strict : bool }.
(** encoding/gsm7/gsm7.go:27-30 [Encoder]. *)
Record gsm7_encoder := { ge_set : encoder; ge_ext : encoder }.

(** encoding/gsm7/gsm7.go:88-126 [Decoder.Decode]: the loop, with the Go
    variable [escaped]; the appended octets are returned in order.  [nil] and
    empty results are not distinguished. *)
Fixpoint gsm7_decode_loop (d : gsm7_decoder) (escaped : bool) (src : list Z)
  : res bytes :=
  match src with
  | [] => Ok (if escaped then [sp] else [])
  | g :: src' =>
      let set_lookup :=
        match assoc (gd_set d) g with
        | Some m => rest <- gsm7_decode_loop d false src' ;;
                    Ok (encode_rune m ++ rest)
        | None => if gd_strict d then Err (Gsm7InvalidSeptet g)
                  else rest <- gsm7_decode_loop d false src' ;; Ok (sp :: rest)
        end in
      if escaped then
        if g =? esc then rest <- gsm7_decode_loop d false src' ;; Ok (sp :: rest)
        else
          match assoc (gd_ext d) g with
          | Some m => rest <- gsm7_decode_loop d false src' ;;
                      Ok (encode_rune m ++ rest)
          | None => if gd_strict d then Err (Gsm7InvalidSeptet g)
                    else set_lookup
          end
      else if g =? esc then gsm7_decode_loop d true src'
      else set_lookup
  end.

Definition gsm7_decode (d : gsm7_decoder) (src : list Z) : res bytes :=
  gsm7_decode_loop d false src.

(** encoding/gsm7/gsm7.go:215-234 [Encoder.Encode]: the loop over runes. *)
Fixpoint gsm7_encode_runes (e : gsm7_encoder) (rs : list Z) : res (list Z) :=
  match rs with
  | [] => Ok []
  | u :: rs' =>
      match assoc (ge_set e) u with
      | Some g => rest <- gsm7_encode_runes e rs' ;; Ok (g :: rest)
      | None =>
          match assoc (ge_ext e) u with
          | Some g => rest <- gsm7_encode_runes e rs' ;; Ok (esc :: g :: rest)
          | None => Err (Gsm7InvalidUTF8 u)
          end
      end
  end.

Definition gsm7_encode (e : gsm7_encoder) (src : bytes) : res (list Z) :=
  gsm7_encode_runes e (runes_of src).

(** encoding/gsm7/gsm7.go:43-55 [NewDecoder] and 58-70 [NewEncoder] with the
    options WithCharset(locking) and WithExtCharset(shift), each optional. *)
Definition gsm7_new_decoder (locking shift : option Z) (strict : bool) : gsm7_decoder :=
  {| gd_set := match locking with Some n => new_decoder n | None => default_decoder end;
     gd_ext := match shift with Some n => new_ext_decoder n | None => default_ext_decoder end;
     gd_strict := strict |}.
Definition gsm7_new_encoder (locking shift : option Z) : gsm7_encoder :=
  {| ge_set := match locking with Some n => new_encoder n | None => default_encoder end;
     ge_ext := match shift with Some n => new_ext_encoder n | None => default_ext_encoder end |}.

(** encoding/gsm7/gsm7.go:168-172 [NullDecoder], i.e. WithoutExtCharset: the
    extension table is empty. *)
Definition gsm7_without_ext (d : gsm7_decoder) : gsm7_decoder :=
  {| gd_set := gd_set d; gd_ext := []; gd_strict := gd_strict d |}.
