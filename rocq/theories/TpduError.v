(** Model of encoding/tpdu/error.go. *)
From Verif Require Import GoBase.

(** encoding/tpdu/error.go:27-37 [NewDecodeError]. *)
Definition new_decode_error (f : string) (o : Z) (e : gerr) : gerr :=
  match e with
  | DecodeErr s off inner => DecodeErr (f ++ "." ++ s)%string (off + o) inner
  | EOF => DecodeErr f o ErrUnderflow
  | _ => DecodeErr f o e
  end.

(** encoding/tpdu/error.go:48-54 [EncodeError]. *)
Definition encode_error (f : string) (e : gerr) : gerr :=
  match e with
  | EncodeErr s inner => EncodeErr (f ++ "." ++ s)%string inner
  | _ => EncodeErr f e
  end.
