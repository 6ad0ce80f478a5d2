(** Independent specification of lists of options: what was asked for last
    holds. *)
From Coq Require Import List ZArith.
From Verif Require Import Gsm7Options.
Import ListNotations.

(** [last_such f l o]: among the elements of [l] that [f] gives a value, the
    last has value [o]; [None] if there is no such element. *)
Definition last_such {A B} (f : A -> option B) (l : list A) (o : option B) : Prop :=
  match o with
  | Some b => exists before x after, l = before ++ x :: after /\ f x = Some b /\
                Forall (fun y => f y = None) after
  | None => Forall (fun y => f y = None) l
  end.

(** Tables that undo each other: what [code] gives a character, [char] turns
    back into it, and the escape is not used as a code. *)
Definition undoes (code char : Z -> option Z) : Prop :=
  forall r g, code r = Some g -> char g = Some r /\ g <> 27%Z.

(** What an option asks for: a locking table; a shift table, or none at all;
    strictness. *)
Definition d_charset (o : decoder_option) : option Z :=
  match o with DCharset n => Some n | _ => None end.
Definition d_ext (o : decoder_option) : option (option Z) :=
  match o with DExtCharset n => Some (Some n) | DNoExtCharset => Some None | _ => None end.
Definition d_strict (o : decoder_option) : option unit :=
  match o with DStrict => Some tt | _ => None end.
Definition e_charset (o : encoder_option) : option Z :=
  match o with ECharset n => Some n | _ => None end.
Definition e_ext (o : encoder_option) : option Z :=
  match o with EExtCharset n => Some n | _ => None end.

(** The methods of a Decoder and of an Encoder, and what each asks for. *)
Inductive d_method := MCharset (set : Charset.decoder) | MExtCharset (ext : Charset.decoder) | MStrict.
Inductive e_method := NCharset (set : Charset.encoder) | NExtCharset (ext : Charset.encoder).
Definition d_call (d : Gsm7.gsm7_decoder) (m : d_method) : Gsm7.gsm7_decoder :=
  match m with
  | MCharset s => with_charset d s
  | MExtCharset x => with_ext_charset d x
  | MStrict => strict d
  end.
Definition e_call (e : Gsm7.gsm7_encoder) (m : e_method) : Gsm7.gsm7_encoder :=
  match m with NCharset s => e_with_charset e s | NExtCharset x => e_with_ext_charset e x end.
Definition m_charset (m : d_method) : option Charset.decoder :=
  match m with MCharset s => Some s | _ => None end.
Definition m_ext (m : d_method) : option Charset.decoder :=
  match m with MExtCharset x => Some x | _ => None end.
Definition n_charset (m : e_method) : option Charset.encoder :=
  match m with NCharset s => Some s | _ => None end.
Definition n_ext (m : e_method) : option Charset.encoder :=
  match m with NExtCharset x => Some x | _ => None end.
