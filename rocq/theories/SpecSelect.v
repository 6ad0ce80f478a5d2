(** Specification of the choice of alphabet made when encoding a message: which
    characters a pair of tables covers, and the order of preference. *)
From Verif Require Import GoBase Utf Ucs2 Charset Gsm7 Dcs UserData.

Definition covers (t : list (Z * Z)) (r : Z) : bool :=
  match assoc t r with Some _ => true | None => false end.

(** Every character of the message is in the locking table of language [l] or
    in the shift table of language [s] (language 0 being the default). *)
Definition encodable (l s : Z) (msg : bytes) : bool :=
  forallb (fun r => covers (new_encoder l) r || covers (new_ext_encoder s) r) (runes_of msg).

(** The languages registered by the options, in order; WithAllCharsets starts
    over with all of them. *)
Fixpoint registered (locking : bool) (acc : list Z) (opts : list charset_opt) : list Z :=
  match opts with
  | [] => acc
  | OptCharset n :: o => registered locking (acc ++ n) o
  | OptLocking n :: o => registered locking (if locking then acc ++ n else acc) o
  | OptShift n :: o => registered locking (if locking then acc else acc ++ n) o
  | OptAllCharsets :: o => registered locking [1;2;3;4;5;6;7;8;9;10;11;12;13] o
  end.

Inductive choice := ChDefault | ChLocking (n : Z) | ChShift (n : Z) | ChBoth (n : Z) | ChUcs2.

(** Default, else the first locking table, else the first shift table, else the
    first language with both, else UCS-2. *)
Definition choose (msg : bytes) (opts : list charset_opt) : choice :=
  let L := registered true [] opts in
  let S := registered false [] opts in
  if encodable 0 0 msg then ChDefault else
  match find (fun n => encodable n 0 msg) L with
  | Some n => ChLocking n
  | None =>
  match find (fun n => encodable 0 n msg) S with
  | Some n => ChShift n
  | None =>
  match find (fun n => existsb (Z.eqb n) S && encodable n n msg) L with
  | Some n => ChBoth n
  | None => ChUcs2
  end end end.

(** The header that names the tables used: element 25 the locking language,
    element 24 the shift language. *)
Definition choice_header (c : choice) : list (Z * list Z) :=
  match c with
  | ChLocking n => [(25, [n])]
  | ChShift n => [(24, [n])]
  | ChBoth n => [(25, [n]); (24, [n])]
  | _ => []
  end.
(** The languages of the locking and shift tables used. *)
Definition choice_tables (c : choice) : option (Z * Z) :=
  match c with
  | ChDefault => Some (0, 0)
  | ChLocking n => Some (n, 0)
  | ChShift n => Some (0, n)
  | ChBoth n => Some (n, n)
  | ChUcs2 => None
  end.

(** The (user data, header, alphabet) triple that realises a choice. *)
Definition ud_choice (msg : bytes) (c : choice) (r : bytes * udh * Z) : Prop :=
  let '(ud, h, alpha) := r in
  map (fun i => (ie_id i, ie_data i)) (ies h) = choice_header c /\
  match choice_tables c with
  | Some (l, s) => alpha = Alpha7Bit /\ gsm7_encode (gsm7_new_encoder (Some l) (Some s)) msg = Ok ud
  | None => alpha = AlphaUCS2 /\ ud = ucs2_encode (runes_of msg)
  end.

(** The decoder is given the encoder's options, or all character sets. *)
Definition decodes_with (opts dopts : list charset_opt) : Prop :=
  dopts = opts \/ In OptAllCharsets dopts.
