(** Decode once more, on slices that share memory (see Heap.v).  The texts are
    those of Sms.v; what is added is where the user data is, and what Decode
    writes. *)
From Verif Require Import GoBase Utf Ucs2 Dcs UserData Tpdu Sms Heap.

(** encoding/tpdu/tpdu.go:17-113 [TPDU]: [ds_rest] holds the fields other than
    UD (its own UD is not used).  The header is only read. *)
Record dseg := { ds_rest : tpdu; ds_ud : gslice }.

(** What a TPDU holds, given the octets in memory. *)
Definition ds_held (h : heap Z) (s : dseg) : tpdu := set_UDf (ds_rest s) (view h (ds_ud s)).

(** The slices with the user data of the TPDUs passed at sms.go:23. *)
Definition uds (segs : list (option dseg)) : list gslice :=
  flat_map (fun s => match s with Some s => [ds_ud s] | None => [] end) segs.

(** An element of [ts] at sms.go:32 and 50: 8-bit user data is returned as it is
    by DecodeUserData (encoding/tpdu/userdata.go:194-195), other text is new. *)
Inductive piece := Text (b : bytes) | Alias (s : gslice).
Definition read_piece (h : heap Z) (p : piece) : bytes :=
  match p with Text b => b | Alias s => view h s end.

(** sms.go:36-40: the octets left over from the TPDU before are extended by
    append.  They are a slice of its user data ([src[ri:]],
    encoding/ucs2/ucs2.go:32), so this may write behind the end of it. *)
Definition joined (grow : nat -> nat -> nat) (junk : Z) (h : heap Z) (dangling : option gslice) (ud : gslice)
  : heap Z * gslice :=
  match dangling with
  | Some d => gappend grow junk h d (view h ud)
  | None => (h, ud)
  end.

(** sms.go:34-55, the loop; the memory afterwards and the pieces of the text.
    [None] is a nil *tpdu.TPDU. *)
Fixpoint h_decode_loop (grow : nat -> nat -> nat) (junk : Z) (h : heap Z) (segs : list (option dseg))
    (dangling : option gslice) (opts : list charset_opt) : heap Z * res (list piece) :=
  match segs with
  | [] => (h, match dangling with
              | Some d => Err (Ucs2DanglingSurrogate (view h d))
              | None => Ok []
              end)
  | None :: _ => (h, Panic)
  | Some s :: segs' =>
      let (h1, ud) := joined grow junk h dangling (ds_ud s) in
      let alpha := dcs_alpha (DCS (ds_rest s)) in
      let d := decode_user_data (view h1 ud) (ies (UDH (ds_rest s))) alpha opts in
      let p := if alpha =? Alpha8Bit then Alias ud else Text (dd_text d) in
      let go dangling :=
        let (h2, r) := h_decode_loop grow junk h1 segs' dangling opts in
        (h2, ps <- r ;; Ok (p :: ps)) in
      match dd_err d with
      | None => go None
      | Some (Ucs2DanglingSurrogate b) => go (Some (reslice ud (s_len ud - length b) (s_len ud)))
      | Some e => (h1, Err e)
      end
  end.

(** sms.go:23-61 [Decode]: the memory afterwards and the text, which is copied
    to a new array at the end (sms.go:56-60). *)
Definition h_decode (grow : nat -> nat -> nat) (junk : Z) (h : heap Z) (segs : list (option dseg))
    (opts : list charset_opt) : heap Z * res bytes :=
  let opts := match opts with [] => [OptAllCharsets] | _ => opts end in
  let (h', r) := h_decode_loop grow junk h segs None opts in
  (h', ps <- r ;; Ok (flat_map (read_piece h') ps)).
