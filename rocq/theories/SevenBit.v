(** Model of encoding/gsm7/7bit.go. *)
From Verif Require Import GoBase.

(** encoding/gsm7/7bit.go:7 [cr]. *)
Definition cr : Z := 13.

(** encoding/gsm7/7bit.go:25-41, the loop of [Pack7Bit].  [r] and [rbits] are
    the Go residue; the appended octets are returned in order.  [fillBits] is
    taken to be non-negative (Go converts it to uint). *)
Fixpoint pack_loop (u : list Z) (r rbits : Z) : bytes :=
  match u with
  | [] => if negb (rbits =? 0) then [r] else []
  | s :: u' =>
      if rbits =? 0 then pack_loop u' s 7
      else
        Z.land (Z.lor r (shl8 s rbits)) 255
          :: pack_loop u' (ushr s (8 - rbits)) (rbits - 1)
  end.

(** encoding/gsm7/7bit.go:19-42 [Pack7Bit]. *)
Definition pack7bit (u : list Z) (fill : Z) : bytes :=
  if len u =? 0 then [] else pack_loop u 0 fill.

(** encoding/gsm7/7bit.go:59-72, the loop of [Unpack7Bit]. *)
Fixpoint unpack_loop (p : bytes) (r rbits : Z) : list Z :=
  match p with
  | [] => []
  | o :: p' =>
      let r := Z.land (Z.lor r (shl8 o rbits)) 127 in
      if rbits =? 6 then r :: ushr o 1 :: unpack_loop p' 0 0
      else r :: unpack_loop p' (ushr o (8 - (rbits + 1))) (rbits + 1)
  end.

(** encoding/gsm7/7bit.go:49-77 [Unpack7Bit].  [u[1:]] is [tl]: the loop
    yields at least one septet for a non-empty [p]. *)
Definition unpack7bit (p : bytes) (fill : Z) : list Z :=
  if len p =? 0 then [] else
  let rbits := if negb (fill =? 0) then 7 - fill else 0 in
  let u := unpack_loop p 0 rbits in
  if 0 <? fill then tl u else u.

(** Replaces the last element of a list (the Go assignment b[len(b)-1] = f,
    encoding/gsm7/7bit.go:95). *)
Fixpoint set_last (f : Z -> Z) (l : list Z) : list Z :=
  match l with
  | [] => []
  | [x] => [f x]
  | x :: l' => x :: set_last f l'
  end.

(** encoding/gsm7/7bit.go:88-100 [Pack7BitUSSD]. *)
Definition pack7bit_ussd (u : list Z) (fill : Z) : bytes :=
  let b := pack7bit u fill in
  if len b =? 0 then [] else
  let bl := last b 0 in
  let ul := last u 0 in
  if (Z.land bl 254 =? 0) && negb (ul =? 0)
  then set_last (fun x => Z.lor x (Z.shiftl cr 1)) b
  else if (Z.land (len u) 7 =? 0) && (ul =? cr) then b ++ [cr]
  else b.

(** encoding/gsm7/7bit.go:111-118 [Unpack7BitUSSD].  [nth (length p - 2)] is
    p[len(p)-2], in range because len(p) > 1 is tested first; [removelast] is
    u[:len(u)-1]. *)
Definition unpack7bit_ussd (p : bytes) (fill : Z) : list Z :=
  let u := unpack7bit p fill in
  let pl := last p 0 in
  let pl2 := nth (length p - 2) p 0 in
  if (1 <? len p) &&
     ((Z.shiftr pl 1 =? cr) || ((pl =? cr) && (Z.shiftr pl2 1 =? cr)))
  then removelast u
  else u.
