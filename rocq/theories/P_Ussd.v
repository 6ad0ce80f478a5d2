(** C89: USSD packing and 3GPP TS 23.038.

    [ussd_wire fill u p] of SpecUssdBits.v says that the octets [p] carry the
    septets [u] as the standard lays them out. *)
From Coq Require Import ZArith List Bool Lia ZifyBool.
Import ListNotations.
From Verif Require Import GoBase GoLemmas SevenBit SpecBits SevenBitProofs UssdProofs SpecUssdBits UssdBitsProofs MarshalProofs.
Local Open Scope Z_scope.

(** The standard gives every septet string one form. *)
Theorem C89_one : forall u fill, u <> [] -> Forall is_septet u -> 0 <= fill <= 6 ->
  exists! p, ussd_wire fill u p.
Proof.
  intros u fill Hne Hu Hf.
  assert (X : exists p, ussd_wire fill u p).
  { assert (Hc : Forall is_septet (u ++ [13])) by (apply Forall_snoc; split; [assumption|unfold is_septet; lia]).
    assert (Hcn : u ++ [13] <> []) by (destruct u; discriminate).
    assert (Lc : len (u ++ [13]) = len u + 1) by (rewrite len_app; reflexivity).
    destruct (pack_tail u fill _ Hu Hf Hne eq_refl) as (B0 & _ & E0 & _).
    destruct (pack_tail (u ++ [13]) fill _ Hc Hf Hcn eq_refl) as (B1 & _ & E1 & _).
    rewrite septet_bits_app, Lc in E1.
    unfold ussd_wire, ussd_tail. rewrite spare_eq.
    destruct (Z.eqb_spec ((len u - fill) mod 8) 7) as [E|E].
    - exists (pack7bit (u ++ [13]) fill). split; [assumption|]. rewrite E1.
      replace ((len u + 1 - fill) mod 8) with 0 by (clear - E; Z.to_euclidean_division_equations; lia). cbn [Z.to_nat repeat]. now rewrite app_nil_r.
    - destruct (Z.eqb_spec ((len u - fill) mod 8) 0) as [Ez|Ez]; cbn [andb].
      + destruct (last u 0 =? 13).
        * exists (pack7bit (u ++ [13]) fill). split; [assumption|]. rewrite E1.
          replace ((len u + 1 - fill) mod 8) with 1 by (clear - Ez; Z.to_euclidean_division_equations; lia). now rewrite <- app_assoc.
        * exists (pack7bit u fill). now split.
      + exists (pack7bit u fill). now split. }
  destruct X as [p W]. exists p. split; [exact W|]. intros p' W'. destruct W as [B W], W' as [B' W'].
  apply octet_bits_fun; congruence.
Qed.
Print Assumptions C89_one.

(** Packing gives that form for exactly the strings that are not misfilled. *)
Theorem C89_pack_partial : forall u fill, u <> [] -> Forall is_septet u -> 0 <= fill <= 6 ->
  (ussd_wire fill u (pack7bit_ussd u fill) <-> ussd_misfilled fill u = false).
Proof. exact ussd_pack_bits. Qed.
Print Assumptions C89_pack_partial.

(** Unpacking that form gives the string back, or the string without its last
    septet when the last octets look as if they were filled. *)
Theorem C89_unpack_partial : forall u fill p, u <> [] -> Forall is_septet u -> 0 <= fill <= 6 ->
  ussd_wire fill u p ->
  unpack7bit_ussd p fill = if ussd_misread fill u then removelast u else u.
Proof. intros u fill p. apply ussd_unpack_bits. Qed.
Print Assumptions C89_unpack_partial.

(** An empty string is packed into no octets, and no octets are unpacked into it. *)
Theorem C89_empty : forall fill, 0 <= fill <= 6 ->
  pack7bit_ussd [] fill = [] /\ unpack7bit_ussd [] fill = [].
Proof.
  intros fill H. assert (C : fill = 0 \/ fill = 1 \/ fill = 2 \/ fill = 3 \/ fill = 4 \/ fill = 5 \/ fill = 6) by lia.
  destruct C as [-> | [-> | [-> | [-> | [-> | [-> | ->]]]]]]; split; vm_compute; reflexivity.
Qed.
Print Assumptions C89_empty.

(** The full claim, that packing always ends the octets as the standard says
    and unpacking always gives the septets of such octets, is false both ways. *)
Theorem C89_standard_refuted :
  (* "*1001#": the six spare bits are not left zero *)
  (exists u, u <> [] /\ Forall is_septet u /\ ~ ussd_wire 0 u (pack7bit_ussd u 0)) /\
  (* "hello hello": the octets of the standard are read as "hello hell" *)
  (exists u p, u <> [] /\ Forall is_septet u /\ ussd_wire 0 u p /\ unpack7bit_ussd p 0 <> u).
Proof.
  split.
  - exists [42; 49; 48; 48; 49; 35].
    assert (S : Forall is_septet [42; 49; 48; 48; 49; 35]) by (repeat constructor; discriminate || unfold is_septet; lia).
    split; [discriminate|]. split; [exact S|]. intros W. apply C89_pack_partial in W; [|discriminate|exact S|lia].
    vm_compute in W. discriminate.
  - pose (u := [104; 101; 108; 108; 111; 32; 104; 101; 108; 108; 111]).
    assert (S : Forall is_septet u) by (repeat constructor; discriminate || unfold is_septet; lia).
    assert (N : u <> []) by discriminate.
    destruct (C89_one u 0 N S ltac:(lia)) as (p & W & _).
    exists u, p. split; [exact N|]. split; [exact S|]. split; [exact W|].
    rewrite (C89_unpack_partial u 0 p N S ltac:(lia) W). vm_compute. discriminate.
Qed.
Print Assumptions C89_standard_refuted.

(** Seven septets with seven spare bits, eight of which the last is a carriage
    return, and five with five spare bits: packed and unpacked as the standard says. *)
Example C89_instance :
  Forall (fun u => ussd_misfilled 0 u = false /\ ussd_misread 0 u = false /\
                   ussd_wire 0 u (pack7bit_ussd u 0) /\ unpack7bit_ussd (pack7bit_ussd u 0) 0 = u)
    [[42; 49; 48; 49; 48; 49; 35]; [42; 49; 48; 49; 48; 49; 35; 13]; [42; 49; 48; 49; 35]].
Proof.
  repeat (apply Forall_cons; [split; [vm_compute; reflexivity|split; [vm_compute; reflexivity|split; [|vm_compute; reflexivity]]];
    apply C89_pack_partial; [discriminate|repeat constructor; discriminate || unfold is_septet; lia|lia|vm_compute; reflexivity]|]).
  constructor.
Qed.
