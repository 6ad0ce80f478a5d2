(** Model of encoding/tpdu/address.go: NewAddress with any options. *)
From Verif Require Import GoBase Address.

(** encoding/tpdu/address.go:19 [AddressOption]. *)
Definition address_opt := address -> address.

(** encoding/tpdu/address.go:36-41 [FromNumber]. *)
Definition from_number (number : bytes) : address_opt :=
  fun a => addr_set_number a number.

(** encoding/tpdu/address.go:22-30 [NewAddress]. *)
Definition new_address_with (options : list address_opt) : address :=
  let a := fold_left (fun a option => option a) options {| a_toa := 0; a_addr := [] |} in
  {| a_toa := Z.lor (a_toa a) 128; a_addr := a_addr a |}.
