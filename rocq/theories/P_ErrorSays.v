(** C69, the texts: the specification [says] is in SpecErrorSays.v. *)
From Coq Require Import String Ascii.
From Verif Require Import GoBase SpecText Utf Print ErrorText SpecErrorText SpecErrorSays ErrorSaysProofs.

(** The text of every error of the library names the field, gives the offset
    and the offending value, and says the cause in words of its own. *)
Theorem C69_text_says : forall e, proper_error e -> says e (error_text e).
Proof. exact error_text_says. Qed.
Print Assumptions C69_text_says.

Example C69_text_instance :
  let e := DecodeErr "scts.month" 12 (BcdInvalidOctet 10) in
  proper_error e /\ error_text e = str "tpdu: error decoding scts.month at octet 12: bcd: invalid octet: 0x0a".
Proof. split; [split; [reflexivity|]; cbn; unfold is_byte; lia|vm_compute; reflexivity]. Qed.
