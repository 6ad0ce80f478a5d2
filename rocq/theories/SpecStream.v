(** TPDUs of several messages that arrive in each other's midst. *)
From Coq Require Import Permutation.
From Verif Require Import GoBase Address FirstOctet Tpdu Sms SpecFlow Readme SpecReadme.

(** [way] with [q] in its [i]-th place. *)
Definition put (way : list (list bytes)) (i : nat) (q : list bytes) : list (list bytes) :=
  firstn i way ++ q :: skipn (S i) way.

(** What arrives: [way] has for each message, in the order of sending, the TPDUs
    on their way, in the order in which they will arrive; [sched] says, for each
    that arrives, which message it belongs to.  What is never named is lost. *)
Fixpoint arrival (way : list (list bytes)) (sched : list nat) : list bytes :=
  match sched with
  | [] => []
  | i :: sched' =>
      match nth_error way i with
      | Some (b :: q) => b :: arrival (put way i q) sched'
      | _ => arrival way sched'
      end
  end.
(** The texts of the messages that become complete, in the order in which they do. *)
Fixpoint completed (way : list (list bytes)) (texts : list bytes) (sched : list nat) : list bytes :=
  match sched with
  | [] => []
  | i :: sched' =>
      match nth_error way i with
      | Some [b] => match nth_error texts i with
                    | Some x => x :: completed (put way i []) texts sched'
                    | None => completed (put way i []) texts sched'
                    end
      | Some (b :: q) => completed (put way i q) texts sched'
      | _ => completed way texts sched'
      end
  end.

(** Some of the TPDUs of the [j]-th message have arrived and some have not. *)
Definition incomplete (start way : list (list bytes)) (j : nat) : Prop :=
  exists q0 q, nth_error start j = Some q0 /\ nth_error way j = Some q /\ (0 < length q < length q0)%nat.
(** Whenever a TPDU of the [i]-th message arrives, those that are incomplete are
    such as [near i] allows. *)
Fixpoint in_window (near : nat -> nat -> Prop) (start way : list (list bytes)) (sched : list nat) : Prop :=
  match sched with
  | [] => True
  | i :: sched' =>
      match nth_error way i with
      | Some (b :: q) =>
          (forall j, incomplete start way j -> near i j) /\
          in_window near start (put way i q) sched'
      | _ => in_window near start way sched'
      end
  end.
(** Among the 255 messages before and the 255 after: no message is overtaken by the
    256th after it. *)
Definition within256 (i j : nat) : Prop := (i < j + 256)%nat /\ (j < i + 256)%nat.

(** Several senders, the first of which sends the first [n1] messages, the next
    the [n2] after them and so on: to whom the [i]-th belongs. *)
Fixpoint sender (counts : list nat) (i : nat) : nat :=
  match counts with
  | [] => 0
  | n :: counts' => if (i <? n)%nat then 0 else S (sender counts' (i - n))
  end.
(** As above, counting only the messages of the same sender. *)
Definition within256_of (counts : list nat) (i j : nat) : Prop :=
  sender counts i = sender counts j -> within256 i j.

(** The other end of a TPDU: the address it is sent to, or that it comes from. *)
Definition peer (t : tpdu) : address := if Direction t =? MO then DA t else OA t.

(** What one sender sends: messages, their texts, and their TPDUs, those of each
    message in the order in which they will arrive. *)
Record post := { p_encoder : sms_encoder; p_msgs : list bytes; p_texts : list bytes; p_arrived : list (list bytes) }.
(** The messages can be read by a receiver of TPDUs of direction [mo], and have 1
    to 255 TPDUs. *)
Definition posted (mo : bool) (p : post) : Prop :=
  let e := p_encoder p in
  template_posted (e_pdu e) /\ (Direction (e_pdu e) =? MO) = mo /\
  Forall2 (meant (DCS (e_pdu e)) (e_eopts e)) (p_msgs p) (p_texts p) /\
  exists sent, readme_send e (p_msgs p) = Ok sent /\ Forall (fun bs => 1 <= len bs <= 255) sent /\
    Forall2 (@Permutation bytes) sent (p_arrived p).
