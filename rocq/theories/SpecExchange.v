(** Vocabulary for many messages sent and collected together (C98). *)
From Verif Require Import GoBase Tpdu Collector.

(** The TPDUs given to Collect, in order. *)
Definition collected (es : list event) : list tpdu :=
  flat_map (fun ev => match ev with EvCollect g => [sg_pdu g] | _ => [] end) es.

(** The messages that Collect returned, each a list of TPDUs. *)
Definition handed_out (os : list output) : list (list (option tpdu)) :=
  flat_map (fun o => match o with
                     | OCollect (CReturn (Some gs) _) => [map (option_map sg_pdu) gs]
                     | _ => []
                     end) os.

(** Collect failed. *)
Definition failed (o : output) : Prop :=
  o = OCollect CPanic \/ exists d err, o = OCollect (CReturn d (Some err)).
