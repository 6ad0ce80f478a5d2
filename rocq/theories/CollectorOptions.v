(** Model of the options of a Collector, collect.go:25-61. *)
From Verif Require Import GoBase Tpdu Collector.

(** collect.go:21-22: the fields duration, in nanoseconds, and expiryHandler.  A
    function is named by a number; nil is [None]. *)
Record collector_fields := { cl_duration : Z; cl_handler : option nat }.

(** collect.go:25-28 [CollectorOption] and 48-50 [WithReassemblyTimeout]: the only
    option there is. *)
Inductive collector_opt := WithReassemblyTimeout (d : Z) (eh : option nat).

(** collect.go:35-38 [ApplyCollectorOption]. *)
Definition apply_collector_opt (c : collector_fields) (o : collector_opt) : collector_fields :=
  match o with WithReassemblyTimeout d eh => {| cl_duration := d; cl_handler := eh |} end.

(** collect.go:53-61 [NewCollector]: the other fields are as in Collector.v. *)
Definition new_collector_fields (opts : list collector_opt) : collector_fields :=
  fold_left apply_collector_opt opts {| cl_duration := 0; cl_handler := None |}.

(** collect.go:131 and 139: what Collect and the callback ask of these fields. *)
Definition cfg_of (c : collector_fields) : ccfg :=
  {| cf_timeout := negb (cl_duration c =? 0);
     cf_handler := match cl_handler c with Some _ => true | None => false end |}.

(** collect.go:140: the function called in a step, with its argument. *)
Definition handler_call (c : collector_fields) (o : output) : list (nat * list (option seg)) :=
  match cl_handler c, o with
  | Some h, OHandled l => [(h, l)]
  | _, _ => []
  end.
