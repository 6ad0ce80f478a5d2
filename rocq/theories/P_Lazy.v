(** C63: the built-in tables under concurrent calls. *)
From Verif Require Import GoBase GoLemmas Charset LazyTables SpecLazy LazyTablesProofs.

(** For any number of goroutines calling NewDecoder, NewEncoder and the like, in
    any interleaving, and for any assignments they make in the maps they were
    given: a call that returned got the table of its language, unless somebody
    assigned in a map of that same language.  Missing: callers that assign in
    maps of the same language (see the refutation), and the weaker guarantees of
    the Go memory model. *)
Theorem C63_tables_partial : forall requests events i k nli map,
  (forall j key x k' nli', In (Assign j key x) events ->
     nth_error requests j = Some (k', nli') -> served_by k' nli' <> served_by k nli) ->
  nth_error (calls (lrun requests events)) i = Some (k, nli, Returned map) ->
  exists ref, map = Some ref /\
    nth_error (maps (mem (lrun requests events))) ref = Some (table_for k nli).
Proof.
  intros requests events i k nli map HA Hi.
  apply (lazy_returned requests (served_by k nli) events i k nli map); [|apply var_of_served|exact Hi].
  rewrite Forall_forall. intros [j|j key x] He; cbn [harmless]; [exact I|].
  intros k' n' Hj. rewrite var_of_served. exact (HA _ _ _ _ _ He Hj).
Qed.
Print Assumptions C63_tables_partial.

(** In particular, if the maps are only read. *)
Theorem C63_read_only : forall requests schedule i k nli map,
  nth_error (calls (lrun requests (List.map Step schedule))) i = Some (k, nli, Returned map) ->
  exists ref, map = Some ref /\
    nth_error (maps (mem (lrun requests (List.map Step schedule)))) ref = Some (table_for k nli).
Proof.
  intros requests schedule i k nli map. apply C63_tables_partial.
  intros j key x k' nli' He. apply in_map_iff in He as (? & ? & _). discriminate.
Qed.
Print Assumptions C63_read_only.

(** No call crashes, and each returns after at most three steps of its own,
    whatever the others do. *)
Theorem C63_returns : forall requests events i k nli,
  nth_error requests i = Some (k, nli) ->
  (3 <= steps_of i events)%nat ->
  exists map, nth_error (calls (lrun requests events)) i = Some (k, nli, Returned map).
Proof.
  intros requests events i k nli Hi H3.
  destruct (progress_run events {| mem := lmem_init;
    calls := List.map (fun q => (fst q, snd q, Called)) requests |} i k nli Called) as (p & Hp & HR).
  { cbn [calls]. rewrite nth_error_map, Hi. reflexivity. }
  change (fold_left _ _ _) with (lrun requests events) in Hp.
  cbn [rank] in HR. destruct p; cbn [rank] in HR; try lia.
  - eauto.
  - exfalso. exact (lazy_no_crash _ _ _ _ _ Hp).
Qed.
Print Assumptions C63_returns.

(** The maps are shared: a caller that assigns in the map it was given changes
    the table that later callers get.  Here 'A' is made to read as '?' for
    everybody. *)
Theorem C63_tables_refuted : exists requests events i k nli ref table,
  nth_error (calls (lrun requests events)) i = Some (k, nli, Returned (Some ref)) /\
  nth_error (maps (mem (lrun requests events))) ref = Some table /\
  assoc table 65 <> assoc (table_for k nli) 65.
Proof.
  exists [(KDec, 0); (KDec, 99)],
    [Step 0; Step 0; Step 0; Assign 0 65 63; Step 1; Step 1], 1%nat, KDec, 99, 24%nat,
    (assoc_set (table_for KDec 0) 65 63).
  split; [vm_compute; reflexivity|]. split; [vm_compute; reflexivity|].
  vm_compute. discriminate.
Qed.
Print Assumptions C63_tables_refuted.

(** Two calls that both find the variable nil get maps of their own, with the
    same entries; the third gets the one assigned last. *)
Example C63_instance :
  let requests := [(KEnc, 5); (KEnc, 5); (KExtEnc, 5); (KEnc, 5); (KDec, 1)] in
  let events := [Step 0; Step 1; Step 0; Step 0; Step 1; Step 1; Step 3; Step 3;
                 Step 2; Step 4; Step 2; Step 4; Step 4; Assign 4 0 0; Step 2] in
  List.map snd (calls (lrun requests events)) =
    [Returned (Some 24%nat); Returned (Some 25%nat); Returned (Some 26%nat);
     Returned (Some 25%nat); Returned (Some 27%nat)] /\
  served_by KDec 1 <> served_by KEnc 5 /\
  steps_of 0 events = 3%nat.
Proof. cbv zeta. split; [vm_compute; reflexivity|]. split; [vm_compute; discriminate|reflexivity]. Qed.
