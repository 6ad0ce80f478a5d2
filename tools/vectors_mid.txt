
(** The calls of collect_test.go:36-457: Collect for [Some], Close for [None],
    with what each Collect returns. *)
Fixpoint collect_all (s : cstate) (n : nat) (calls : list (option tpdu))
  : list (option (option (list tpdu) * option gerr)) :=
  match calls with
  | [] => []
  | None :: calls' => None :: collect_all (close s) n calls'
  | Some t :: calls' =>
      let '(s, r) := collect {| cf_timeout := true; cf_handler := true |} s
                       {| sg_id := n; sg_pdu := t |} in
      match r with
      | CReturn d e =>
          Some (match d with
                | Some l => Some (flat_map (fun x => match x with Some g => [sg_pdu g] | None => [] end) l)
                | None => None
                end, e) :: collect_all s (S n) calls'
      | CPanic => []
      end
  end.
