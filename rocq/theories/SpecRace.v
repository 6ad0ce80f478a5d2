(** Which memory the next step of a goroutine inside a Collector uses, and what a
    data race is: two goroutines about to use the same variable, one of them to
    write it.  Timers are synchronised by the package time and are not listed. *)
From Verif Require Import GoBase Tpdu Collector CollectorLock.

(** The variables shared by goroutines: the fields of Collector (collect.go:12-24)
    and those of each pipe (collect.go:172-176). *)
Inductive place := Closed | PipeMap | Cleanup (pipe : nat) | Segments (pipe : nat) | Frags (pipe : nat).

(** What is in a variable. *)
Inductive content :=
| InClosed (b : bool) | InMap (m : list (bytes * nat)) | InCleanup (c : option (option nat))
| InSegments (l : option (list (option seg))) | InFrags (n : option Z).
Definition content_of (s : cstate) (x : place) : content :=
  match x with
  | Closed => InClosed (c_closed s)
  | PipeMap => InMap (c_pipes s)
  | Cleanup id => InCleanup (option_map p_cleanup (nth_error (c_heap s) id))
  | Segments id => InSegments (option_map p_segs (nth_error (c_heap s) id))
  | Frags id => InFrags (option_map p_frags (nth_error (c_heap s) id))
  end.

(** The pipe of a timer. *)
Definition timer_pipe (s : cstate) (tid : nat) : list nat :=
  match nth_error (c_timers s) tid with Some tm => [tm_pipe tm] | None => [] end.

(** The variables the next step reads: collect.go by the lines of [pc]; the
    handler reads the segments (140). *)
Definition reads (s : cstate) (d : doing) : list place :=
  match d with
  | Holding _ i =>
      match i with
      | AtClosed _ | AtClose => [Closed]
      | AtLookup _ | AtExpire _ => [PipeMap]
      | AtSegment _ id | AtDelete _ id => [Segments id]
      | AtStop _ id => [Cleanup id]
      | AtCount _ id => [Frags id]
      | AtStops rest => PipeMap :: map (fun kv => Cleanup (snd kv)) rest
      | AtPipes => PipeMap :: map (fun kv => Segments (snd kv)) (c_pipes s)
      | AtNew _ | AtPut _ _ | AtAfter _ _ | AtCleanup _ _ _ | AtRemove _ _ | AtUnlock _ => []
      end
  | Handling tid => map Segments (timer_pipe s tid)
  | Absent | Idle | Waiting _ => []
  end.
(** The variables it writes; a new pipe is the next free one. *)
Definition writes (s : cstate) (d : doing) : list place :=
  match d with
  | Holding _ i =>
      match i with
      | AtClose => [Closed]
      | AtNew _ => let id := length (c_heap s) in [PipeMap; Cleanup id; Segments id; Frags id]
      | AtPut _ id => [Segments id]
      | AtCount _ id => [Frags id]
      | AtDelete _ _ | AtRemove _ _ => [PipeMap]
      | AtCleanup _ id _ => [Cleanup id]
      | AtClosed _ | AtLookup _ | AtSegment _ _ | AtStop _ _ | AtAfter _ _ | AtStops _ | AtPipes | AtExpire _ | AtUnlock _ => []
      end
  | Absent | Idle | Waiting _ | Handling _ => []
  end.
