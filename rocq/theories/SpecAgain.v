(* Vocabulary for jobs that are sent to a worker more than once. *)
From Verif Require Import Base Bytes Containers Worker Multi Single Queue Handler SpecText Spec SpecRun SpecMsg.
Local Open Scope string_scope.
Local Open Scope list_scope.

(* the event is a report INTERNAL_ERROR of a worker's current job, which is j *)
Definition error_for (j : string) (e : event) : bool :=
  credited "INTERNAL_ERROR" e &&
  match nth_error (m_data (ev_in e)) 1 with Some j' => String.eqb j' j | None => false end.
Definition errors_for (j : string) (tr : list event) : nat := list_count (error_for j) tr.

(* how often ticks told the monitor that job j is ABORTED *)
Definition aborts_of (j : string) (e : event) : nat :=
  if String.eqb (m_key (ev_in e)) "timer" then list_count (told j "ABORTED") (ev_out e) else 0.
Definition aborts (j : string) (tr : list event) : nat := total (aborts_of j) tr.
