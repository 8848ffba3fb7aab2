(* Vocabulary for what the frontend and the monitor hear of jobs that end. *)
From Verif Require Import Base Bytes Containers Worker Multi Single Queue Handler SpecText Spec SpecRun SpecMsg.
Local Open Scope string_scope.
Local Open Scope list_scope.

(* final statuses of job j with result st, as the frontend gets them *)
Definition with_status (j st : string) (m : msg) : bool :=
  String.eqb (m_key m) "status_notifier" && starts_with ["type"; "job-status"; "id"; j; "status"; st] (m_data m).
Definition results (j st : string) (tr : list event) : nat :=
  total (fun e => list_count (with_status j st) (ev_out e)) tr.

(* what the broker itself tells the monitor about job j, not what it passes on *)
Definition passes_on (e : event) : bool := is_command "workers" "progress" (ev_in e).
Definition words (j text : string) (tr : list event) : nat :=
  total (fun e => if passes_on e then 0 else list_count (told j text) (ev_out e)) tr.

(* the event is a well-formed report with status st of the job j its sender works on *)
Definition report_of (st j : string) (e : event) : bool :=
  credited st e && match nth_error (m_data (ev_in e)) 1 with Some j' => String.eqb j' j | None => false end.
(* the job the sender works on is one it announced when it registered *)
Definition on_announced (e : event) : bool :=
  match sender (m_ident (ev_in e)) (ev_pre e) with
  | Some w => match current_of (s_queue (ev_pre e)) w with Some r => negb (r_complete r) | None => false end
  | None => false
  end.

(* a submission of j refused by a broker that is not frozen *)
Definition turned_down (j : string) (e : event) : bool :=
  is_submission j (ev_in e) && negb (s_frozen (ev_pre e)) &&
  existsb (fun m => String.eqb (m_key m) "clients" && starts_with ["reject"] (m_data m)) (ev_out e).
