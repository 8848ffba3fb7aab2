(* Vocabulary for tracing what the broker sends back to the messages it received. *)
From Verif Require Import Base Bytes Containers Worker Multi Single Queue Handler SpecText Spec.
Local Open Scope string_scope.
Local Open Scope list_scope.

(* Event e is the accepted submission of a job with header frames need and payload frames payload. *)
Definition submitted (e : event) (job : string) (need payload : list string) : Prop :=
  m_key (ev_in e) = "clients" /\
  (exists frames, m_data (ev_in e) = "eval" :: job :: frames /\ header_block frames need payload) /\
  In (Msg "clients" (m_ident (ev_in e)) ["accept"]) (ev_out e).

(* Event e is the registration of worker w with hardware group hw and header frames hdrs. *)
Definition joined (e : event) (w : worker) (hw : string) (hdrs : list string) : Prop :=
  m_key (ev_in e) = "workers" /\ m_ident (ev_in e) = w_identity w /\
  (exists frames, m_data (ev_in e) = "init" :: hw :: frames /\ init_block frames hdrs) /\
  s_reg (ev_post e) = s_reg (ev_pre e) ++ [w].

(* ---- worker populations ---- *)

Definition named (i : string) (w : worker) : bool := String.eqb (w_identity w) i.
Definition is_idle (m : manager) (w : worker) : bool :=
  match current_of m w with None => true | Some _ => false end.
(* number of registered workers with identity i that have no current job *)
Definition idle_count (i : string) (s : state) : nat :=
  list_count (fun w => named i w && is_idle (s_queue s) w) (s_reg s).

(* evals sent to identity i *)
Definition is_eval_to (i : string) (m : msg) : bool :=
  String.eqb (m_key m) "workers" && String.eqb (m_ident m) i && starts_with ["eval"] (m_data m).

(* the event is a done report of identity i for the current job of the worker registered under i *)
Definition own_report (i : string) (e : event) : bool :=
  String.eqb (m_key (ev_in e)) "workers" && String.eqb (m_ident (ev_in e)) i &&
  starts_with ["done"] (m_data (ev_in e)) &&
  match find (named i) (s_reg (ev_pre e)), nth_error (m_data (ev_in e)) 1 with
  | Some w, Some j => match current_of (s_queue (ev_pre e)) w with Some r => job_is j r | None => false end
  | _, _ => false
  end.

(* the event adds a worker with identity i *)
Definition joins (i : string) (e : event) : bool :=
  String.eqb (m_key (ev_in e)) "workers" && String.eqb (m_ident (ev_in e)) i &&
  Nat.ltb (length (s_reg (ev_pre e))) (length (s_reg (ev_post e))).

(* the jobs waiting for worker w alone (the multi manager keeps one queue per worker) *)
Definition own_queue (m : manager) (w : worker) : list request :=
  match m with
  | QSingle _ => []
  | QMulti q => match pm_find w (mq_queues q) with Some l => l | None => [] end
  end.

(* the jobs of worker w: its current one and those waiting for it alone *)
Definition owned (m : manager) (w : worker) : list request := olist (current_of m w) ++ own_queue m w.

(* the monitor is told `text` about job j *)
Definition told (j text : string) (m : msg) : bool :=
  msg_eqb m (Msg "monitor" "recodex-monitor" [j; text]).

(* the final status FAILED of job j with text d, as sent to the frontend *)
Definition failed_report (j d : string) : msg :=
  Msg "status_notifier" "" ["type"; "job-status"; "id"; j; "status"; "FAILED"; "message"; d].
