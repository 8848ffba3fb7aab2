(* Vocabulary for how long a request waits. *)
From Verif Require Import Base Bytes Containers Worker Multi Single Queue Handler SpecText Spec SpecRun SpecMsg SpecQueue.
Local Open Scope string_scope.
Local Open Scope list_scope.

(* a worker reports in event e that its current request has ended: done OK or done FAILED *)
Definition ends_job (e : event) : bool := credited "OK" e || credited "FAILED" e.
(* the worker that sent the message of event e *)
Definition by_whom (e : event) : option worker := sender (m_ident (ev_in e)) (ev_pre e).
Definition by_worker (w : worker) (e : event) : bool :=
  match by_whom e with Some w' => Nat.eqb (w_id w') (w_id w) | None => false end.

(* in event e request r is handed to worker w *)
Definition handed_to (w : worker) (r : request) (e : event) : Prop :=
  In w (s_reg (ev_post e)) /\ fits w r /\ In (handover w r) (ev_out e) /\ current_of (s_queue (ev_post e)) w = Some r.
