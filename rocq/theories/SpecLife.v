(* Vocabulary for the moment at which a sign of life arrives. *)
From Verif Require Import Base Bytes Containers Worker Multi Single Queue Handler SpecText Spec SpecRun SpecMsg.
Local Open Scope string_scope.
Local Open Scope list_scope.

(* a message of a worker that is neither an introduction nor a report: ping, progress or an unknown word *)
Definition sign_of_life (m : msg) : Prop :=
  m_key m = "workers" /\ exists c rest, m_data m = c :: rest /\ c <> "init" /\ c <> "done".

(* m may be overtaken by signs of life of identity i: it is no tick and no introduction of i *)
Definition passes (i : string) (m : msg) : Prop :=
  m_key m <> "timer" /\ (m_ident m = i -> is_command "workers" "init" m = false).

(* what was received and what was sent *)
Definition told (e : event) : msg * list msg := (ev_in e, ev_out e).

(* the states agree on everything, missed pings and ping timers of every worker included *)
Definition same_knowledge (s t : state) : Prop :=
  same_but_pings s t /\ forall w, liveness t w = liveness s w /\ ping_timer t w = ping_timer s w.
