(* Vocabulary for the part of the broker that does not depend on who runs what. *)
From Verif Require Import Base Bytes Containers Worker Multi Single Queue Handler SpecText Spec SpecRun SpecMsg.
Local Open Scope string_scope.
Local Open Scope list_scope.

Definition to_clients (m : msg) : bool := String.eqb (m_key m) "clients".

(* what clients are answered, statistics apart, and all that a ping or a progress report leads to *)
Definition answers (e : event) : list msg :=
  if is_command "clients" "get-runtime-stats" (ev_in e) then []
  else if is_command "workers" "ping" (ev_in e) || is_command "workers" "progress" (ev_in e) then ev_out e
  else filter to_clients (ev_out e).

(* what is known of a worker: what it said of itself, and the pings it may still miss *)
Definition entry_of (s : state) (w : worker) :=
  (w_identity w, w_hwgroup w, w_headers_copy w, w_description w, liveness s w, ping_timer s w).
(* the workers known in the two states, in order, are the same; both states are frozen or none *)
Definition same_front (s t : state) : Prop :=
  map (entry_of s) (s_reg s) = map (entry_of t) (s_reg t) /\ s_frozen s = s_frozen t.

(* the settings that matter here *)
Definition same_pings (c d : config) : Prop := c_max_liveness c = c_max_liveness d /\ c_ping_interval c = c_ping_interval d.
