(* Vocabulary for how many messages the broker sends. *)
From Verif Require Import Base Handler Spec.
Local Open Scope string_scope.

Definition is_tick (e : event) : bool := String.eqb (m_key (ev_in e)) "timer".
(* messages received, ticks of the timer left out *)
Definition received (tr : list event) : nat := list_count (fun e => negb (is_tick e)) tr.
(* messages sent *)
Definition sent (tr : list event) : nat := total (fun e => length (ev_out e)) tr.
