(* Vocabulary for C60: nothing is heard of any worker any more. *)
From Verif Require Import Base Bytes Containers Worker Multi Single Queue Handler SpecText Spec SpecRun SpecMsg SpecPings.
Local Open Scope string_scope.
Local Open Scope list_scope.

(* every registered worker has sent a message since it was registered *)
Definition all_heard (tr : list event) (s : state) : Prop := forall w, In w (s_reg s) -> exists e, In e tr /\ hears w e.
(* no message from any worker, known or not *)
Definition dead_silence (tr : list event) : Prop := forall e, In e tr -> m_key (ev_in e) <> "workers".
(* the clock does not go backwards, and no tick announces more than d milliseconds *)
Definition good_clock (d : Z) (tr : list event) : Prop := exists zs, ticks tr zs /\ Forall (fun z => 0 <= z <= d)%Z zs.
(* the silence, in announced milliseconds, that no worker survives *)
Definition patience (cfg : config) (d : Z) : Z :=
  (Z.of_N (c_max_liveness cfg - 1) * (c_ping_interval cfg + d) + c_ping_interval cfg)%Z.
