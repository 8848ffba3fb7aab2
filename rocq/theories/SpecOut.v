(* What the broker may say in answer to each kind of message: every message type, its addressee, its
   frames. *)
From Verif Require Import Base Handler Spec.
Local Open Scope string_scope.
Local Open Scope list_scope.

(* the four kinds of notification for the frontend *)
Inductive notification : list string -> Prop :=
| no_error : forall t, notification ["type"; "error"; "message"; t]
| no_done : forall j, notification ["type"; "job-status"; "id"; j; "status"; "OK"]
| no_failed : forall j t, notification ["type"; "job-status"; "id"; j; "status"; "FAILED"; "message"; t].

(* a job handed to a worker *)
Definition hands_out (out : msg) : Prop := exists w j payload, out = Msg "workers" w ("eval" :: j :: payload).
(* a final status for the frontend *)
Definition final_status (out : msg) : Prop :=
  exists d, out = Msg "status_notifier" "" d /\ notification d /\ starts_with ["type"; "job-status"] d = true.
Definition monitor_told (t : string) (out : msg) : Prop := exists j, out = Msg "monitor" "recodex-monitor" [j; t].

Inductive may_say : msg -> msg -> Prop :=
(* clients *)
| ms_ack : forall i c rest, In c ["eval"; "freeze"; "unfreeze"] ->
    may_say (Msg "clients" i (c :: rest)) (Msg "clients" i ["ack"])
| ms_accept : forall i j rest, may_say (Msg "clients" i ("eval" :: j :: rest)) (Msg "clients" i ["accept"])
| ms_reject : forall i j rest t, may_say (Msg "clients" i ("eval" :: j :: rest)) (Msg "clients" i ["reject"; t])
| ms_refused : forall i j rest,
    may_say (Msg "clients" i ("eval" :: j :: rest)) (Msg "monitor" "recodex-monitor" [j; "FAILED"])
| ms_eval : forall i j rest w payload,
    may_say (Msg "clients" i ("eval" :: j :: rest)) (Msg "workers" w ("eval" :: j :: payload))
| ms_stats : forall i rest stats frozen,
    may_say (Msg "clients" i ("get-runtime-stats" :: rest)) (Msg "clients" i (stats ++ ["is-frozen"; frozen]))
(* workers *)
| ms_ping : forall i rest t, In t ["pong"; "intro"] ->
    may_say (Msg "workers" i ("ping" :: rest)) (Msg "workers" i [t])
| ms_progress : forall i rest, may_say (Msg "workers" i ("progress" :: rest)) (Msg "monitor" "recodex-monitor" rest)
| ms_two_inits : forall i hw rest t,
    may_say (Msg "workers" i ("init" :: hw :: rest)) (Msg "status_notifier" "" ["type"; "error"; "message"; t])
| ms_first_job : forall i hw rest j payload,
    may_say (Msg "workers" i ("init" :: hw :: rest)) (Msg "workers" i ("eval" :: j :: payload))
| ms_announced : forall i hw rest j, announced ("init" :: hw :: rest) = Some j ->
    may_say (Msg "workers" i ("init" :: hw :: rest)) (Msg "workers" i [])
| ms_done_ok : forall i j rest,
    may_say (Msg "workers" i ("done" :: j :: "OK" :: rest))
            (Msg "status_notifier" "" ["type"; "job-status"; "id"; j; "status"; "OK"])
| ms_done_failed : forall i j c t t', In c ["FAILED"; "INTERNAL_ERROR"] ->
    may_say (Msg "workers" i ["done"; j; c; t])
            (Msg "status_notifier" "" ["type"; "job-status"; "id"; j; "status"; "FAILED"; "message"; t'])
| ms_done_next : forall i j c rest out, hands_out out -> In c ["OK"; "FAILED"; "INTERNAL_ERROR"] ->
    may_say (Msg "workers" i ("done" :: j :: c :: rest)) out
| ms_done_monitor : forall i j t,
    may_say (Msg "workers" i ["done"; j; "INTERNAL_ERROR"; t]) (Msg "monitor" "recodex-monitor" [j; "FAILED"])
(* timer *)
| ms_tick : forall i t rest out,
    hands_out out \/ final_status out \/ monitor_told "FAILED" out \/ monitor_told "ABORTED" out ->
    may_say (Msg "timer" i (t :: rest)) out.
