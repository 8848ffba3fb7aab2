(* C47: the exact effect of a timer tick. *)
From Verif Require Import Base Bytes Containers Worker Multi Single Queue Handler SpecText Spec SpecRun SpecMsg SpecQueue SpecPings SpecOutcome SpecJoin SpecTick Demo
  TickOutcome.
Local Open Scope string_scope.
Local Open Scope list_scope.

(* C47. A tick of z milliseconds removes exactly the workers whose last chance it takes, in the order of
   registration. For each, its current job and the queued jobs that go with it are dealt with in order:
   an announced job and one at the limit of attempts is reported to the frontend and the monitor as
   FAILED; one that no remaining worker can run is FAILED for the monitor and, after all others, for the
   frontend; any other is handed to an idle capable worker or queued, and is ABORTED for the monitor.
   Nothing else is sent; attempts grow by one for the current job of a removed worker and for no other. *)
Theorem C47_tick : forall o cfg k tr s i t rest z outs s', run o cfg k tr s -> reads t z ->
  on_request o cfg (Msg "timer" i (t :: rest)) s = (outs, inr (tt, s')) ->
  exists rm att', subseq rm (s_reg s) /\
    (forall w, In w (s_reg s) -> (In w rm <-> last_miss cfg z s w)) /\ (forall w, In w (s_reg s') <-> In w (s_reg s) /\ ~ In w rm) /\
    removals cfg rm (s_reg s) (attempts s) (s_queue s) outs att' (s_queue s') /\ (forall r, attempts s' r = att' r) /\
    s_frozen s' = s_frozen s /\ s_next_w s' = s_next_w s /\ s_next_r s' = s_next_r s.
Proof. exact tick_outcome. Qed.
Print Assumptions C47_tick.

(* A tick that takes nobody's last chance sends nothing and leaves jobs, registry and attempts. *)
Theorem C47_quiet : forall o cfg k tr s i t rest z outs s', run o cfg k tr s -> reads t z ->
  on_request o cfg (Msg "timer" i (t :: rest)) s = (outs, inr (tt, s')) ->
  (forall w, In w (s_reg s) -> ~ last_miss cfg z s w) ->
  outs = [] /\ s_queue s' = s_queue s /\ (forall w, In w (s_reg s') <-> In w (s_reg s)) /\ (forall r, attempts s' r = attempts s r).
Proof. exact quiet_tick. Qed.
Print Assumptions C47_quiet.

(* B and C are lost: A takes over x; nobody can run u and v, which C had. *)
Example C47_example :
  nth 10 (outputs (exec demo_oracle demo_cfg (start KSingle)
    [from_worker "A" ["init"; "g"; "a=1"]; from_worker "B" ["init"; "g"; "a=1"]; from_worker "C" ["init"; "g"; "c=3"];
     from_client "u" ["eval"; "x"; "a=1"; ""; "p"]; from_client "u" ["eval"; "u"; "c=3"; ""]; from_client "u" ["eval"; "v"; "c=3"; ""];
     from_worker "B" ["ping"]; from_worker "C" ["ping"]; tick "1001"; from_worker "A" ["ping"]; tick "1001"])) [] =
  [Msg "workers" "A" ["eval"; "x"; "p"]; tell "x" "ABORTED"; tell "u" "FAILED"; tell "v" "FAILED";
   failed_report "u" "Worker 43 dieded"; failed_report "v" "Worker 43 dieded"].
Proof. vm_compute. auto. Qed.
