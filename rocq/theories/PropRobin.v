(* C67: how the multi queue manager shares requests between workers. *)
From Verif Require Import Base Bytes Containers Worker Multi Single Queue Handler SpecText Spec SpecRun SpecMsg SpecQueue SpecWait SpecRobin
  Robin Demo.
Local Open Scope string_scope.
Local Open Scope list_scope.

(* Two workers that could run every request get the same number of requests, or one of them one more. *)
Theorem C67_fair_share : forall o cfg tr1 tr2 s1 s2 w w', run o cfg KMulti tr1 s1 -> run o cfg KMulti (tr1 ++ tr2) s2 ->
  In w (s_reg s1) -> In w' (s_reg s1) -> w <> w' -> can_run_all w s1 -> can_run_all w' s1 ->
  (forall e, In e tr2 -> In w (s_reg (ev_post e)) /\ In w' (s_reg (ev_post e)) /\ can_run_all w (ev_post e) /\ can_run_all w' (ev_post e)) ->
  exists g g', gets w s1 tr2 s2 g /\ gets w' s1 tr2 s2 g' /\ g <= S g' /\ g' <= S g.
Proof. exact fair_share. Qed.
Print Assumptions C67_fair_share.

(* The share does not look at what the workers have to do: a worker may have nothing to do while any number of
   requests that it could run wait for another one. *)
Theorem C67_idle_beside_backlog : forall cfg n, exists tr s a b, run demo_oracle cfg KMulti tr s /\
  s_reg s = [a; b] /\ owned (s_queue s) b = [] /\ length (own_queue (s_queue s) a) = n /\
  forall r, In r (own_queue (s_queue s) a) -> fits b r.
Proof. exact idle_beside_backlog. Qed.
Print Assumptions C67_idle_beside_backlog.

(* A and B are registered. Five jobs come, C joins after the second one, B finishes two: B gets two of the jobs,
   A two and C one; A's second one waits although B is idle. *)
Example C67_example : exists tr1 tr2 s1 s2 a b, run demo_oracle demo_cfg KMulti tr1 s1 /\ run demo_oracle demo_cfg KMulti (tr1 ++ tr2) s2 /\
  s_reg s1 = [a; b] /\ a <> b /\ gets a s1 tr2 s2 2 /\ gets b s1 tr2 s2 2 /\ map r_job (owned (s_queue s2) a) = ["y"; "v"] /\
  owned (s_queue s2) b = [] /\ map (fun w => (w_identity w, length (owned (s_queue s2) w))) (s_reg s2) = [("A", 2); ("B", 0); ("C", 1)].
Proof.
  destruct (exec demo_oracle demo_cfg (start KMulti) [from_worker "A" ["init"; "g"]; from_worker "B" ["init"; "g"]]) as (tr1, [f|s1]) eqn:E1;
    [vm_compute in E1; discriminate|].
  destruct (exec demo_oracle demo_cfg s1 [from_client "u" ["eval"; "x"; ""]; from_client "u" ["eval"; "y"; ""];
    from_worker "C" ["init"; "g"]; from_client "u" ["eval"; "z"; ""]; from_worker "B" ["done"; "x"; "OK"];
    from_client "u" ["eval"; "u"; ""]; from_client "u" ["eval"; "v"; ""]; from_worker "B" ["done"; "u"; "FAILED"; "no"]]) as (tr2, [f|s2]) eqn:E2;
    [vm_compute in E1; injection E1 as _ <-; vm_compute in E2; discriminate|].
  exists tr1, tr2, s1, s2, (nth 0 (s_reg s1) Robin.worker_a), (nth 1 (s_reg s1) Robin.worker_a).
  split; [exact (exec_start _ _ _ _ _ _ E1)|]. split; [exact (exec_run _ _ _ _ _ _ _ _ (exec_start _ _ _ _ _ _ E1) E2)|].
  vm_compute in E1. injection E1 as _ <-. vm_compute in E2. injection E2 as <- <-.
  split; [reflexivity|]. split; [discriminate|]. repeat split; vm_compute; reflexivity.
Qed.
