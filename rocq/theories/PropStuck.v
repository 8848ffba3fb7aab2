(* C50: how a job leaves its worker, and jobs that never do. *)
From Verif Require Import Base Bytes Containers Worker Multi Single Queue Handler SpecText Spec SpecRun SpecMsg SpecPings SpecQueue SpecWait
  Demo Stuck.
Local Open Scope string_scope.
Local Open Scope list_scope.

(* A job leaves the worker it was given to only by a well-formed report of that worker about it, or with
   the worker, when a timer tick removes it. *)
Theorem C50_leaves : forall o cfg k tr1 e tr2 s w r, run o cfg k (tr1 ++ e :: tr2) s -> In w (s_reg (ev_pre e)) ->
  current_of (s_queue (ev_pre e)) w = Some r ->
  current_of (s_queue (ev_post e)) w = Some r /\ In w (s_reg (ev_post e)) \/
  (exists st, In st ["OK"; "FAILED"; "INTERNAL_ERROR"] /\ credited st e = true /\ by_whom e = Some w) \/
  m_key (ev_in e) = "timer" /\ ~ In w (s_reg (ev_post e)).
Proof. exact job_leaves. Qed.
Print Assumptions C50_leaves.

(* Hence, whatever else arrives, it stays with a worker that does not report it and is not removed. *)
Theorem C50_kept : forall o cfg k w r tr1 s1 tr2 s, run o cfg k tr1 s1 -> run o cfg k (tr1 ++ tr2) s -> In w (s_reg s1) ->
  current_of (s_queue s1) w = Some r ->
  (forall e st, In e tr2 -> by_whom e = Some w -> In st ["OK"; "FAILED"; "INTERNAL_ERROR"] -> credited st e = false) ->
  In w (s_reg s) -> current_of (s_queue s) w = Some r.
Proof. exact job_kept. Qed.
Print Assumptions C50_kept.

(* A worker w that registers under the identity of another worker w1 is hidden as long as w1 is
   registered: no message is attributed to it, fewer than 2^64 ticks never remove it, and a job once
   given to it is never finished, reported or given to another worker. *)
Theorem C50_hidden : forall o cfg k tr1 e tr2 s w w1 zs, run o cfg k (tr1 ++ e :: tr2) s -> enters w e ->
  sender (w_identity w) (ev_post e) = Some w1 -> w1 <> w -> In w1 (s_reg s) ->
  ticks tr2 zs -> (N.of_nat (length zs) < two64)%N ->
  In w (s_reg s) /\ silent w tr2 /\
  forall tr3 tr4 s3 r, tr2 = tr3 ++ tr4 -> run o cfg k (tr1 ++ e :: tr3) s3 -> current_of (s_queue s3) w = Some r ->
    current_of (s_queue s) w = Some r /\ In r (held (s_queue s)).
Proof. exact hidden_stuck. Qed.
Print Assumptions C50_hidden.

(* Worker A works on y, is restarted with other headers and registers again. Job x, accepted afterwards,
   goes to the new registration. A reports x as done, keeps pinging, and ticks pass: x is never
   reported. If A had not been working on anything, its report of x would have killed the broker. *)
Definition restart_inputs : list msg :=
  [from_worker "A" ["init"; "g"; "env=c"]; from_client "u" ["eval"; "y"; "env=c"; ""; "p"];
   from_worker "A" ["init"; "g"; "env=d"]; from_client "u" ["eval"; "x"; "env=d"; ""; "p"]; from_worker "A" ["done"; "x"; "OK"]] ++
  concat (repeat [from_worker "A" ["ping"]; tick "1500"] 5) ++ [from_worker "A" ["done"; "x"; "OK"]].
Example C50_example : forall k, exists tr s, run demo_oracle demo_cfg k tr s /\
  acceptances "x" tr = 1 /\ dispatches "x" tr = 1 /\ reports "x" tr = 0 /\
  map w_identity (s_reg s) = ["A"; "A"] /\ map (fun w => option_map r_job (current_of (s_queue s) w)) (s_reg s) = [Some "y"; Some "x"] /\
  (let e := nth 2 tr (mkEvent s (tick "") [] s) in
   exists w w1, enters w e /\ sender (w_identity w) (ev_post e) = Some w1 /\ w1 <> w /\ In w1 (s_reg s)).
Proof.
  intros []; (eexists _, _; split; [apply (exec_start _ _ _ restart_inputs); vm_compute; reflexivity|];
    vm_compute; repeat split; do 2 eexists;
    (split; [split; [|right; left; reflexivity]|split; [reflexivity|split; [discriminate|left; reflexivity]]]);
    intros [E|[]]; discriminate E).
Qed.
Example C50_example_fatal : forall k, exists tr s, run demo_oracle demo_cfg k tr s /\
  acceptances "x" tr = 1 /\ dispatches "x" tr = 1 /\
  crashes demo_oracle demo_cfg s (from_worker "A" ["done"; "x"; "OK"]) [] NullDeref.
Proof.
  intros []; (eexists _, _; split; [apply (exec_start _ _ _
      [from_worker "A" ["init"; "g"; "env=c"]; from_worker "A" ["init"; "g"; "env=d"];
       from_client "u" ["eval"; "x"; "env=d"; ""; "p"]]); vm_compute; reflexivity|];
    vm_compute; auto).
Qed.
