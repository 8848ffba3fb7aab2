(* C44, C45: the exact effect of the messages that end and begin jobs. *)
From Coq Require Import Permutation.
From Verif Require Import Base Bytes Containers Worker Multi Single Queue Handler SpecText Spec SpecRun SpecMsg SpecQueue SpecOutcome Demo
  Outcome.
Local Open Scope string_scope.
Local Open Scope list_scope.

(* C44. In a reachable state, the registered worker found under identity i is w and has request r.
   done OK: the frontend is told OK; then w gets its next request x, if one waits for it, and that
   is all that is sent. The statistics count an evaluated job. *)
Theorem C44_ok : forall o cfg k tr s i w r, run o cfg k tr s -> sender i s = Some w -> current_of (s_queue s) w = Some r ->
  forall rest, exists x s',
  on_request o cfg (Msg "workers" i ("done" :: r_job r :: "OK" :: rest)) s =
    (ok_report (r_job r) :: map (handover w) (olist x), inr (tt, s')) /\
  goes_on_with (s_queue s) (s_queue s') w x /\ only_jobs cfg i s s' /\ counted "evaluated-jobs" s s' /\ s_fails s' = s_fails s.
Proof. exact done_ok. Qed.
Print Assumptions C44_ok.

(* done FAILED: the frontend is told FAILED with the worker's text, the monitor nothing. *)
Theorem C44_failed : forall o cfg k tr s i w r, run o cfg k tr s -> sender i s = Some w -> current_of (s_queue s) w = Some r ->
  forall text, exists x s',
  on_request o cfg (Msg "workers" i ["done"; r_job r; "FAILED"; text]) s =
    (failed_report (r_job r) text :: map (handover w) (olist x), inr (tt, s')) /\
  goes_on_with (s_queue s) (s_queue s') w x /\ only_jobs cfg i s s' /\ counted "failed-jobs" s s' /\ one_more_attempt r s s'.
Proof. exact done_failed. Qed.
Print Assumptions C44_failed.

(* done INTERNAL_ERROR of a job the worker announced at registration: the frontend is told FAILED, the
   monitor nothing, and w stays idle, whatever waits for it. *)
Theorem C44_internal_announced : forall o cfg k tr s i w r, run o cfg k tr s -> sender i s = Some w -> current_of (s_queue s) w = Some r ->
  forall text, r_complete r = false -> exists s',
  on_request o cfg (Msg "workers" i ["done"; r_job r; "INTERNAL_ERROR"; text]) s =
    ([failed_report (r_job r) ("Job failed with '" ++ text ++ "' and cannot be reassigned")], inr (tt, s')) /\
  now_has (s_queue s) (s_queue s') w None /\ still_wait (s_queue s) (s_queue s') /\
  only_jobs cfg i s s' /\ counted "failed-jobs" s s' /\ one_more_attempt r s s'.
Proof. exact done_internal_incomplete. Qed.
Print Assumptions C44_internal_announced.

(* done INTERNAL_ERROR of an accepted job that reaches the limit: the frontend and the monitor are told
   FAILED and w goes on. *)
Theorem C44_internal_last : forall o cfg k tr s i w r, run o cfg k tr s -> sender i s = Some w -> current_of (s_queue s) w = Some r ->
  forall text, r_complete r = true -> (c_max_failures cfg <= attempts s r + 1)%N -> exists x s',
  on_request o cfg (Msg "workers" i ["done"; r_job r; "INTERNAL_ERROR"; text]) s =
    ([failed_report (r_job r) ("Job was reassigned too many (" ++ to_string_N (attempts s r) ++ ") times. Last failure message was: " ++ text);
      tell (r_job r) "FAILED"] ++ map (handover w) (olist x), inr (tt, s')) /\
  goes_on_with (s_queue s) (s_queue s') w x /\ only_jobs cfg i s s' /\ counted "failed-jobs" s s' /\ one_more_attempt r s s'.
Proof. exact done_internal_too_many. Qed.
Print Assumptions C44_internal_last.

(* done INTERNAL_ERROR of an accepted job below the limit: nothing is reported. The job goes to an idle
   worker that fits it, possibly w again, or it waits; then w stays idle. *)
Theorem C44_internal_again : forall o cfg k tr s i w r, run o cfg k tr s -> sender i s = Some w -> current_of (s_queue s) w = Some r ->
  forall text, r_complete r = true -> (attempts s r + 1 < c_max_failures cfg)%N -> exists x s',
  on_request o cfg (Msg "workers" i ["done"; r_job r; "INTERNAL_ERROR"; text]) s =
    (map (fun w' => handover w' r) (olist x), inr (tt, s')) /\
  match x with
  | Some w' => In w' (s_reg s) /\ fits w' r /\ (w' = w \/ current_of (s_queue s) w' = None) /\ moved (s_queue s) (s_queue s') r w w'
  | None => now_has (s_queue s) (s_queue s') w None /\ lines_up (s_queue s) (s_queue s') r
  end /\
  only_jobs cfg i s s' /\ counted "failed-jobs" s s' /\ one_more_attempt r s s'.
Proof. exact done_internal_again. Qed.
Print Assumptions C44_internal_again.

(* One worker, three jobs, failure limit 2: success; a failure; an internal error that leads to another
   attempt by the same worker, and the last one. Then an internal error of an
   announced job, which the single queue sends to the worker as a message without frames (C32). *)
Example C44_example : outputs (exec demo_oracle demo_cfg (start KSingle)
    [from_worker "A" ["init"; "g"]; from_client "u" ["eval"; "x"; ""; "p"]; from_client "u" ["eval"; "y"; ""];
     from_client "u" ["eval"; "z"; ""];
     from_worker "A" ["done"; "x"; "OK"]; from_worker "A" ["done"; "y"; "FAILED"; "bad"];
     from_worker "A" ["done"; "z"; "INTERNAL_ERROR"; "disk"]; from_worker "A" ["done"; "z"; "INTERNAL_ERROR"; "disk"];
     from_worker "B" ["init"; "h"; ""; "current_job=q"]; from_worker "B" ["done"; "q"; "INTERNAL_ERROR"; "net"]]) =
  [[]; [Msg "clients" "u" ["ack"]; Msg "workers" "A" ["eval"; "x"; "p"]; Msg "clients" "u" ["accept"]];
   [Msg "clients" "u" ["ack"]; Msg "clients" "u" ["accept"]]; [Msg "clients" "u" ["ack"]; Msg "clients" "u" ["accept"]];
   [ok_report "x"; Msg "workers" "A" ["eval"; "y"]]; [failed_report "y" "bad"; Msg "workers" "A" ["eval"; "z"]];
   [Msg "workers" "A" ["eval"; "z"]];
   [failed_report "z" "Job was reassigned too many (1) times. Last failure message was: disk"; tell "z" "FAILED"];
   [Msg "workers" "B" []]; [failed_report "q" "Job failed with 'net' and cannot be reassigned"]].
Proof. vm_compute. reflexivity. Qed.

(* C45. In a reachable state that is not frozen, a well-formed eval whose thread counts are numbers makes
   one request r and changes nothing but the queue. Either some registered worker fits r: the client gets
   ack and accept, and in between r is handed to an idle worker that fits it, or it is not sent and waits;
   with the single queue it waits only if every worker that fits it is busy. Or no registered worker fits
   it: the client gets ack and reject with the requirements, the monitor FAILED, and the queue is as before. *)
Theorem C45_eval : forall o cfg k tr s i job frames need payload, run o cfg k tr s -> s_frozen s = false -> header_block frames need payload ->
  (forall v, requires need "threads" v -> exists n, denotes v n) ->
  exists r s', request_for s job need payload r /\ only_queue s s' /\
  (((exists w, In w (s_reg s) /\ fits w r) /\ exists x,
    on_request o cfg (Msg "clients" i ("eval" :: job :: frames)) s =
      (Msg "clients" i ["ack"] :: map (fun w => handover w r) (olist x) ++ [Msg "clients" i ["accept"]], inr (tt, s')) /\
    match x with
    | Some w => In w (s_reg s) /\ fits w r /\ current_of (s_queue s) w = None /\
                now_has (s_queue s) (s_queue s') w (Some r) /\ still_wait (s_queue s) (s_queue s')
    | None => (forall w, current_of (s_queue s') w = current_of (s_queue s) w) /\
              lines_up (s_queue s) (s_queue s') r /\
              (k = KSingle -> forall w, In w (s_reg s) -> fits w r -> current_of (s_queue s) w <> None)
    end) \/
   ((forall w, In w (s_reg s) -> ~ fits w r) /\ s_queue s' = s_queue s /\ exists text, enumerates need text /\
    on_request o cfg (Msg "clients" i ("eval" :: job :: frames)) s =
      ([Msg "clients" i ["ack"]; Msg "clients" i ["reject"; ("No worker available for given headers: " ++ text)%string];
        tell job "FAILED"], inr (tt, s')))).
Proof. exact eval_outcome. Qed.
Print Assumptions C45_eval.

(* handed over at once; queued; rejected with the requirements sorted, metadata left out *)
Example C45_example : outputs (exec demo_oracle demo_cfg (start KSingle)
    [from_worker "A" ["init"; "g"; "threads=4"];
     from_client "u" ["eval"; "x"; "hwgroup=f|g"; "threads=4"; ""; "p"]; from_client "u" ["eval"; "y"; ""];
     from_client "u" ["eval"; "z"; "threads=8"; "env=c"; "meta.a=b"; "threads=2"; ""]]) =
  [[]; [Msg "clients" "u" ["ack"]; Msg "workers" "A" ["eval"; "x"; "p"]; Msg "clients" "u" ["accept"]];
   [Msg "clients" "u" ["ack"]; Msg "clients" "u" ["accept"]];
   [Msg "clients" "u" ["ack"]; Msg "clients" "u" ["reject"; "No worker available for given headers: env=c; threads=8; threads=2; "];
    tell "z" "FAILED"]].
Proof. vm_compute. reflexivity. Qed.

(* With the per-worker queues the last clause of C45 is false: a job waits for a busy worker although
   another one that fits it is idle. *)
Example C45_refuted_multi : exists tr s w r, run demo_oracle demo_cfg KMulti tr s /\
  In w (s_reg s) /\ current_of (s_queue s) w = None /\ own_queue (s_queue s) w = [] /\ In r (queued (s_queue s)) /\ r_headers r = [].
Proof.
  pose (ms := [from_worker "A" ["init"; "g"]; from_worker "B" ["init"; "g"]; from_client "u" ["eval"; "x"; ""];
               from_client "u" ["eval"; "y"; ""]; from_worker "A" ["done"; "y"; "OK"]; from_client "u" ["eval"; "z"; ""]]).
  destruct (exec demo_oracle demo_cfg (start KMulti) ms) as (tr, [f|s]) eqn:E; [vm_compute in E; discriminate|].
  exists tr, s, (nth 0 (s_reg s) (mkWorker 0 0 "" "" "" [] [])), (nth 0 (queued (s_queue s)) (mkRequest 0 [] [] "" [] false)).
  split; [exact (exec_start _ _ _ ms tr s E)|]. vm_compute in E. injection E as <- <-. vm_compute. repeat split; auto.
Qed.
