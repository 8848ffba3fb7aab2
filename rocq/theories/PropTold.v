(* C66: what the frontend and the monitor hear of jobs that end. *)
From Verif Require Import Base Bytes Containers Worker Multi Single Queue Handler SpecText Spec SpecRun SpecMsg SpecAgain SpecTold Demo Told.
Local Open Scope string_scope.
Local Open Scope list_scope.

(* C66. In every run, for every job id. The final statuses are OK or FAILED. OK is reported exactly for the
   reports OK of workers about the job they work on. What the broker tells the monitor: FAILED once for each
   FAILED for the frontend, except that the monitor is not told when the worker itself reported FAILED, nor
   when it reported INTERNAL_ERROR about a job it had announced; and in addition once for each submission that
   nobody can run. ABORTED is said by ticks only. *)
Theorem C66_ledger : forall o cfg k tr s, run o cfg k tr s -> forall j,
  reports j tr = results j "OK" tr + results j "FAILED" tr /\
  results j "OK" tr = list_count (report_of "OK" j) tr /\
  words j "FAILED" tr + list_count (report_of "FAILED" j) tr + list_count (fun e => report_of "INTERNAL_ERROR" j e && on_announced e) tr =
    results j "FAILED" tr + list_count (turned_down j) tr /\
  words j "ABORTED" tr = aborts j tr.
Proof. exact (fun o cfg k tr s H j => told_ledger j o cfg k tr s H). Qed.
Print Assumptions C66_ledger.

(* All terms occur: x is announced and ends with INTERNAL_ERROR; y is refused, then accepted and fails twice, the
   second time for good; z ends with FAILED; u with OK; v is ABORTED when its worker is lost and goes to another. *)
Example C66_example : exists tr s, run demo_oracle demo_cfg KMulti tr s /\
  map (fun j => (results j "OK" tr, results j "FAILED" tr, words j "FAILED" tr, words j "ABORTED" tr)) ["x"; "y"; "z"; "u"; "v"] =
    [(0, 1, 0, 0); (0, 1, 2, 0); (0, 1, 0, 0); (1, 0, 0, 0); (0, 0, 0, 1)] /\
  list_count (turned_down "y") tr = 1 /\ list_count (report_of "FAILED" "z") tr = 1 /\
  list_count (fun e => report_of "INTERNAL_ERROR" "x" e && on_announced e) tr = 1.
Proof.
  eexists _, _. split; [apply (exec_start _ _ _
    [from_client "c" ["eval"; "y"; ""];
     from_worker "A" ["init"; "g"; ""; "current_job=x"]; from_worker "A" ["done"; "x"; "INTERNAL_ERROR"; "t"];
     from_client "c" ["eval"; "y"; ""]; from_worker "A" ["done"; "y"; "INTERNAL_ERROR"; "t"]; from_worker "A" ["done"; "y"; "INTERNAL_ERROR"; "t"];
     from_client "c" ["eval"; "z"; ""]; from_worker "A" ["done"; "z"; "FAILED"; "t"];
     from_client "c" ["eval"; "u"; ""]; from_worker "A" ["done"; "u"; "OK"];
     from_client "c" ["eval"; "v"; ""]; tick "1001"; from_worker "B" ["init"; "g"]; from_worker "B" ["ping"]; tick "1001"]); vm_compute; reflexivity|].
  vm_compute. auto 10.
Qed.

(* The monitor is not told of every failure: a job that ended with FAILED, of which the monitor hears nothing. *)
Example C66_refuted : exists tr s, run demo_oracle demo_cfg KSingle tr s /\ results "z" "FAILED" tr = 1 /\
  forall e m, In e tr -> In m (ev_out e) -> m_key m <> "monitor".
Proof.
  eexists _, _. split; [apply (exec_start _ _ _
    [from_worker "A" ["init"; "g"]; from_client "c" ["eval"; "z"; ""]; from_worker "A" ["done"; "z"; "FAILED"; "t"]]); vm_compute; reflexivity|].
  split; [vm_compute; reflexivity|]. intros e m [<-|[<-|[<-|[]]]] Hm; vm_compute in Hm; intuition (subst; discriminate).
Qed.
