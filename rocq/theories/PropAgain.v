(* C61: a job is sent out again only after a failure. *)
From Verif Require Import Base Bytes Containers Worker Multi Single Queue Handler Spec SpecRun SpecMsg SpecAgain Demo Again.
Local Open Scope string_scope.
Local Open Scope list_scope.

(* C61. In every run, the evals of a job sent to workers, together with its requests that still wait,
   number at most its acceptances plus the INTERNAL_ERROR reports of workers that had it plus the times
   a tick told the monitor that it is ABORTED. *)
Theorem C61_only_after_failure : forall o cfg k tr s j, run o cfg k tr s ->
  dispatches j tr + list_count (job_is j) (queued (s_queue s)) <= acceptances j tr + errors_for j tr + aborts j tr.
Proof. exact sent_again. Qed.
Print Assumptions C61_only_after_failure.

(* While no worker is removed and none of them reports INTERNAL_ERROR for the job, it is sent at most
   once per acceptance, whatever else clients and workers send. *)
Theorem C61_once : forall o cfg k tr s j, run o cfg k tr s ->
  (forall e, In e tr -> error_for j e = false) -> (forall e, In e tr -> incl (s_reg (ev_pre e)) (s_reg (ev_post e))) ->
  dispatches j tr + list_count (job_is j) (queued (s_queue s)) <= acceptances j tr.
Proof. exact sent_once. Qed.
Print Assumptions C61_once.

(* The bound is met: x is sent again after an error, y after its worker was lost; z waits. *)
Example C61_example : exists tr s, run demo_oracle demo_cfg KSingle tr s /\
  dispatches "x" tr = 2 /\ acceptances "x" tr = 1 /\ errors_for "x" tr = 1 /\ aborts "x" tr = 0 /\
  dispatches "y" tr = 2 /\ acceptances "y" tr = 1 /\ errors_for "y" tr = 0 /\ aborts "y" tr = 1 /\
  dispatches "z" tr = 0 /\ acceptances "z" tr = 1 /\ map r_job (queued (s_queue s)) = ["z"].
Proof.
  eexists _, _. split; [apply (exec_start _ _ _
    [from_worker "A" ["init"; "g"]; from_worker "B" ["init"; "h"]; from_worker "B" ["ping"]; from_client "u" ["eval"; "x"; "hwgroup=g"; ""; "p"];
     from_client "u" ["eval"; "y"; "hwgroup=g|h"; ""; "p"]; from_worker "A" ["done"; "x"; "INTERNAL_ERROR"; "disk"];
     from_worker "A" ["done"; "x"; "OK"]; tick "1001"; from_worker "A" ["ping"]; tick "1001";
     from_client "u" ["eval"; "z"; ""; "p"]]); vm_compute; reflexivity|].
  vm_compute. auto 20.
Qed.

(* Without failures the bound is one per acceptance, and two acceptances of one id are two jobs. *)
Example C61_once_example : exists tr s, run demo_oracle demo_cfg KMulti tr s /\
  forallb (fun e => negb (error_for "x" e)) tr = true /\
  forallb (fun e => Nat.leb (length (s_reg (ev_pre e))) (length (s_reg (ev_post e)))) tr = true /\
  dispatches "x" tr = 1 /\ acceptances "x" tr = 2 /\ map r_job (queued (s_queue s)) = ["x"] /\ errors_for "y" tr = 1.
Proof.
  eexists _, _. split; [apply (exec_start _ _ _
    [from_worker "A" ["init"; "g"]; from_client "u" ["eval"; "y"; ""; "p"]; from_worker "A" ["done"; "y"; "INTERNAL_ERROR"; "disk"];
     from_worker "A" ["done"; "y"; "OK"]; from_client "u" ["eval"; "x"; ""; "p"]; tick "1001"; from_worker "A" ["init"; "g"; ""; "current_job=x"];
     from_client "v" ["eval"; "x"; ""; "p"]; from_worker "A" ["progress"; "x"; "ABORTED"]; from_worker "A" ["done"; "z"; "INTERNAL_ERROR"; "disk"]]);
     vm_compute; reflexivity|].
  vm_compute. auto 20.
Qed.

(* That a job is sent to a worker at most once is false. *)
Example C61_always_once_refuted : exists tr s, run demo_oracle demo_cfg KSingle tr s /\
  acceptances "x" tr = 1 /\ dispatches "x" tr = 2 /\ errors_for "x" tr = 0.
Proof.
  eexists _, _. split; [apply (exec_start _ _ _
    [from_worker "A" ["init"; "g"]; from_worker "B" ["init"; "h"]; from_client "u" ["eval"; "x"; ""; "p"];
     from_worker "B" ["ping"]; tick "1001"; from_worker "A" ["ping"]; tick "1001"]); vm_compute; reflexivity|].
  vm_compute. auto 20.
Qed.
