(* C01, C02, C03: what happens to accepted jobs. *)
From Verif Require Import Base Bytes Containers Worker Multi Single Queue Handler Spec Demo Conserve.
Local Open Scope string_scope.

(* C01. In every run, for every job id: acceptances + announcements by registering workers
   = final reports to the frontend + requests with that id still held. *)
Theorem C01_conservation : forall o cfg k tr s, run o cfg k tr s -> forall j,
  acceptances j tr + adoptions j tr = reports j tr + list_count (job_is j) (held (s_queue s)).
Proof. exact conservation. Qed.
Print Assumptions C01_conservation.

Example C01_example : exists tr s, run demo_oracle demo_cfg KMulti tr s /\
  acceptances "job1" tr = 2 /\ reports "job1" tr = 1 /\ list_count (job_is "job1") (held (s_queue s)) = 1 /\
  acceptances "job3" tr = 1 /\ reports "job3" tr = 1 /\ acceptances "job4" tr = 0.
Proof. eexists _, _. split; [apply (exec_start _ _ _ demo_inputs); vm_compute; reflexivity|]. vm_compute. auto 10. Qed.

(* C02. A job is reported to the frontend at most once per acceptance (or announcement). *)
Theorem C02_reports_bounded : forall o cfg k tr s, run o cfg k tr s -> forall j,
  reports j tr <= acceptances j tr + adoptions j tr.
Proof. exact reports_bounded. Qed.
Print Assumptions C02_reports_bounded.

(* the bound is reached, by an acceptance and by an announcement *)
Example C02_example : exists tr s, run demo_oracle demo_cfg KSingle tr s /\
  reports "x" tr = 2 /\ acceptances "x" tr = 1 /\ adoptions "x" tr = 1.
Proof.
  eexists _, _. split; [apply (exec_start _ _ _
    [from_worker "A" ["init"; "g"; ""; "current_job=x"]; from_client "u" ["eval"; "x"; ""; "p"];
     from_worker "A" ["done"; "x"; "OK"]; from_worker "A" ["done"; "x"; "FAILED"; "t"]]); vm_compute; reflexivity|].
  vm_compute. auto.
Qed.

(* C03. In every reachable state no request object is held twice (assigned twice, queued twice, or
   both). *)
Theorem C03_held_once : forall o cfg k tr s, run o cfg k tr s -> NoDup (map r_id (held (s_queue s))).
Proof. exact held_once. Qed.
Print Assumptions C03_held_once.

Example C03_example : exists tr s, run demo_oracle demo_cfg KSingle tr s /\
  map r_id (running (s_queue s)) = [4] /\ map r_id (queued (s_queue s)) = [5; 6].
Proof. eexists _, _. split; [apply (exec_start _ _ _ demo_inputs); vm_compute; reflexivity|]. vm_compute. auto 10. Qed.
