(* C04, C08, C09, C10, C34: what is sent to workers. *)
From Coq Require Import Permutation.
From Verif Require Import Base Bytes Containers Worker Multi Single Queue Handler SpecText Spec SpecRun Demo
  Provenance Budget OneJob Members.
Local Open Scope string_scope.
Local Open Scope list_scope.

(* C04 and C08. Whenever an event of a run sends an eval on the workers' channel, it goes to the
   identity of a worker w registered at that moment by some event `reg`, and there is an accepted
   submission `sub` (earlier, or the message being processed) such that the message consists of
   "eval", the job id and exactly the frames after the client's empty frame, and everything the
   submission's headers require is offered by the worker's registration. *)
Theorem C04_C08_dispatch : forall o cfg k tr1 e tr2 s, run o cfg k (tr1 ++ e :: tr2) s ->
  forall out rest, In out (ev_out e) -> m_key out = "workers" -> m_data out = "eval" :: rest ->
  exists j sub reg w need payload hw hdrs,
    (In sub tr1 \/ sub = e) /\ submitted sub j need payload /\
    (In reg tr1 /\ In w (s_reg (ev_pre e)) \/ reg = e) /\ joined reg w hw hdrs /\
    out = Msg "workers" (w_identity w) ("eval" :: j :: payload) /\
    (forall h v, requires need h v -> offers hw hdrs h v).
Proof. exact dispatch_provenance. Qed.
Print Assumptions C04_C08_dispatch.

(* a job with metadata and alternatives is queued, then dispatched without its headers *)
Example C04_C08_example : exists tr s, run demo_oracle demo_cfg KMulti tr s /\
  In (Msg "workers" "A" ["eval"; "job2"; "url3"]) (flat_map ev_out tr) /\
  In (Msg "workers" "A" ["eval"; "job1"; "url6"]) (flat_map ev_out tr) /\
  In (Msg "workers" "B" ["eval"; "job1"; "url1"; "url2"]) (flat_map ev_out tr).
Proof. eexists _, _. split; [apply (exec_start _ _ _ demo_inputs); vm_compute; reflexivity|]. repeat split; find_in. Qed.

(* C09. The evals of a job sent to workers number at most max(1, max_request_failures) per acceptance. *)
Theorem C09_redispatch_bounded : forall o cfg k tr s, run o cfg k tr s -> forall j,
  (N.of_nat (dispatches j tr) <= N.max 1 (c_max_failures cfg) * N.of_nat (acceptances j tr))%N.
Proof. exact redispatch_bounded. Qed.
Print Assumptions C09_redispatch_bounded.

(* the bound is reached *)
Example C09_example : exists tr s, run demo_oracle demo_cfg KSingle tr s /\
  dispatches "x" tr = 2 /\ acceptances "x" tr = 1 /\ reports "x" tr = 1.
Proof.
  eexists _, _. split; [apply (exec_start _ _ _
    [from_worker "A" ["init"; "g"]; from_client "u" ["eval"; "x"; ""; "p"];
     from_worker "A" ["done"; "x"; "INTERNAL_ERROR"; "t"]; from_worker "A" ["done"; "x"; "INTERNAL_ERROR"; "t"]]); vm_compute; reflexivity|].
  vm_compute. auto.
Qed.

(* C10. For every event of a run and every identity: evals sent to it + its idle workers after
   <= its idle workers before + 1 if the event is its own done report for its current job
   + 1 if the event registers a worker with this identity. *)
Theorem C10_one_job_at_a_time : forall o cfg i k tr1 e tr2 s, run o cfg k (tr1 ++ e :: tr2) s ->
  list_count (is_eval_to i) (ev_out e) + idle_count i (ev_post e) <=
    idle_count i (ev_pre e) + b2n (own_report i e) + b2n (joins i e).
Proof. exact one_job_at_a_time. Qed.
Print Assumptions C10_one_job_at_a_time.

(* In particular, with at most one worker registered under the identity: at most one eval, and only if
   the worker was idle or has just reported its job. *)
Theorem C10_unique_identity : forall o cfg k tr1 e tr2 s i, run o cfg k (tr1 ++ e :: tr2) s ->
  list_count (named i) (s_reg (ev_pre e)) <= 1 -> joins i e = false ->
  list_count (is_eval_to i) (ev_out e) <= 1 /\
  (list_count (is_eval_to i) (ev_out e) = 1 -> idle_count i (ev_pre e) = 1 \/ own_report i e = true).
Proof. exact one_job_unique. Qed.
Print Assumptions C10_unique_identity.

Example C10_example : exists tr1 e tr2 s, run demo_oracle demo_cfg KMulti (tr1 ++ e :: tr2) s /\
  list_count (is_eval_to "A") (ev_out e) = 1 /\ idle_count "A" (ev_pre e) = 0 /\ own_report "A" e = true.
Proof.
  pose (x := exec demo_oracle demo_cfg (start KMulti) demo_inputs).
  exists (firstn 8 (fst x)), (nth 8 (fst x) (mkEvent (start KMulti) (tick "") [] (start KMulti))), (skipn 9 (fst x)).
  destruct (snd x) as [f|s] eqn:E; [vm_compute in E; discriminate|]. exists s. split.
  - replace (firstn 8 (fst x) ++ _ :: skipn 9 (fst x)) with (fst x) by (vm_compute; reflexivity).
    apply (exec_start _ _ _ demo_inputs). rewrite <- E. unfold x. destruct (exec _ _ _ _); reflexivity.
  - vm_compute. auto.
Qed.

(* C34. In every reachable state the registry, the manager's workers and the keys of its maps are the
   same workers, each once. *)
Theorem C34_same_workers : forall o cfg k tr s, run o cfg k tr s ->
  NoDup (map w_id (s_reg s)) /\
  Permutation (manager_workers (s_queue s)) (s_reg s) /\
  Permutation (map fst (current_map (s_queue s))) (s_reg s) /\
  (forall q, s_queue s = QMulti q -> Permutation (map fst (mq_queues q)) (s_reg s)).
Proof. exact same_workers. Qed.
Print Assumptions C34_same_workers.

(* A worker removed by an event is in no later registry or manager and has no current job again. *)
Theorem C34_removed_for_good : forall o cfg k tr1 e tr2 s w, run o cfg k (tr1 ++ e :: tr2) s ->
  In w (s_reg (ev_pre e)) -> ~ In w (s_reg (ev_post e)) ->
  forall s', s' = ev_post e \/ (exists e', In e' tr2 /\ s' = ev_post e') ->
  ~ In (w_id w) (map w_id (s_reg s')) /\ ~ In (w_id w) (map w_id (manager_workers (s_queue s'))) /\
  current_of (s_queue s') w = None.
Proof. exact removed_for_good. Qed.
Print Assumptions C34_removed_for_good.

(* worker B is expired in the demo run *)
Example C34_example : exists tr s, run demo_oracle demo_cfg KSingle tr s /\
  map w_identity (s_reg s) = ["A"] /\ map w_identity (manager_workers (s_queue s)) = ["A"] /\
  existsb (fun e => Nat.eqb (length (s_reg (ev_pre e))) 2 && Nat.eqb (length (s_reg (ev_post e))) 1) tr = true.
Proof. eexists _, _. split; [apply (exec_start _ _ _ demo_inputs); vm_compute; reflexivity|]. vm_compute. auto. Qed.
