(* C18: what a timer tick does to the jobs of the workers it removes. *)
From Verif Require Import Base Bytes Containers Worker Multi Single Queue Handler Spec SpecRun Demo Tick.
Local Open Scope string_scope.
Local Open Scope list_scope.

(* C18. In every timer event of a run: every status sent to the frontend is a final FAILED; every
   request held before is held afterwards or reported FAILED; for every job id, the requests held
   before are the reports plus the requests held after, the monitor is told FAILED as often as the
   frontend, and the jobs owned by any set of workers removed by the tick number at most the ABORTED
   messages to the monitor plus the reports. (That the removed workers are in neither registry nor
   queue manager afterwards is C34_removed_for_good.) *)
Theorem C18_tick_accounts : forall o cfg k tr1 e tr2 s,
  run o cfg k (tr1 ++ e :: tr2) s -> m_key (ev_in e) = "timer" ->
  (forall m, In m (ev_out e) -> m_key m = "status_notifier" -> exists j d, m = failed_report j d) /\
  (forall r, In r (held (s_queue (ev_pre e))) ->
     In r (held (s_queue (ev_post e))) \/ exists d, In (failed_report (r_job r) d) (ev_out e)) /\
  forall j,
    list_count (job_is j) (held (s_queue (ev_pre e))) =
      list_count (is_report j) (ev_out e) + list_count (job_is j) (held (s_queue (ev_post e))) /\
    list_count (told j "FAILED") (ev_out e) = list_count (is_report j) (ev_out e) /\
    forall ws, NoDup ws -> (forall w, In w ws -> In w (s_reg (ev_pre e)) /\ ~ In w (s_reg (ev_post e))) ->
      total (fun w => list_count (job_is j) (owned (s_queue (ev_pre e)) w)) ws <=
        list_count (told j "ABORTED") (ev_out e) + list_count (is_report j) (ev_out e).
Proof. exact tick_accounts. Qed.
Print Assumptions C18_tick_accounts.

(* a tick removes a worker owning x, y and t; nobody else can run x and y *)
Example C18_example : exists tr1 e tr2 s, run demo_oracle demo_cfg KMulti (tr1 ++ e :: tr2) s /\
  m_key (ev_in e) = "timer" /\ length (s_reg (ev_pre e)) = 2 /\ length (s_reg (ev_post e)) = 1 /\
  map r_job (flat_map (owned (s_queue (ev_pre e))) (s_reg (ev_pre e))) = ["x"; "y"; "t"; "z"] /\
  list_count (is_report "x") (ev_out e) = 1 /\ list_count (is_report "y") (ev_out e) = 1 /\
  list_count (told "t" "ABORTED") (ev_out e) = 1 /\ map r_job (held (s_queue (ev_post e))) = ["z"; "t"].
Proof.
  apply (exec_event _ _ _
    [from_worker "A" ["init"; "g"]; from_worker "B" ["init"; "h"];
     from_client "u" ["eval"; "x"; "hwgroup=g"; ""; "p"]; from_client "u" ["eval"; "z"; "hwgroup=h"; ""; "p"];
     from_client "u" ["eval"; "y"; "hwgroup=g"; ""; "p"]; from_client "u" ["eval"; "z"; "hwgroup=k|h"; ""; "p"];
     from_worker "B" ["done"; "z"; "OK"]; from_client "u" ["eval"; "t"; "hwgroup=g|h"; ""; "p"];
     from_worker "A" ["ping"]; tick "1001"; from_worker "B" ["ping"]; tick "1001"] 11).
  - vm_compute. reflexivity.
  - vm_compute. exact I.
  - vm_compute. auto 20.
Qed.
