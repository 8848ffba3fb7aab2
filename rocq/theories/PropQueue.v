(* C11, C12, C13, C14, C33: the queue managers. *)
From Coq Require Import Permutation Sorted.
From Verif Require Import Base Bytes Containers Worker Multi Single Queue SpecText Handler Spec SpecRun SpecMsg SpecQueue Demo
  QueueContract QueueOrder WorkConserving.
Local Open Scope string_scope.
Local Open Scope list_scope.

(* ---- C33: the interface ---- *)

(* In every run of the broker the queue manager is in a state reached by valid use of its interface,
   with the registered workers. *)
Theorem C33_runs_use_interface : forall o cfg k tr s, run o cfg k tr s -> used o (s_queue s) (s_reg s).
Proof. exact run_used. Qed.
Print Assumptions C33_runs_use_interface.

(* enqueue_request succeeds; the request is kept iff some worker fits it; it is given only to an idle
   fitting worker, and otherwise queued: behind all others, or behind those that wait for one busy worker
   that fits it. *)
Theorem C33_enqueue : forall o m ws r, used o m ws -> r_complete r = true -> numeric r ->
  exists x m', q_enqueue_request o r m = Val (x, m') /\ used o m' ws /\
    (enqueued x = true <-> exists w, In w ws /\ fits w r) /\
    match assigned_to x with
    | Some w => In w ws /\ fits w r /\ current_of m w = None /\ now_has m m' w (Some r) /\ still_wait m m'
    | None => (forall w, current_of m' w = current_of m w) /\ (if enqueued x then lines_up m m' r else m' = m)
    end.
Proof. exact enqueue_contract. Qed.
Print Assumptions C33_enqueue.

(* assign_request for an idle worker and worker_finished hand out a queued request the worker fits, or
   nothing. *)
Theorem C33_assign : forall o m ws w, used o m ws -> In w ws -> current_of m w = None ->
  exists x m', q_assign_request o w m = Val (x, m') /\ used o m' ws /\ now_has m m' w x /\ handed_out m m' w x.
Proof. exact assign_contract. Qed.
Print Assumptions C33_assign.

Theorem C33_finished : forall o m ws w, used o m ws -> In w ws ->
  exists x m', q_worker_finished o w m = Val (x, m') /\ used o m' ws /\ now_has m m' w x /\ handed_out m m' w x.
Proof. exact finished_contract. Qed.
Print Assumptions C33_finished.

(* worker_cancelled returns the current request and leaves the worker idle; the others wait as before *)
Theorem C33_cancelled : forall o m ws w, used o m ws -> In w ws ->
  exists m', q_worker_cancelled w m = Val (current_of m w, m') /\ used o m' ws /\ now_has m m' w None /\ still_wait m m'.
Proof. exact cancelled_contract. Qed.
Print Assumptions C33_cancelled.

Theorem C33_current : forall o m ws w, used o m ws -> In w ws -> q_get_current w m = Val (current_of m w, m).
Proof. exact current_contract. Qed.
Print Assumptions C33_current.

Theorem C33_count : forall m, q_queued_count m = length (queued m).
Proof. exact count_contract. Qed.
Print Assumptions C33_count.

(* add_worker of a worker without a job hands out a request or nothing; of a worker that announces one,
   records it. The single manager then returns that request although queue_manager_interface.h says
   nullptr; the multi manager returns nullptr. *)
Theorem C33_add : forall o m ws w cur, used o m ws -> constructed w -> (forall w', In w' ws -> w_id w' <> w_id w) ->
  (forall r, cur = Some r -> r_complete r = false) ->
  exists x m', q_add_worker o w cur m = Val (x, m') /\ used o m' (ws ++ [w]) /\
  match cur with
  | Some r => now_has m m' w (Some r) /\ still_wait m m' /\
              x = match m with QSingle _ => Some r | QMulti _ => None end
  | None => now_has m m' w x /\ handed_out m m' w x
  end.
Proof. exact add_contract. Qed.
Print Assumptions C33_add.

(* worker_terminated returns the current request and, from the single manager, the queued requests
   that only this worker fits, from the multi manager, its queue; the worker is forgotten. *)
Theorem C33_terminated : forall o m ws w, used o m ws -> In w ws ->
  exists gone m', q_worker_terminated w m = Val (olist (current_of m w) ++ gone, m') /\
    used o m' (list_remove w ws) /\ now_has m m' w None /\ leave m m' w gone /\
    match m with
    | QSingle _ => (forall r, In r gone -> forall w', In w' ws -> fits w' r -> w' = w) /\
                   (forall r, In r (queued m') -> exists w', In w' ws /\ w' <> w /\ fits w' r)
    | QMulti _ => gone = own_queue m w
    end.
Proof. exact terminated_contract. Qed.
Print Assumptions C33_terminated.

(* a used manager with two workers, one current and one queued request; terminating A returns both *)
Example C33_example : exists tr s, run demo_oracle demo_cfg KSingle tr s /\
  map w_identity (s_reg s) = ["A"; "B"] /\ map r_job (running (s_queue s)) = ["x"] /\ map r_job (queued (s_queue s)) = ["y"] /\
  match s_reg s with
  | A :: _ => match q_worker_terminated A (s_queue s) with
              | Val (rs, m') => map r_job rs = ["x"; "y"] /\ held m' = [] /\ map w_identity (manager_workers m') = ["B"]
              | Fail _ => False
              end
  | [] => False
  end.
Proof.
  eexists _, _. split; [apply (exec_start _ _ _
    [from_worker "A" ["init"; "g"]; from_worker "B" ["init"; "h"];
     from_client "u" ["eval"; "x"; "hwgroup=g"; ""; "p"]; from_client "u" ["eval"; "y"; "hwgroup=g"; ""; "p"]]);
     vm_compute; reflexivity|].
  vm_compute. auto 10.
Qed.

(* ---- C11: single manager, oldest first ---- *)

(* A worker that asks for work gets a request it fits whose arrival time is minimal among the queued
   ones it fits, and gets nothing only if it fits none; what it does not get stays queued. *)
Theorem C11_oldest_first : forall o q ws w x m', used o (QSingle q) ws -> asks o (QSingle q) ws w x m' ->
  match x with
  | Some r => fits w r /\ exists t, waiting_since (QSingle q) r t /\
      forall r' t', waiting_since (QSingle q) r' t' -> fits w r' -> (t <= t')%Z
  | None => forall r, In r (queued (QSingle q)) -> ~ fits w r
  end /\
  (forall r t, waiting_since (QSingle q) r t -> x = Some r \/ waiting_since m' r t) /\
  (forall r t, waiting_since m' r t -> waiting_since (QSingle q) r t).
Proof. exact oldest_first. Qed.
Print Assumptions C11_oldest_first.

(* In runs: whenever processing a message moves a request from the queue to a worker, no queued request
   that worker fits had waited longer. *)
Theorem C11_oldest_first_run : forall o cfg tr1 e tr2 s w r, run o cfg KSingle (tr1 ++ e :: tr2) s ->
  In w (s_reg (ev_post e)) -> In r (queued (s_queue (ev_pre e))) -> current_of (s_queue (ev_post e)) w = Some r ->
  exists t, waiting_since (s_queue (ev_pre e)) r t /\
    forall r' t', waiting_since (s_queue (ev_pre e)) r' t' -> fits w r' -> (t <= t')%Z.
Proof. exact oldest_first_run. Qed.
Print Assumptions C11_oldest_first_run.

(* The oracle's rank function loses nothing: whatever order by arrival time std::sort may leave is
   obtained from some ranks. *)
Theorem C11_sort_adequate : forall l l', Permutation l l' ->
  StronglySorted (fun a b => (e_arrived a <= e_arrived b)%Z) l' -> NoDup (map (fun e => r_id (e_request e)) l) ->
  exists tie, sort_entries tie l = l'.
Proof. exact sort_adequate. Qed.
Print Assumptions C11_sort_adequate.

(* B finishes while d (unfit), z and y are queued, all at the same time but for d; the tie goes to y *)
Example C11_example :
  let o := mkOracle (fun n => N.of_nat (100 - n)) (fun n => match n with 0%nat => 3%Z | _ => 7%Z end)
             (fun _ r => N.of_nat (100 - r)) in
  exists tr1 e tr2 s, run o demo_cfg KSingle (tr1 ++ e :: tr2) s /\
  map r_job (queued (s_queue (ev_pre e))) = ["d"; "z"; "y"] /\ map r_job (queued (s_queue (ev_post e))) = ["d"; "z"] /\
  ev_out e = [Msg "status_notifier" "" ["type"; "job-status"; "id"; "x"; "status"; "OK"];
              Msg "workers" "B" ["eval"; "y"; "p"]].
Proof.
  intros o. apply (exec_event _ _ _
    [from_worker "A" ["init"; "g"]; from_worker "B" ["init"; "h"];
     from_client "u" ["eval"; "c"; "hwgroup=g"; ""; "p"]; from_client "u" ["eval"; "x"; "hwgroup=h"; ""; "p"];
     from_client "u" ["eval"; "d"; "hwgroup=g"; ""; "p"]; from_client "u" ["eval"; "z"; "hwgroup=h"; ""; "p"];
     from_client "u" ["eval"; "y"; "hwgroup=h"; ""; "p"]; from_worker "B" ["done"; "x"; "OK"]] 7).
  - vm_compute. reflexivity.
  - vm_compute. exact I.
  - vm_compute. auto 20.
Qed.

(* ---- C12: single manager, work conserving unless INTERNAL_ERROR ---- *)

(* A worker idle beside a queued request it fits has reported INTERNAL_ERROR and been idle ever since. *)
Theorem C12_work_conserving : forall o cfg tr s w r, run o cfg KSingle tr s -> In w (s_reg s) ->
  current_of (s_queue s) w = None -> In r (queued (s_queue s)) -> fits w r -> idle_after_error tr w.
Proof. exact work_conserving. Qed.
Print Assumptions C12_work_conserving.

(* The unrestricted claim is false. *)
Theorem C12_unrestricted_refuted : ~ forall o cfg tr s w r, run o cfg KSingle tr s -> In w (s_reg s) ->
  current_of (s_queue s) w = None -> In r (queued (s_queue s)) -> ~ fits w r.
Proof. exact single_idle_refuted. Qed.
Print Assumptions C12_unrestricted_refuted.

(* the run refuting it: A reports INTERNAL_ERROR for x, B gets x, y stays queued beside the idle A
   however often A pings *)
Example C12_example : exists tr s, run demo_oracle demo_cfg KSingle tr s /\
  map w_identity (s_reg s) = ["A"; "B"] /\ map r_job (running (s_queue s)) = ["x"] /\ map r_job (queued (s_queue s)) = ["y"] /\
  map (current_of (s_queue s)) (firstn 1 (s_reg s)) = [None] /\ list_count (credited "INTERNAL_ERROR") tr = 1.
Proof. eexists _, _. split; [apply (exec_start _ _ _ idle_inputs); vm_compute; reflexivity|]. vm_compute. auto 10. Qed.

(* ---- C13: multi manager, every worker served in the order of its own queue ---- *)

(* A worker that asks for work gets the front of its own queue; the other queues stay as they are. *)
Theorem C13_front_first : forall o q ws w x m', used o (QMulti q) ws -> asks o (QMulti q) ws w x m' ->
  x = hd_error (own_queue (QMulti q) w) /\ own_queue m' w = tl (own_queue (QMulti q) w) /\
  forall w', w_id w' <> w_id w -> own_queue m' w' = own_queue (QMulti q) w'.
Proof. exact front_first. Qed.
Print Assumptions C13_front_first.

(* In runs, as long as w stays registered: requests leave its queue only from the front, each is sent
   to w, in that order, and new ones join at the end. *)
Theorem C13_worker_fifo : forall o cfg w tr2 tr1 s1 s2, run o cfg KMulti tr1 s1 -> run o cfg KMulti (tr1 ++ tr2) s2 ->
  In w (s_reg s1) -> (forall e, In e tr2 -> In w (s_reg (ev_post e))) ->
  exists taken added, own_queue (s_queue s1) w ++ added = taken ++ own_queue (s_queue s2) w /\
    subseq (map (handover w) taken) (flat_map ev_out tr2).
Proof. exact worker_fifo. Qed.
Print Assumptions C13_worker_fifo.

(* A worker idle beside its non-empty queue has reported INTERNAL_ERROR and been idle ever since. *)
Theorem C13_no_idle_backlog : forall o cfg tr s w, run o cfg KMulti tr s -> In w (s_reg s) ->
  current_of (s_queue s) w = None -> own_queue (s_queue s) w <> [] -> idle_after_error tr w.
Proof. exact no_idle_backlog. Qed.
Print Assumptions C13_no_idle_backlog.

Theorem C13_unrestricted_refuted : ~ forall o cfg tr s w, run o cfg KMulti tr s -> In w (s_reg s) ->
  current_of (s_queue s) w = None -> own_queue (s_queue s) w = [].
Proof. exact multi_idle_refuted. Qed.
Print Assumptions C13_unrestricted_refuted.

Example C13_example : exists tr s, run demo_oracle demo_cfg KMulti tr s /\
  map w_identity (s_reg s) = ["A"; "B"] /\ map (fun w => map r_job (own_queue (s_queue s) w)) (s_reg s) = [["z"]; []] /\
  flat_map ev_out (skipn 6 tr) =
    [Msg "status_notifier" "" ["type"; "job-status"; "id"; "x"; "status"; "OK"]; Msg "workers" "A" ["eval"; "y"; "p"]].
Proof.
  eexists _, _. split; [apply (exec_start _ _ _
    [from_worker "A" ["init"; "g"]; from_worker "B" ["init"; "h"];
     from_client "u" ["eval"; "x"; "hwgroup=g"; ""; "p"]; from_client "u" ["eval"; "b"; "hwgroup=h"; ""; "p"];
     from_client "u" ["eval"; "y"; "hwgroup=g"; ""; "p"]; from_client "u" ["eval"; "z"; "hwgroup=g"; ""; "p"];
     from_worker "A" ["done"; "x"; "OK"]]); vm_compute; reflexivity|].
  vm_compute. auto 10.
Qed.

(* ---- C14: multi manager, round robin ---- *)

(* An enqueued request joins the jobs of exactly one worker, if any fits. *)
Theorem C14_one_receiver : forall o q ws r, used o (QMulti q) ws -> r_complete r = true -> numeric r ->
  exists x m', q_enqueue_request o r (QMulti q) = Val (x, m') /\
  ((exists w, In w ws /\ Permutation (owned m' w) (r :: owned (QMulti q) w) /\
              forall w', w_id w' <> w_id w -> owned m' w' = owned (QMulti q) w') \/
   (m' = QMulti q /\ forall w, In w ws -> ~ fits w r)).
Proof. exact one_receiver. Qed.
Print Assumptions C14_one_receiver.

(* That worker fits it, and every other fitting worker has been given a request since it was. *)
Theorem C14_least_recently_given : forall o log q ws r x m' w, given o log (QMulti q) ws -> r_complete r = true ->
  q_enqueue_request o r (QMulti q) = Val (x, m') -> In w ws -> Permutation (owned m' w) (r :: owned (QMulti q) w) ->
  fits w r /\ forall w', In w' ws -> fits w' r -> w' <> w -> longer_ago log w w'.
Proof. exact least_recently_given. Qed.
Print Assumptions C14_least_recently_given.

(* At most as many consecutive requests as there are workers, each fitting all of them, go to different
   workers. *)
Theorem C14_round_robin : forall o q ws log m', used o (QMulti q) ws -> enqueues o ws (QMulti q) log m' ->
  (forall r w, In (r, w) log -> r_complete r = true /\ forall w', In w' ws -> fits w' r) ->
  length log <= length ws -> NoDup (map snd log).
Proof. exact round_robin. Qed.
Print Assumptions C14_round_robin.

Example C14_example : exists tr s, run demo_oracle demo_cfg KMulti tr s /\
  flat_map (fun e => filter (fun m => String.eqb (m_key m) "workers") (ev_out e)) tr =
    [Msg "workers" "C" ["eval"; "x"]; Msg "workers" "B" ["eval"; "y"]; Msg "workers" "A" ["eval"; "z"]; Msg "workers" "C" ["eval"; "u"]].
Proof.
  eexists _, _. split; [apply (exec_start _ _ _
    [from_worker "A" ["init"; "g"; "env=c"]; from_worker "B" ["init"; "h"; "env=c"]; from_worker "C" ["init"; "g"; "env=c"];
     from_client "u" ["eval"; "x"; "env=c"; ""]; from_client "u" ["eval"; "y"; "env=c"; ""];
     from_client "u" ["eval"; "z"; "env=c"; ""]; from_client "u" ["eval"; "u"; "env=c"; ""];
     from_client "u" ["eval"; "v"; "hwgroup=g"; ""]; from_worker "C" ["done"; "x"; "OK"]]); vm_compute; reflexivity|].
  vm_compute. reflexivity.
Qed.
