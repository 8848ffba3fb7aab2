(* C49: a waiting request is handed out after a bounded number of reports. *)
From Verif Require Import Base Bytes Containers Worker Multi Single Queue Handler SpecText Spec SpecRun SpecMsg SpecQueue SpecWait
  QueueContract Waiting Demo.
Local Open Scope string_scope.
Local Open Scope list_scope.

(* Per-worker queues: r waits for w behind the requests `before`. While w stays registered, r is handed to
   w at the latest when w has reported the end (OK or FAILED) of one more request than those. *)
Theorem C49_own_queue : forall o cfg w r tr2 tr1 s1 s2 before after, run o cfg KMulti tr1 s1 -> run o cfg KMulti (tr1 ++ tr2) s2 ->
  In w (s_reg s1) -> (forall e, In e tr2 -> In w (s_reg (ev_post e))) ->
  own_queue (s_queue s1) w = before ++ r :: after ->
  length before < list_count (fun e => ends_job e && by_worker w e) tr2 ->
  exists e, In e tr2 /\ handed_to w r e.
Proof. exact multi_wait. Qed.
Print Assumptions C49_own_queue.

(* Single queue: r has waited since t; `older` lists at least the requests waiting since t or before, r
   included. While some worker fits r and what joins the queue joins it later than t, r is handed out at
   the latest when workers that fit r have reported the end of as many requests. *)
Theorem C49_single_queue : forall o cfg r t tr2 tr1 s1 s2 older served, run o cfg KSingle tr1 s1 -> run o cfg KSingle (tr1 ++ tr2) s2 ->
  waiting_since (s_queue s1) r t ->
  (forall r' t', waiting_since (s_queue s1) r' t' -> (t' <= t)%Z -> In r' older) ->
  (forall e, In e tr2 -> (exists w, In w (s_reg (ev_post e)) /\ fits w r) /\
     forall r' t', waiting_since (s_queue (ev_post e)) r' t' -> waiting_since (s_queue (ev_pre e)) r' t' \/ (t < t')%Z) ->
  subseq served tr2 -> (forall e, In e served -> ends_job e = true /\ exists w, by_whom e = Some w /\ fits w r) ->
  length older <= length served ->
  exists e w, In e tr2 /\ handed_to w r e.
Proof. exact single_wait. Qed.
Print Assumptions C49_single_queue.

(* With a clock that never stands still or goes back, the requests before r in the queue are what counts. *)
Theorem C49_single_queue_clock : forall o cfg r tr1 tr2 s1 s2 before after served, (forall n, (o_clock o n < o_clock o (S n))%Z) ->
  run o cfg KSingle tr1 s1 -> run o cfg KSingle (tr1 ++ tr2) s2 ->
  queued (s_queue s1) = before ++ r :: after ->
  (forall e, In e tr2 -> exists w, In w (s_reg (ev_post e)) /\ fits w r) ->
  subseq served tr2 -> (forall e, In e served -> ends_job e = true /\ exists w, by_whom e = Some w /\ fits w r) ->
  length before < length served ->
  exists e w, In e tr2 /\ handed_to w r e.
Proof. exact single_wait_clock. Qed.
Print Assumptions C49_single_queue_clock.

(* The hypotheses hold in this run: z waits behind y, and two reports come, in between other messages. *)
Definition wait_inputs : list msg :=
  [from_worker "A" ["init"; "g"]; from_client "u" ["eval"; "x"; ""]; from_client "u" ["eval"; "y"; ""]; from_client "u" ["eval"; "z"; ""];
   from_client "u" ["eval"; "v"; ""]; from_worker "A" ["done"; "x"; "OK"]; from_worker "A" ["ping"]; from_client "u" ["eval"; "u"; ""];
   from_worker "A" ["done"; "y"; "FAILED"; "bad"]].
Example C49_example : forall k, exists tr1 tr2 s1 s2 w y z v, run demo_oracle demo_cfg k tr1 s1 /\ run demo_oracle demo_cfg k (tr1 ++ tr2) s2 /\
  s_reg s1 = [w] /\ r_job z = "z" /\ (forall e, In e tr2 -> s_reg (ev_post e) = [w]) /\ fits w z /\
  queued (s_queue s1) = [y] ++ z :: [v] /\ (k = KMulti -> own_queue (s_queue s1) w = [y] ++ z :: [v]) /\
  list_count (fun e => ends_job e && by_worker w e) tr2 = 2 /\
  map ev_out tr2 = [[Msg "status_notifier" "" ["type"; "job-status"; "id"; "x"; "status"; "OK"]; Msg "workers" "A" ["eval"; "y"]]; 
    [Msg "workers" "A" ["pong"]]; [Msg "clients" "u" ["ack"]; Msg "clients" "u" ["accept"]];
    [Msg "status_notifier" "" ["type"; "job-status"; "id"; "y"; "status"; "FAILED"; "message"; "bad"]; Msg "workers" "A" ["eval"; "z"]]].
Proof.
  intros k.
  destruct (exec demo_oracle demo_cfg (start k) (firstn 5 wait_inputs)) as (tr1, [f|s1]) eqn:E1; [destruct k; vm_compute in E1; discriminate|].
  destruct (exec demo_oracle demo_cfg s1 (skipn 5 wait_inputs)) as (tr2, [f|s2]) eqn:E2;
    [destruct k; vm_compute in E1; injection E1 as <- <-; vm_compute in E2; discriminate|].
  pose proof (exec_start _ _ _ _ _ _ E1) as H1. pose proof (exec_run _ _ _ _ _ _ _ _ H1 E2) as H2.
  pose (job n := nth n (queued (s_queue s1)) (mkRequest 0 [] [] "" [] false)).
  exists tr1, tr2, s1, s2, (nth 0 (s_reg s1) (mkWorker 0 0 "" "" "" [] [])), (job 0), (job 1), (job 2). split; [exact H1|]. split; [exact H2|]. clear H1 H2.
  destruct k; vm_compute in E1; injection E1 as <- <-; vm_compute in E2; injection E2 as <- <-.
  - repeat (split; [reflexivity|]). split; [intros e He; vm_compute in He; repeat (destruct He as [<-|He]; [reflexivity|]); destruct He|].
    split; [intros h v []|]. repeat split. discriminate.
  - repeat (split; [reflexivity|]). split; [intros e He; vm_compute in He; repeat (destruct He as [<-|He]; [reflexivity|]); destruct He|].
    split; [intros h v []|]. repeat split.
Qed.

(* Without the condition on the clock the bound is false: system_clock may be set back. The clock here goes
   back by one at every reading; r = y is first in the queue, and still waits after three reports. *)
Example C49_clock_back_refuted : outputs (exec (mkOracle (fun n => N.of_nat n) (fun n => - Z.of_nat n)%Z (fun _ _ => 0%N)) demo_cfg (start KSingle)
    [from_worker "A" ["init"; "g"]; from_client "u" ["eval"; "x"; ""]; from_client "u" ["eval"; "y"; ""]; 
     from_client "u" ["eval"; "a"; ""]; from_worker "A" ["done"; "x"; "OK"];
     from_client "u" ["eval"; "b"; ""]; from_worker "A" ["done"; "a"; "OK"];
     from_client "u" ["eval"; "c"; ""]; from_worker "A" ["done"; "b"; "OK"]]) =
  let accepted := [Msg "clients" "u" ["ack"]; Msg "clients" "u" ["accept"]] in
  let ok j := Msg "status_notifier" "" ["type"; "job-status"; "id"; j; "status"; "OK"] in
  [[]; [Msg "clients" "u" ["ack"]; Msg "workers" "A" ["eval"; "x"]; Msg "clients" "u" ["accept"]]; accepted;
   accepted; [ok "x"; Msg "workers" "A" ["eval"; "a"]]; accepted; [ok "a"; Msg "workers" "A" ["eval"; "b"]];
   accepted; [ok "b"; Msg "workers" "A" ["eval"; "c"]]].
Proof. vm_compute. reflexivity. Qed.
