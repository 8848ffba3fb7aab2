(* C73. The whole broker with one queue for all workers is a hall of desks and a common pool. *)
From Verif Require Import Base Bytes Containers Worker Multi Single Queue Handler SpecText Spec SpecRun SpecMsg SpecFront SpecBook SpecFatal SpecLedger SpecPool SpecOracle PoolFun PoolRun PoolTies Demo.
Local Open Scope string_scope.
Local Open Scope list_scope.

(* Every execution is one of the hall, which sends exactly the same messages; its desks are the registered workers in
   the order of the registry, its pool is the queue, and it tells which messages are fatal. *)
Theorem C73_hall : forall o cfg tr s, run o cfg KSingle tr s ->
  exists R, responded (o_addr o) (o_clock o) in_time cfg (map ev_in tr) (map ev_out tr) R /\ p_frozen R = s_frozen s /\
    Forall2 (desk_is s) (h_desks (p_hall R)) (s_reg s) /\
    (exists q, s_queue s = QSingle q /\ Forall2 (waits_as s) (h_pool (p_hall R)) (sq_jobs q)) /\
    forall m outs f, crashes o cfg s m outs f <-> doomed (as_ledger R) m outs f.
Proof. exact run_roll_is. Qed.
Print Assumptions C73_hall.

(* And the other way round, for every oracle whose clock never shows the same time twice. *)
Theorem C73_complete : forall o cfg ms outss R, no_ties o -> responded (o_addr o) (o_clock o) in_time cfg ms outss R ->
  exists tr s, run o cfg KSingle tr s /\ map ev_in tr = ms /\ map ev_out tr = outss.
Proof. exact pool_runs. Qed.
Print Assumptions C73_complete.

(* For any clock: whatever the hall may do, the broker does for some results of std::sort, which may put requests that
   came at the same time in any order; and the hall then tells its state and its fatal messages. *)
Theorem C73_allows : forall rank clock cfg ms outss R, responded rank clock in_time cfg ms outss R ->
  exists tie tr s, run (mkOracle rank clock tie) cfg KSingle tr s /\ map ev_in tr = ms /\ map ev_out tr = outss /\
    p_frozen R = s_frozen s /\ Forall2 (desk_is s) (h_desks (p_hall R)) (s_reg s) /\
    (exists q, s_queue s = QSingle q /\ Forall2 (waits_as s) (h_pool (p_hall R)) (sq_jobs q)) /\
    forall m outs f, crashes (mkOracle rank clock tie) cfg s m outs f <-> doomed (as_ledger R) m outs f.
Proof. exact roll_allows. Qed.
Print Assumptions C73_allows.

(* With a clock that never shows the same time twice the messages received determine the messages sent and the hall. *)
Theorem C73_determined : forall rank clock, (forall i j : nat, clock i = clock j -> i = j) ->
  forall cfg ms os1 R1, responded rank clock in_time cfg ms os1 R1 -> forall os2 R2, responded rank clock in_time cfg ms os2 R2 -> os1 = os2 /\ R1 = R2.
Proof. exact responded_fun. Qed.
Print Assumptions C73_determined.

Definition hall_inputs : list msg :=
  [from_worker "A" ["init"; "g"; "env=c"]; from_worker "B" ["init"; "h"; "env=c"; "threads=4"; ""; "description=box"; "current_job=old"];
   from_client "u" ["eval"; "x"; "env=c"; ""; "url"]; from_client "u" ["eval"; "y"; "env=c"; ""];
   from_client "u" ["eval"; "z"; "hwgroup=g"; ""]; from_worker "C" ["init"; "k"; "env=c"];
   from_worker "A" ["done"; "x"; "INTERNAL_ERROR"; "disk"]; tick "600"; from_worker "B" ["ping"]; from_worker "C" ["ping"]; tick "600";
   from_client "u" ["eval"; "v"; "hwgroup=h"; ""]; from_worker "B" ["ping"]; from_worker "C" ["ping"]; tick "1100"; from_client "u" ["get-runtime-stats"];
   from_worker "B" ["done"; "old"; "OK"]; from_client "u" ["eval"; "w"; "env=c"; ""]].

(* A gets x back although z waits for A alone, and is lost with both; C takes y from the pool when it comes, B takes v
   when it is done with the job it came with; w waits. *)
Example C73_example : exists tr s R, run demo_oracle demo_cfg KSingle tr s /\ map ev_in tr = hall_inputs /\
  responded (o_addr demo_oracle) (o_clock demo_oracle) in_time demo_cfg hall_inputs (map ev_out tr) R /\ no_ties demo_oracle /\
  map (fun d => (d_key d, name_of d, option_map (fun k => (k_name k, k_strikes k, k_text k)) (d_now d))) (h_desks (p_hall R)) =
    [(1, "B", Some ("v", 0%N, ["eval"; "v"])); (2, "C", Some ("y", 0%N, ["eval"; "y"]))] /\
  map (fun x => (k_name (fst x), snd x)) (h_pool (p_hall R)) = [("w", 3%Z)] /\
  firstn 2 (skipn 5 (map ev_out tr)) = [[Msg "workers" "C" ["eval"; "y"]]; [Msg "workers" "A" ["eval"; "x"; "url"]]] /\
  skipn 14 (map ev_out tr) =
    [[Msg "status_notifier" "" ["type"; "job-status"; "id"; "x"; "status"; "FAILED"; "message";
        "Job was reassigned too many (1) times. Last failure message was: Worker timed out and its job cannot be reassigned"];
      Msg "monitor" "recodex-monitor" ["x"; "FAILED"]; Msg "monitor" "recodex-monitor" ["z"; "FAILED"];
      Msg "status_notifier" "" ["type"; "job-status"; "id"; "z"; "status"; "FAILED"; "message"; "Worker 41 dieded"]];
     [Msg "clients" "u" ["evaluated-jobs"; "0"; "failed-jobs"; "1"; "idle-worker-count"; "0"; "jobs-in-progress"; "2";
                         "queued-jobs"; "1"; "worker-count"; "2"; "is-frozen"; "0"]];
     [Msg "status_notifier" "" ["type"; "job-status"; "id"; "old"; "status"; "OK"]; Msg "workers" "B" ["eval"; "v"]];
     [Msg "clients" "u" ["ack"]; Msg "clients" "u" ["accept"]]] /\
  doomed (as_ledger R) (from_client "u" ["eval"; "q"; "threads=many"; ""]) [Msg "clients" "u" ["ack"]] InvalidArgument /\
  forall outs f, ~ doomed (as_ledger R) (from_worker "B" ["done"; "v"; "OK"]) outs f.
Proof.
  destruct (exec demo_oracle demo_cfg (start KSingle) hall_inputs) as (tr, [f|s]) eqn:E; [vm_compute in E; discriminate|].
  pose proof (exec_start _ _ _ _ _ _ E) as HR. destruct (C73_hall _ _ _ _ HR) as (R & H1 & H2 & H3 & (q & H4 & H5) & HF).
  exists tr, s, R. split; [exact HR|]. vm_compute in E. injection E as <- <-.
  split; [reflexivity|]. split; [exact H1|]. split; [intros i j; cbn [demo_oracle o_clock]; apply Nat2Z.inj|]. split; [|split; [|split; [reflexivity|split; [reflexivity|split]]]].
  - clear - H3. cbn [s_reg] in H3. inversion H3 as [|d w ds ws (S1 & (S2 & _) & S3 & _) H4 E1 E2]; subst.
    inversion H4 as [|d' w' ds' ws' (T1 & (T2 & _) & T3 & _) H5 E3 E4]; subst. inversion H5; subst.
    destruct d as (key, g, now, line). destruct d' as (key', g', now', line'). cbn [d_key d_guest d_now d_line] in *. unfold name_of. cbn [map d_key d_guest d_now d_line]. rewrite <- S2, S1, <- T2, T1.
    inversion S3 as [|k r (K1 & _ & K2 & K3) X1 X2]. subst. inversion T3 as [|k' r' (K1' & _ & K2' & K3') X1' X2']. subst.
    destruct (K3 eq_refl) as (K4 & _). destruct (K3' eq_refl) as (K4' & _). cbn [option_map]. rewrite <- K1, <- K2, <- K4, <- K1', <- K2', <- K4'. reflexivity.
  - clear - H4 H5. injection H4 as <-. cbn [sq_jobs] in H5. inversion H5 as [|(k, t) e l m ((K1 & _) & K2) H6 E1 E2]; subst. inversion H6; subst.
    cbn [fst snd e_request e_arrived] in *. cbn [map fst snd]. rewrite <- K1, <- K2. reflexivity.
  - apply HF. vm_compute. reflexivity.
  - intros outs f Hd. apply HF in Hd. vm_compute in Hd. discriminate.
Qed.

(* The clock shows the same time for y and z: either may be next. *)
Definition tied_inputs : list msg :=
  [from_worker "A" ["init"; "g"]; from_client "u" ["eval"; "x"; ""]; from_client "u" ["eval"; "y"; ""]; from_client "u" ["eval"; "z"; ""];
   from_client "u" ["eval"; "w"; ""]; from_worker "A" ["done"; "x"; "OK"]].
Definition tied_clock (n : nat) : Z := match n with 2 => 1%Z | _ => 0%Z end.
Example C73_ties_example : forall j, j = "y" \/ j = "z" ->
  exists outss R, responded (o_addr demo_oracle) tied_clock in_time demo_cfg tied_inputs outss R /\
    last outss [] = [Msg "status_notifier" "" ["type"; "job-status"; "id"; "x"; "status"; "OK"]; Msg "workers" "A" ["eval"; j]].
Proof.
  intros j.
  assert (HI : forall o ms s0 tr s, exec o demo_cfg s0 ms = (tr, inr s) -> map ev_in tr = ms).
  { intros o. induction ms as [|m ms IH]; intros s0 tr s E; cbn [exec] in E; [injection E as <- <-; reflexivity|].
    destruct (on_request o demo_cfg m s0) as (outs, [f|([], s1)]); [discriminate|]. destruct (exec o demo_cfg s1 ms) as (tr1, r1) eqn:E1. injection E as <- ->.
    cbn [map ev_in]. rewrite (IH _ _ _ E1). reflexivity. }
  intros Hj.
  assert (HX : exists tie, match exec (mkOracle (o_addr demo_oracle) tied_clock tie) demo_cfg (start KSingle) tied_inputs with
    | (tr, inr s) => last (map ev_out tr) [] = [Msg "status_notifier" "" ["type"; "job-status"; "id"; "x"; "status"; "OK"]; Msg "workers" "A" ["eval"; j]]
    | _ => False end).
  { destruct Hj as [->| ->]; [exists (fun _ i => N.of_nat i)|exists (fun _ i => (9 - N.of_nat i)%N)]; vm_compute; reflexivity. }
  destruct HX as (tie & HX). destruct (exec _ _ _ _) as (tr, [f|s]) eqn:E; [contradiction|].
  pose proof (exec_start _ _ _ _ _ _ E) as HR. destruct (C73_hall _ _ _ _ HR) as (R & H1 & _).
  exists (map ev_out tr), R. split; [|exact HX]. rewrite (HI _ _ _ _ _ E) in H1. exact H1.
Qed.
