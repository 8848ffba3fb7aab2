(* C53: what the broker's environment can influence beside the messages it sends. *)
From Coq Require Import Lia.
From Verif Require Import Base Bytes Containers Worker Multi Single Queue Handler SpecText Spec SpecOracle Demo Oracle OracleRun.
Local Open Scope string_scope.
Local Open Scope list_scope.

(* With a queue per worker the broker is a function of the messages received: neither the addresses of
   objects nor the clock nor std::sort influence what it sends. *)
Theorem C53_multi : forall o1 o2 cfg tr1 s1 tr2 s2, run o1 cfg KMulti tr1 s1 -> run o2 cfg KMulti tr2 s2 ->
  map ev_in tr1 = map ev_in tr2 -> map ev_out tr1 = map ev_out tr2.
Proof. exact multi_determined. Qed.
Print Assumptions C53_multi.

(* What can happen in one environment can happen in any. *)
Theorem C53_multi_run : forall o1 o2 cfg tr s, run o1 cfg KMulti tr s ->
  exists tr' s', run o2 cfg KMulti tr' s' /\ seen tr' = seen tr.
Proof. exact multi_environment. Qed.
Print Assumptions C53_multi_run.

(* And so do the crashes. *)
Theorem C53_multi_crash : forall o1 o2 cfg tr s m outs f, run o1 cfg KMulti tr s -> crashes o1 cfg s m outs f ->
  exists tr' s', run o2 cfg KMulti tr' s' /\ seen tr' = seen tr /\ crashes o2 cfg s' m outs f.
Proof. exact multi_environment_crash. Qed.
Print Assumptions C53_multi_crash.

(* With a single queue, only the order of the addresses and of the clock readings matters, and the way
   std::sort leaves equal elements only when the clock returns the same value twice. *)
Theorem C53_single_run : forall o1 o2 cfg tr s, same_addresses o1 o2 -> same_clocks o1 o2 -> no_ties o1 \/ same_ties o1 o2 ->
  run o1 cfg KSingle tr s -> exists tr' s', run o2 cfg KSingle tr' s' /\ seen tr' = seen tr.
Proof. exact single_environment. Qed.
Print Assumptions C53_single_run.
Theorem C53_single_crash : forall o1 o2 cfg tr s m outs f, same_addresses o1 o2 -> same_clocks o1 o2 -> no_ties o1 \/ same_ties o1 o2 ->
  run o1 cfg KSingle tr s -> crashes o1 cfg s m outs f ->
  exists tr' s', run o2 cfg KSingle tr' s' /\ seen tr' = seen tr /\ crashes o2 cfg s' m outs f.
Proof. exact single_environment_crash. Qed.
Print Assumptions C53_single_crash.

(* Three environments: workers allocated upwards; a clock that stands still; a clock that runs backwards. *)
Definition env_up : oracle := mkOracle N.of_nat Z.of_nat (fun _ r => N.of_nat r).
Definition env_frozen : oracle := mkOracle N.of_nat (fun _ => 0%Z) (fun _ r => N.of_nat r).
Definition env_frozen' : oracle := mkOracle N.of_nat (fun _ => 0%Z) (fun _ r => N.of_nat (100 - r)).
Definition env_back : oracle := mkOracle N.of_nat (fun n => (- Z.of_nat n)%Z) (fun _ r => N.of_nat r).

(* like the first, but with other numbers in the same order *)
Definition env_other : oracle := mkOracle (fun n => (7 + 16 * N.of_nat n)%N) (fun n => (5 * Z.of_nat n - 1000)%Z) (fun _ r => N.of_nat (100 - r)).
Ltac env := intros ? *; unfold env_up, env_frozen, env_frozen', env_back, env_other, demo_oracle; cbn [o_addr o_clock o_tie]; lia.

Definition env_inputs : list msg :=
  [from_worker "A" ["init"; "g"; "env=c"]; from_worker "B" ["init"; "g"; "env=c"];
   from_client "u" ["eval"; "j1"; "env=c"; ""]; from_client "u" ["eval"; "j2"; "env=c"; ""];
   from_client "u" ["eval"; "j3"; "env=c"; ""]; from_client "u" ["eval"; "j4"; "env=c"; ""];
   from_worker "A" ["done"; "j1"; "OK"]; from_worker "A" ["done"; "j2"; "OK"]; tick "2500"].

(* the same outputs with a queue per worker, in all of them *)
Example C53_example_multi : forall o, In o [demo_oracle; env_up; env_frozen; env_frozen'; env_back] ->
  outputs (exec o demo_cfg (start KMulti) env_inputs) = outputs (exec demo_oracle demo_cfg (start KMulti) env_inputs) /\
  length (outputs (exec o demo_cfg (start KMulti) env_inputs)) = 9 /\
  nth 7 (outputs (exec o demo_cfg (start KMulti) env_inputs)) [] =
    [Msg "status_notifier" "" ["type"; "job-status"; "id"; "j2"; "status"; "OK"]; Msg "workers" "A" ["eval"; "j4"]].
Proof. intros o H. repeat (destruct H as [<-|H]; [split; [|split]; vm_compute; reflexivity|]). contradiction. Qed.

(* with a single queue, the same outputs where the orders agree *)
Example C53_example_single : same_addresses env_up env_other /\ same_clocks env_up env_other /\ no_ties env_up /\ ~ same_ties env_up env_other /\
  outputs (exec env_other demo_cfg (start KSingle) env_inputs) = outputs (exec env_up demo_cfg (start KSingle) env_inputs) /\
  length (outputs (exec env_up demo_cfg (start KSingle) env_inputs)) = 9.
Proof.
  split; [env|]. split; [env|]. split; [env|].
  split; [intros H; specialize (H 0 0 1); vm_compute in H; destruct H as (H & _); apply H; [intros E; discriminate E|reflexivity]|]. split; vm_compute; reflexivity.
Qed.

(* With a single queue each of the three does influence what is sent. Only the order of the addresses differs
   below, and another worker gets the first job; *)
Example C53_addresses_refuted : exists o1 o2 ms, same_clocks o1 o2 /\ no_ties o1 /\ same_ties o1 o2 /\
  nth 2 (outputs (exec o1 demo_cfg (start KSingle) ms)) [] = [Msg "clients" "u" ["ack"]; Msg "workers" "A" ["eval"; "j1"]; Msg "clients" "u" ["accept"]] /\
  nth 2 (outputs (exec o2 demo_cfg (start KSingle) ms)) [] = [Msg "clients" "u" ["ack"]; Msg "workers" "B" ["eval"; "j1"]; Msg "clients" "u" ["accept"]].
Proof.
  exists env_up, demo_oracle, env_inputs. split; [env|]. split; [env|]. split; [env|].
  split; vm_compute; reflexivity.
Qed.
(* only the clock, and another job is next; *)
Example C53_clock_refuted : exists o1 o2 ms, same_addresses o1 o2 /\ no_ties o1 /\ no_ties o2 /\ same_ties o1 o2 /\
  nth 6 (outputs (exec o1 demo_cfg (start KSingle) ms)) [] =
    [Msg "status_notifier" "" ["type"; "job-status"; "id"; "j1"; "status"; "OK"]; Msg "workers" "A" ["eval"; "j3"]] /\
  nth 6 (outputs (exec o2 demo_cfg (start KSingle) ms)) [] =
    [Msg "status_notifier" "" ["type"; "job-status"; "id"; "j1"; "status"; "OK"]; Msg "workers" "A" ["eval"; "j4"]].
Proof.
  exists env_up, env_back, env_inputs. split; [env|]. split; [env|]. split; [env|].
  split; [env|]. split; vm_compute; reflexivity.
Qed.
(* only the result of std::sort on equal times, and another job is next. *)
Example C53_ties_refuted : exists o1 o2 ms, same_addresses o1 o2 /\ same_clocks o1 o2 /\
  nth 6 (outputs (exec o1 demo_cfg (start KSingle) ms)) [] =
    [Msg "status_notifier" "" ["type"; "job-status"; "id"; "j1"; "status"; "OK"]; Msg "workers" "A" ["eval"; "j3"]] /\
  nth 6 (outputs (exec o2 demo_cfg (start KSingle) ms)) [] =
    [Msg "status_notifier" "" ["type"; "job-status"; "id"; "j1"; "status"; "OK"]; Msg "workers" "A" ["eval"; "j4"]].
Proof.
  exists env_frozen, env_frozen', env_inputs. split; [env|]. split; [env|]. split; vm_compute; reflexivity.
Qed.
