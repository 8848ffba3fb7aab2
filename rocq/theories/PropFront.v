(* C68. Two brokers that hear the same messages give clients the same answers and know the same workers, whichever queue
   managers, failure limits and machines they run with. *)
From Verif Require Import Base Bytes Containers Worker Multi Single Queue Handler SpecText Spec SpecRun SpecMsg SpecFront Front Demo.
Local Open Scope string_scope.
Local Open Scope list_scope.

(* The environments (memory addresses, clocks, random numbers), the queue managers and the failure limits may differ. *)
Theorem C68_front : forall o1 o2 c1 c2 k1 k2 tr1 tr2 s1 s2, same_pings c1 c2 ->
  run o1 c1 k1 tr1 s1 -> run o2 c2 k2 tr2 s2 -> map ev_in tr1 = map ev_in tr2 ->
  map answers tr1 = map answers tr2 /\ same_front s1 s2.
Proof. exact front_alike. Qed.
Print Assumptions C68_front.

Definition front_inputs : list msg :=
  [from_worker "A" ["init"; "g"; "env=c"]; from_worker "B" ["init"; "g"; "env=c"; ""; "description=box"];
   from_client "u" ["eval"; "x"; "env=c"; ""]; from_client "u" ["eval"; "y"; "env=c"; ""];
   from_client "u" ["eval"; "z"; "env=c"; ""]; from_client "u" ["eval"; "v"; "env=java"; ""];
   from_worker "A" ["done"; "y"; "OK"]; from_worker "A" ["ping"]; tick "1500"; tick "1500"; from_worker "B" ["ping"]].

(* The third job goes to A once A is free, or waits for B, depending on the queue manager; the fourth one is refused;
   A is forgotten. Handovers differ, so the theorem compares two different executions. *)
Example C68_example : exists tr1 tr2 s1 s2,
  run demo_oracle demo_cfg KSingle tr1 s1 /\ run demo_oracle (mkConfig 2 7 1000) KMulti tr2 s2 /\
  map ev_in tr1 = front_inputs /\ map ev_in tr2 = front_inputs /\
  map ev_out tr1 <> map ev_out tr2 /\ map (entry_of s1) (s_reg s1) = [("B", "g", [("env", "c")], "box", 2%N, Some 0%Z)] /\
  nth_error (map answers tr1) 5 = Some [Msg "clients" "u" ["ack"];
    Msg "clients" "u" ["reject"; "No worker available for given headers: env=java; "]].
Proof.
  destruct (exec demo_oracle demo_cfg (start KSingle) front_inputs) as (tr1, [f|s1]) eqn:E1; [vm_compute in E1; discriminate|].
  destruct (exec demo_oracle (mkConfig 2 7 1000) (start KMulti) front_inputs) as (tr2, [f|s2]) eqn:E2; [vm_compute in E2; discriminate|].
  exists tr1, tr2, s1, s2. split; [exact (exec_start _ _ _ _ _ _ E1)|]. split; [exact (exec_start _ _ _ _ _ _ E2)|].
  vm_compute in E1. injection E1 as <- <-. vm_compute in E2. injection E2 as <- <-.
  split; [reflexivity|]. split; [reflexivity|]. split; [vm_compute; discriminate|]. split; vm_compute; reflexivity.
Qed.

(* One and the same message can kill one of the brokers and not the other: with one queue per worker A has nothing to report. *)
Theorem C68_crash_together_refuted : exists tr1 tr2 s1 s2 m s1' outs1 outs2 f,
  run demo_oracle demo_cfg KSingle tr1 s1 /\ run demo_oracle demo_cfg KMulti tr2 s2 /\ map ev_in tr1 = map ev_in tr2 /\
  on_request demo_oracle demo_cfg m s1 = (outs1, inr (tt, s1')) /\ crashes demo_oracle demo_cfg s2 m outs2 f.
Proof.
  destruct (exec demo_oracle demo_cfg (start KSingle) (firstn 7 front_inputs)) as (tr1, [f|s1]) eqn:E1; [vm_compute in E1; discriminate|].
  destruct (exec demo_oracle demo_cfg (start KMulti) (firstn 7 front_inputs)) as (tr2, [f|s2]) eqn:E2; [vm_compute in E2; discriminate|].
  destruct (on_request demo_oracle demo_cfg (from_worker "A" ["done"; "z"; "OK"]) s1) as (outs1, [f|([], s1')]) eqn:E3;
    [vm_compute in E1; injection E1 as _ <-; vm_compute in E3; discriminate|].
  exists tr1, tr2, s1, s2, (from_worker "A" ["done"; "z"; "OK"]), s1', outs1, [], NullDeref.
  split; [exact (exec_start _ _ _ _ _ _ E1)|]. split; [exact (exec_start _ _ _ _ _ _ E2)|].
  vm_compute in E1. injection E1 as <- <-. vm_compute in E2. injection E2 as <- <-.
  split; [reflexivity|]. split; [exact E3|]. vm_compute. reflexivity.
Qed.
Print Assumptions C68_crash_together_refuted.
