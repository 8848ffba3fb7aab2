(* C76. Workers are told apart by their names and nothing else. *)
From Verif Require Import Base Bytes Containers Worker Multi Single Queue Handler SpecText Spec SpecRun SpecMsg SpecOracle SpecAlias AliasRun Demo.
Local Open Scope string_scope.
Local Open Scope list_scope.

(* Call every worker by another name, different ones for different workers: the broker does the same. One queue per
   worker, whatever the environment. *)
Theorem C76_multi : forall alias, (forall i j, alias i = alias j -> i = j) -> forall o o' cfg tr s, run o cfg KMulti tr s ->
  exists tr' s', run o' cfg KMulti tr' s' /\ map ev_in tr' = map (under alias) (map ev_in tr) /\
    Forall2 (Forall2 (readdressed alias)) (map ev_out tr) (map ev_out tr') /\ same_end alias o o' cfg s s'.
Proof. exact alias_multi. Qed.
Print Assumptions C76_multi.

(* One queue for all: in the same environment if the clock never shows the same time twice, *)
Theorem C76_single : forall alias, (forall i j, alias i = alias j -> i = j) -> forall o cfg tr s, no_ties o -> run o cfg KSingle tr s ->
  exists tr' s', run o cfg KSingle tr' s' /\ map ev_in tr' = map (under alias) (map ev_in tr) /\
    Forall2 (Forall2 (readdressed alias)) (map ev_out tr) (map ev_out tr') /\ same_end alias o o cfg s s'.
Proof. exact alias_single_clock. Qed.
Print Assumptions C76_single.

(* and for some results of std::sort otherwise. *)
Theorem C76_single_ties : forall alias, (forall i j, alias i = alias j -> i = j) -> forall o cfg tr s, run o cfg KSingle tr s ->
  exists tie tr' s', run (mkOracle (o_addr o) (o_clock o) tie) cfg KSingle tr' s' /\ map ev_in tr' = map (under alias) (map ev_in tr) /\
    Forall2 (Forall2 (readdressed alias)) (map ev_out tr) (map ev_out tr') /\ same_end alias o (mkOracle (o_addr o) (o_clock o) tie) cfg s s'.
Proof. exact alias_single. Qed.
Print Assumptions C76_single_ties.

(* So clients and the monitor get exactly the same messages. *)
Theorem C76_others : forall alias outss outss', Forall2 (Forall2 (readdressed alias)) outss outss' ->
  map (filter for_others) outss = map (filter for_others) outss'.
Proof. exact others_same. Qed.
Print Assumptions C76_others.

Definition alias_inputs : list msg :=
  [from_worker "A" ["init"; "g"; "env=c"]; from_worker "B" ["init"; "h"; "env=d"; ""; "description=box"];
   from_client "A" ["eval"; "x"; "env=c"; ""; "url"]; from_worker "B" ["init"; "h"; "env=e"]; from_worker "A" ["ping"]; from_worker "C" ["ping"];
   tick "1100"; tick "1100"].
Definition prefixed (i : string) : string := "w-" ++ i.

(* A client may have the name of a worker, and keeps it. *)
Example C76_example : (forall i j, prefixed i = prefixed j -> i = j) /\
  exists tr s tr' s', run demo_oracle demo_cfg KMulti tr s /\ run demo_oracle demo_cfg KMulti tr' s' /\
    map ev_in tr = alias_inputs /\ map ev_in tr' = map (under prefixed) alias_inputs /\
    map ev_out tr =
      [[]; []; [Msg "clients" "A" ["ack"]; Msg "workers" "A" ["eval"; "x"; "url"]; Msg "clients" "A" ["accept"]];
       [Msg "status_notifier" "" ["type"; "error"; "message"; "Received two different INIT messages from the same worker (42 (box))"]];
       [Msg "workers" "A" ["pong"]]; [Msg "workers" "C" ["intro"]]; [];
       [Msg "monitor" "recodex-monitor" ["x"; "FAILED"];
        Msg "status_notifier" "" ["type"; "job-status"; "id"; "x"; "status"; "FAILED"; "message"; "Worker 41 dieded"]]] /\
    map ev_out tr' =
      [[]; []; [Msg "clients" "A" ["ack"]; Msg "workers" "w-A" ["eval"; "x"; "url"]; Msg "clients" "A" ["accept"]];
       [Msg "status_notifier" "" ["type"; "error"; "message"; "Received two different INIT messages from the same worker (772d42 (box))"]];
       [Msg "workers" "w-A" ["pong"]]; [Msg "workers" "w-C" ["intro"]]; [];
       [Msg "monitor" "recodex-monitor" ["x"; "FAILED"];
        Msg "status_notifier" "" ["type"; "job-status"; "id"; "x"; "status"; "FAILED"; "message"; "Worker 772d41 dieded"]]].
Proof.
  split; [intros i j [= H]; exact H|].
  destruct (exec demo_oracle demo_cfg (start KMulti) alias_inputs) as (tr, [f|s]) eqn:E; [vm_compute in E; discriminate|].
  destruct (exec demo_oracle demo_cfg (start KMulti) (map (under prefixed) alias_inputs)) as (tr', [f|s']) eqn:E'; [vm_compute in E'; discriminate|].
  exists tr, s, tr', s'. split; [exact (exec_start _ _ _ _ _ _ E)|]. split; [exact (exec_start _ _ _ _ _ _ E')|].
  vm_compute in E, E'. injection E as <- <-. injection E' as <- <-. split; [reflexivity|split; [reflexivity|]]. split; reflexivity.
Qed.

(* Different workers need different names: if all have the same one, the second to come is taken for the first. *)
Definition everybody (i : string) : string := "A".
Example C76_collision : exists tr s tr' s', run demo_oracle demo_cfg KMulti tr s /\ run demo_oracle demo_cfg KMulti tr' s' /\
  map ev_in tr = firstn 2 alias_inputs /\ map ev_in tr' = map (under everybody) (firstn 2 alias_inputs) /\
  map ev_out tr = [[]; []] /\
  map ev_out tr' = [[]; [Msg "status_notifier" "" ["type"; "error"; "message"; "Received two different INIT messages from the same worker (41)"]]].
Proof.
  destruct (exec demo_oracle demo_cfg (start KMulti) (firstn 2 alias_inputs)) as (tr, [f|s]) eqn:E; [vm_compute in E; discriminate|].
  destruct (exec demo_oracle demo_cfg (start KMulti) (map (under everybody) (firstn 2 alias_inputs))) as (tr', [f|s']) eqn:E'; [vm_compute in E'; discriminate|].
  exists tr, s, tr', s'. split; [exact (exec_start _ _ _ _ _ _ E)|]. split; [exact (exec_start _ _ _ _ _ _ E')|].
  vm_compute in E, E'. injection E as <- <-. injection E' as <- <-. split; [reflexivity|split; [reflexivity|split; reflexivity]].
Qed.
