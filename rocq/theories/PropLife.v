(* C70. Between two ticks it does not matter when a sign of life of a worker is received. *)
From Verif Require Import Base Bytes Containers Worker Multi Single Queue Handler SpecText Spec SpecRun SpecMsg SpecLife Life Demo.
Local Open Scope string_scope.
Local Open Scope list_scope.

(* A sign of life e moves past the messages of tr2, none of them a tick or an introduction of the same worker: there is an
   execution in which all messages are answered as before, including all of the rest, and which ends knowing the same. *)
Theorem C70_swap : forall o cfg k tr1 e tr2 tr3 s, run o cfg k (tr1 ++ e :: tr2 ++ tr3) s -> sign_of_life (ev_in e) ->
  (forall x, In x tr2 -> passes (m_ident (ev_in e)) (ev_in x)) ->
  exists tr' s', run o cfg k tr' s' /\ map told tr' = map told tr1 ++ map told tr2 ++ told e :: map told tr3 /\ same_knowledge s s'.
Proof. exact run_swap. Qed.
Print Assumptions C70_swap.

(* A sign of life neither causes nor prevents a crash on the next message, unless that is a tick. *)
Theorem C70_crash : forall o cfg p m s op s1 outs f, sign_of_life p -> m_key m <> "timer" -> on_request o cfg p s = (op, inr (tt, s1)) ->
  (crashes o cfg s1 m outs f <-> crashes o cfg s m outs f).
Proof. exact crash_swap. Qed.
Print Assumptions C70_crash.

Definition life_before : list msg := [from_worker "A" ["init"; "g"; "env=c"]; from_worker "A" ["ping"]; tick "600"].
Definition life_between : list msg :=
  [from_client "u" ["eval"; "x"; "env=c"; ""]; from_worker "B" ["init"; "g"; "env=c"]; from_worker "A" ["done"; "x"; "OK"]; from_client "u" ["freeze"]].
Definition life_after : list msg := [tick "600"; tick "600"; from_worker "B" ["ping"]].

Example C70_example : exists tr1 tr2 s1 s2,
  run demo_oracle demo_cfg KSingle tr1 s1 /\ map ev_in tr1 = life_before ++ from_worker "A" ["ping"] :: life_between ++ life_after /\
  run demo_oracle demo_cfg KSingle tr2 s2 /\ map ev_in tr2 = life_before ++ life_between ++ from_worker "A" ["ping"] :: life_after /\
  sign_of_life (from_worker "A" ["ping"]) /\ Forall (passes "A") life_between /\
  nth_error (map ev_out tr1) 3 = Some [Msg "workers" "A" ["pong"]] /\ nth_error (map ev_out tr2) 7 = Some [Msg "workers" "A" ["pong"]] /\
  skipn 8 (map ev_out tr1) = skipn 8 (map ev_out tr2) /\ length (s_reg s1) = 2.
Proof.
  destruct (exec demo_oracle demo_cfg (start KSingle) (life_before ++ from_worker "A" ["ping"] :: life_between ++ life_after)) as (tr1, [f|s1]) eqn:E1; [vm_compute in E1; discriminate|].
  destruct (exec demo_oracle demo_cfg (start KSingle) (life_before ++ life_between ++ from_worker "A" ["ping"] :: life_after)) as (tr2, [f|s2]) eqn:E2; [vm_compute in E2; discriminate|].
  exists tr1, tr2, s1, s2. split; [exact (exec_start _ _ _ _ _ _ E1)|].
  vm_compute in E1. injection E1 as <- <-. split; [reflexivity|]. split; [exact (exec_start _ _ _ _ _ _ E2)|].
  vm_compute in E2. injection E2 as <- <-. split; [reflexivity|].
  split; [split; [reflexivity|]; exists "ping", []; repeat split; discriminate|].
  split; [repeat constructor; try discriminate; intros; discriminate|]. repeat split.
Qed.

(* Past a tick: the worker is forgotten if its ping comes too late. *)
Theorem C70_tick_refuted : exists tr1 tr2 s1 s2 e1 e2 t,
  run demo_oracle demo_cfg KMulti (tr1 ++ [e1; t]) s1 /\ run demo_oracle demo_cfg KMulti (tr2 ++ [e2]) s2 /\
  sign_of_life (ev_in e1) /\ map ev_in tr2 = map ev_in tr1 ++ [ev_in t] /\ ev_in e2 = ev_in e1 /\
  ev_out e1 = [Msg "workers" "A" ["pong"]] /\ ev_out e2 = [Msg "workers" "A" ["intro"]].
Proof.
  destruct (exec demo_oracle demo_cfg (start KMulti) ([from_worker "A" ["init"; "g"]; from_worker "A" ["ping"]; tick "1500"] ++ [from_worker "A" ["ping"]; tick "1500"])) as (tr1, [f|s1]) eqn:E1; [vm_compute in E1; discriminate|].
  destruct (exec demo_oracle demo_cfg (start KMulti) ([from_worker "A" ["init"; "g"]; from_worker "A" ["ping"]; tick "1500"; tick "1500"] ++ [from_worker "A" ["ping"]])) as (tr2, [f|s2]) eqn:E2; [vm_compute in E2; discriminate|].
  pose proof (exec_start _ _ _ _ _ _ E1) as R1. pose proof (exec_start _ _ _ _ _ _ E2) as R2.
  vm_compute in E1. injection E1 as <- <-. vm_compute in E2. injection E2 as <- <-.
  match type of R1 with run _ _ _ [?a; ?b; ?c; ?d; ?e] ?s => match type of R2 with run _ _ _ [?a'; ?b'; ?c'; ?d'; ?e'] ?s' =>
    exists [a; b; c], [a'; b'; c'; d'], s, s', d, e', e end end.
  split; [exact R1|]. split; [exact R2|]. split; [split; [reflexivity|]; exists "ping", []; repeat split; discriminate|]. repeat split.
Qed.
Print Assumptions C70_tick_refuted.

(* Past its own introduction: the worker is asked to introduce itself, or not. *)
Theorem C70_introduction_refuted : exists e1 e2 f1 f2 s1 s2,
  run demo_oracle demo_cfg KMulti [e1; e2] s1 /\ run demo_oracle demo_cfg KMulti [f1; f2] s2 /\
  sign_of_life (ev_in e1) /\ ev_in f1 = ev_in e2 /\ ev_in f2 = ev_in e1 /\
  ev_out e1 = [Msg "workers" "A" ["intro"]] /\ ev_out f2 = [Msg "workers" "A" ["pong"]].
Proof.
  destruct (exec demo_oracle demo_cfg (start KMulti) [from_worker "A" ["ping"]; from_worker "A" ["init"; "g"]]) as (tr1, [f|s1]) eqn:E1; [vm_compute in E1; discriminate|].
  destruct (exec demo_oracle demo_cfg (start KMulti) [from_worker "A" ["init"; "g"]; from_worker "A" ["ping"]]) as (tr2, [f|s2]) eqn:E2; [vm_compute in E2; discriminate|].
  pose proof (exec_start _ _ _ _ _ _ E1) as R1. pose proof (exec_start _ _ _ _ _ _ E2) as R2.
  vm_compute in E1. injection E1 as <- <-. vm_compute in E2. injection E2 as <- <-.
  match type of R1 with run _ _ _ [?a; ?b] ?s => match type of R2 with run _ _ _ [?a'; ?b'] ?s' => exists a, b, a', b', s, s' end end.
  split; [exact R1|]. split; [exact R2|]. split; [split; [reflexivity|]; exists "ping", []; repeat split; discriminate|]. repeat split.
Qed.
Print Assumptions C70_introduction_refuted.
