(* C15, C16, C17, C19: detection of silent workers. *)
From Verif Require Import Base Bytes Containers Worker Multi Single Queue Handler SpecText Spec SpecRun SpecMsg SpecPings
  Pings Demo Detect.
Local Open Scope string_scope.
Local Open Scope list_scope.

(* C15. After any message attributed to worker w, as long as the elapsed times announced by the
   following ticks sum to less than max_liveness * (ping_interval + 1) milliseconds, w is registered,
   whatever other messages (also of w) arrive in between. *)
Theorem C15_communicating_kept : forall o cfg k tr1 e tr2 s w zs,
  run o cfg k (tr1 ++ e :: tr2) s -> hears w e -> ticks tr2 zs ->
  Forall (fun z => 0 <= z)%Z zs -> (1 <= c_max_liveness cfg)%N ->
  (sum zs < Z.of_N (c_max_liveness cfg) * (c_ping_interval cfg + 1))%Z ->
  In w (s_reg s).
Proof. exact communicating_kept. Qed.
Print Assumptions C15_communicating_kept.

(* 2001 ms of silence do not remove A, 2002 ms do (max_liveness 2, interval 1000) *)
Definition ping_then (ts : list string) : list msg :=
  from_worker "A" ["init"; "g"] :: from_worker "A" ["ping"] :: from_worker "B" ["init"; "g"] :: map tick ts.
Definition remain (k : kind) (ts : list string) : option (list string) :=
  option_map (fun s => map w_identity (s_reg s)) (final (exec up_oracle demo_cfg (start k) (ping_then ts))).
Example C15_example :
  remain KSingle ["1001"; "1000"] = Some ["A"; "B"] /\ remain KMulti ["700"; "300"; "1001"] = Some ["A"; "B"] /\
  remain KSingle ["1001"; "1001"] = Some ["B"] /\ remain KMulti ["1001"; "1001"] = Some ["B"].
Proof. vm_compute. auto. Qed.

(* C16. A registered worker that was heard from once and is silent afterwards is not registered any
   more as soon as ticks of at most d ms each sum to more than
   (max_liveness - 1) * (ping_interval + d) + ping_interval. *)
Theorem C16_silent_removed : forall o cfg k tr1 e tr2 s w zs d,
  run o cfg k (tr1 ++ e :: tr2) s -> hears w e -> silent w tr2 -> ticks tr2 zs ->
  Forall (fun z => 0 <= z <= d)%Z zs -> (0 <= d)%Z -> (0 <= c_ping_interval cfg)%Z -> (1 <= c_max_liveness cfg)%N ->
  (Z.of_N (c_max_liveness cfg - 1) * (c_ping_interval cfg + d) + c_ping_interval cfg < sum zs)%Z ->
  ~ In w (s_reg s).
Proof. exact silent_removed. Qed.
Print Assumptions C16_silent_removed.

(* ticks of 600 ms: A is gone once they sum to more than 1600 + 1000; not after 1800, where the
   interval has been exceeded only once *)
Example C16_example :
  remain KSingle ["600"; "600"; "600"] = Some ["A"; "B"] /\
  remain KSingle ["600"; "600"; "600"; "600"; "600"] = Some ["B"] /\
  remain KMulti ["600"; "600"; "600"; "600"; "600"] = Some ["B"].
Proof. vm_compute. auto. Qed.

(* C17. Silence directly after registration: a worker that registers and then sends nothing is still
   registered after fewer than 2^64 ticks, whatever they announce; the same happens after any message
   of a worker when max_liveness is 0. *)
Theorem C17_fresh_silence : forall o cfg k tr1 e tr2 s w zs,
  run o cfg k (tr1 ++ e :: tr2) s -> enters w e -> silent w tr2 -> ticks tr2 zs ->
  (N.of_nat (length zs) < two64)%N -> In w (s_reg s).
Proof. exact fresh_silence. Qed.
Print Assumptions C17_fresh_silence.

Theorem C17_zero_liveness : forall o cfg k tr1 e tr2 s w zs,
  c_max_liveness cfg = 0%N -> run o cfg k (tr1 ++ e :: tr2) s -> hears w e -> silent w tr2 -> ticks tr2 zs ->
  (N.of_nat (length zs) < two64)%N -> In w (s_reg s).
Proof. exact zero_liveness_silence. Qed.
Print Assumptions C17_zero_liveness.

(* Hence bounded detection is false for workers that have only registered. *)
Theorem C17_detection_refuted : forall k, ~ (forall o cfg tr1 e tr2 s w zs d,
  run o cfg k (tr1 ++ e :: tr2) s -> enters w e -> silent w tr2 -> ticks tr2 zs ->
  Forall (fun z => 0 <= z <= d)%Z zs -> (0 <= d)%Z -> (0 <= c_ping_interval cfg)%Z -> (1 <= c_max_liveness cfg)%N ->
  (Z.of_N (c_max_liveness cfg) * (c_ping_interval cfg + d) < sum zs)%Z ->
  ~ In w (s_reg s)).
Proof. exact fresh_silence_refuted. Qed.
Print Assumptions C17_detection_refuted.

(* A is heard from after its registration, B is not *)
Example C17_example :
  remain KSingle (repeat "5000" 6) = Some ["B"] /\ remain KMulti (repeat "5000" 6) = Some ["B"] /\
  option_map (fun s => map w_identity (s_reg s))
    (final (exec up_oracle (mkConfig 0 2 1000) (start KSingle) (ping_then (repeat "5000" 6)))) = Some ["A"; "B"].
Proof. vm_compute. auto. Qed.

(* C19. A tick can send a job to a worker that the same tick removes... *)
Theorem C19_survivors_refuted : forall k, ~ (forall o cfg tr1 e tr2 s,
  run o cfg k (tr1 ++ e :: tr2) s -> m_key (ev_in e) = "timer" ->
  forall out rest, In out (ev_out e) -> m_key out = "workers" -> m_data out = "eval" :: rest ->
  exists w, In w (s_reg (ev_post e)) /\ w_identity w = m_ident out).
Proof. exact survivors_refuted. Qed.
Print Assumptions C19_survivors_refuted.

(* ... so that a job dispatched once before the tick, with two failures allowed and an idle capable
   worker surviving, can be reported as failed. *)
Theorem C19_extra_failure_refuted : forall k, ~ (forall o cfg tr1 e tr2 s r w,
  run o cfg k (tr1 ++ e :: tr2) s -> m_key (ev_in e) = "timer" ->
  (2 <= c_max_failures cfg)%N -> In r (held (s_queue (ev_pre e))) -> dispatches (r_job r) tr1 = 1 ->
  In w (s_reg (ev_post e)) -> capable w r -> owned (s_queue (ev_pre e)) w = [] ->
  forall d, ~ In (failed_report (r_job r) d) (ev_out e)).
Proof. exact extra_failure_refuted. Qed.
Print Assumptions C19_extra_failure_refuted.

Example C19_example : forall k,
  (let e := event_at (exec up_oracle demo_cfg (start k) doomed_inputs) 13 in
   (map w_identity (s_reg (ev_pre e)), map w_identity (s_reg (ev_post e)),
    map (fun m => (m_key m, m_ident m)) (ev_out e), list_count (is_report "x") (ev_out e))) =
  (["A"; "B"; "C"], ["C"],
   [("workers", "B"); ("monitor", "recodex-monitor"); ("status_notifier", ""); ("monitor", "recodex-monitor")], 1).
Proof. intros []; vm_compute; reflexivity. Qed.
