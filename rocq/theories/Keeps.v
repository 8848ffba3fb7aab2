(* Which parts of the state a piece of handler code leaves alone. *)
From Verif Require Import Base Bytes Containers Worker Multi Single Queue Handler Spec HandlerSim.
Local Open Scope string_scope.
Local Open Scope list_scope.

Definition keeps {X A} (f : state -> X) (m : M A) : Prop :=
  forall s outs a s', m s = (outs, inr (a, s')) -> f s' = f s.

Section Keeps.
Context {X : Type} (f : state -> X).

Lemma keeps_bind {A B} (m : M A) (k : A -> M B) : keeps f m -> (forall a, keeps f (k a)) -> keeps f (bind m k).
Proof.
  intros Hm Hk s outs b s' H. apply bind_inv in H. destruct H as (o1 & a & s1 & o2 & H1 & H2 & _).
  rewrite (Hk a _ _ _ _ H2). exact (Hm _ _ _ _ H1).
Qed.
Lemma keeps_ret {A} (a : A) : keeps f (ret a).
Proof. intros s outs b s' H. minv. reflexivity. Qed.
Lemma keeps_get : keeps f get.
Proof. intros s outs b s' H. minv. reflexivity. Qed.
Lemma keeps_fail {A} e : keeps f (@fail A e).
Proof. intros s outs b s' H. discriminate. Qed.
Lemma keeps_respond m : keeps f (respond m).
Proof. intros s outs b s' H. minv. reflexivity. Qed.
Lemma keeps_lift {A} (x : res A) : keeps f (lift x).
Proof. intros s outs b s' H. minv. reflexivity. Qed.
Lemma keeps_at v i : keeps f (at_ v i).
Proof. intros s outs b s' H. minv. reflexivity. Qed.
Lemma keeps_modify g : (forall s, f (g s) = f s) -> keeps f (modify g).
Proof. intros Hg s outs b s' H. minv. apply Hg. Qed.
Lemma keeps_queue_call {A} (g : manager -> res (A * manager)) : (forall m s, f (set_queue m s) = f s) -> keeps f (queue_call g).
Proof. intros Hg s outs b s' H. minv. apply Hg. Qed.
End Keeps.

Ltac keep :=
  repeat (intros; cbv zeta; lazymatch goal with
  | |- keeps _ (bind _ _) => apply keeps_bind
  | |- keeps _ (ret _) => apply keeps_ret
  | |- keeps _ get => apply keeps_get
  | |- keeps _ (fail _) => apply keeps_fail
  | |- keeps _ (respond _) => apply keeps_respond
  | |- keeps _ (lift _) => apply keeps_lift
  | |- keeps _ (at_ _ _) => apply keeps_at
  | |- keeps _ (modify _) => apply keeps_modify; intros; reflexivity
  | |- keeps _ (queue_call _) => apply keeps_queue_call; intros; reflexivity
  | |- keeps _ (let '(_, _) := ?x in _) => destruct x
  | |- keeps _ (match ?x with _ => _ end) => destruct x
  | |- keeps _ _ => solve [auto]
  end).

Section WithConfig.
Context (o : oracle) (cfg : config).

(* ping bookkeeping, statistics, frozen flag *)
Definition pings (s : state) := (s_live s, s_timers s).

Ltac keep_loop ws := induction ws as [|? ? ?IH]; simpl; unfold check_failure_count, reassign_request, rejected_job, job_failed,
  notify_monitor, send_request, failures_incr; keep.

Lemma expire_requests_pings rs : keeps pings (expire_requests o cfg rs).
Proof. keep_loop rs. Qed.
Lemma reject_all_pings d rs : keeps pings (reject_all d rs).
Proof. keep_loop rs. Qed.
Lemma expire_workers_pings ws : keeps pings (expire_workers o cfg ws).
Proof.
  pose proof expire_requests_pings as H1. pose proof reject_all_pings as H2.
  induction ws as [|w ws IH]; simpl; unfold failures_incr; keep.
Qed.
Lemma count_idle_pings ws : keeps pings (count_idle ws).
Proof. induction ws; simpl; unfold stat_incr; keep. Qed.
Lemma expire_requests_stats rs : keeps s_stats (expire_requests o cfg rs).
Proof. keep_loop rs. Qed.
Lemma reject_all_stats d rs : keeps s_stats (reject_all d rs).
Proof. keep_loop rs. Qed.
Lemma expire_workers_stats ws : keeps s_stats (expire_workers o cfg ws).
Proof.
  pose proof expire_requests_stats as H1. pose proof reject_all_stats as H2.
  induction ws as [|w ws IH]; simpl; unfold failures_incr; keep.
Qed.
Lemma timer_scan_stats t ws : keeps s_stats (timer_scan cfg t ws).
Proof. induction ws; simpl; keep. Qed.
Lemma expire_requests_frozen rs : keeps s_frozen (expire_requests o cfg rs).
Proof. keep_loop rs. Qed.
Lemma reject_all_frozen d rs : keeps s_frozen (reject_all d rs).
Proof. keep_loop rs. Qed.
Lemma expire_workers_frozen ws : keeps s_frozen (expire_workers o cfg ws).
Proof.
  pose proof expire_requests_frozen as H1. pose proof reject_all_frozen as H2.
  induction ws as [|w ws IH]; simpl; unfold failures_incr; keep.
Qed.
Lemma timer_scan_frozen t ws : keeps s_frozen (timer_scan cfg t ws).
Proof. induction ws; simpl; keep. Qed.
Lemma count_idle_frozen ws : keeps s_frozen (count_idle ws).
Proof. induction ws; simpl; unfold stat_incr; keep. Qed.

Lemma process_timer_frozen m : keeps s_frozen (process_timer o cfg m).
Proof.
  pose proof timer_scan_frozen as H1. pose proof expire_workers_frozen as H2. pose proof count_idle_frozen as H3.
  unfold process_timer, stat_set. keep.
Qed.
Lemma init_frozen i d : keeps s_frozen (process_worker_init o i d).
Proof. unfold process_worker_init, send_if, send_request, notify_error. keep. Qed.
Lemma done_frozen i d : keeps s_frozen (process_worker_done o cfg i d).
Proof.
  unfold process_worker_done, check_failure_count, reassign_request, send_if, send_request, rejected_job, job_failed, job_done,
    notify_monitor, failures_incr, stat_incr. keep.
Qed.
Lemma eval_frozen i d : keeps s_frozen (process_client_eval o i d).
Proof. unfold process_client_eval, send_request, notify_monitor. keep. Qed.
Lemma done_pings i d : keeps pings (process_worker_done o cfg i d).
Proof.
  unfold process_worker_done, check_failure_count, reassign_request, send_if, send_request, rejected_job, job_failed, job_done,
    notify_monitor, failures_incr, stat_incr. keep.
Qed.
Lemma eval_pings i d : keeps pings (process_client_eval o i d).
Proof. unfold process_client_eval, send_request, notify_monitor. keep. Qed.
Lemma init_live i d : keeps s_live (process_worker_init o i d).
Proof. unfold process_worker_init, send_if, send_request, notify_error. keep. Qed.
Lemma init_keeps_stats i d : keeps s_stats (process_worker_init o i d).
Proof. unfold process_worker_init, send_if, send_request, notify_error. keep. Qed.
Lemma eval_stats i d : keeps s_stats (process_client_eval o i d).
Proof. unfold process_client_eval, send_request, notify_monitor. keep. Qed.

End WithConfig.
