(* What a message does depends on the order of ties only in the sorts it performs. *)
From Coq Require Import Lia.
From Verif Require Import Base Bytes Containers Worker Multi Single Queue Handler Spec SpecRun Facts.
Local Open Scope string_scope.
Local Open Scope list_scope.

(* the number of sorts so far *)
Definition sorts_of (m : manager) : nat := match m with QSingle q => sq_sorts q | QMulti _ => 0 end.

Definition local {A} (act : oracle -> M A) : Prop := forall rank clock t1 s outs a s', act (mkOracle rank clock t1) s = (outs, inr (a, s')) ->
  sorts_of (s_queue s) <= sorts_of (s_queue s') /\
  forall t2, (forall k, sorts_of (s_queue s) <= k < sorts_of (s_queue s') -> t1 k = t2 k) -> act (mkOracle rank clock t2) s = (outs, inr (a, s')).
(* the same for a call on the queue manager *)
Definition qlocal {A} (f : oracle -> manager -> res (A * manager)) : Prop := forall rank clock t1 m a m', f (mkOracle rank clock t1) m = Val (a, m') ->
  sorts_of m <= sorts_of m' /\
  forall t2, (forall k, sorts_of m <= k < sorts_of m' -> t1 k = t2 k) -> f (mkOracle rank clock t2) m = Val (a, m').

Lemma local_bind {A B} (m : oracle -> M A) (f : oracle -> A -> M B) : local m -> (forall a, local (fun o => f o a)) -> local (fun o => bind (m o) (f o)).
Proof.
  intros H1 H2 rank clock t1 s outs b s' H. unfold bind in *. destruct (m (mkOracle rank clock t1) s) as (o1, [e|(a, s1)]) eqn:E1; [discriminate|].
  destruct (f (mkOracle rank clock t1) a s1) as (o2, r) eqn:E2. injection H as <- ->. destruct (H1 _ _ _ _ _ _ _ E1) as (L1 & K1). destruct (H2 a _ _ _ _ _ _ _ E2) as (L2 & K2).
  split; [lia|]. intros t2 HT. rewrite (K1 t2) by (intros; apply HT; lia). rewrite (K2 t2) by (intros; apply HT; lia). reflexivity.
Qed.
(* actions that do not sort *)
Lemma local_still {A} (act : (nat -> N) -> (nat -> Z) -> M A) :
  (forall rank clock s outs a s', act rank clock s = (outs, inr (a, s')) -> s_queue s' = s_queue s) -> local (fun o => act (o_addr o) (o_clock o)).
Proof. intros HS rank clock t1 s outs a s' H. cbn [o_addr o_clock] in *. rewrite (HS _ _ _ _ _ _ H). split; [lia|]. intros t2 _. exact H. Qed.
Lemma local_ret {A} (a : A) : local (fun _ => ret a).
Proof. apply (local_still (fun _ _ => ret a)). intros ? ? s outs b s' H. injection H as <- <- <-. reflexivity. Qed.
Lemma local_fail {A} f : local (fun _ => @fail A f).
Proof. intros ? ? ? s outs b s' H. discriminate. Qed.
Lemma local_get : local (fun _ => get).
Proof. apply (local_still (fun _ _ => get)). intros ? ? s outs b s' H. injection H as <- <- <-. reflexivity. Qed.
Lemma local_respond m : local (fun _ => respond m).
Proof. apply (local_still (fun _ _ => respond m)). intros ? ? s outs b s' H. injection H as <- <- <-. reflexivity. Qed.
Lemma local_modify f : (forall s, s_queue (f s) = s_queue s) -> local (fun _ => modify f).
Proof. intros HQ. apply (local_still (fun _ _ => modify f)). intros ? ? s outs b s' H. injection H as <- <- <-. apply HQ. Qed.
Lemma local_lift {A} (x : (nat -> N) -> res A) : local (fun o => lift (x (o_addr o))).
Proof. apply (local_still (fun rank _ => lift (x rank))). intros rank ? s outs b s' H. destruct (x rank); [|discriminate]. injection H as <- <- <-. reflexivity. Qed.
Lemma local_at v i : local (fun _ => at_ v i).
Proof. unfold at_. destruct (nth_error v i); [apply local_ret|apply local_fail]. Qed.
Lemma local_call {A} (f : oracle -> manager -> res (A * manager)) : qlocal f -> local (fun o => queue_call (f o)).
Proof.
  intros HF rank clock t1 s outs a s' H. unfold queue_call in *. destruct (f (mkOracle rank clock t1) (s_queue s)) as [(x, m)|e] eqn:E; [|discriminate].
  injection H as <- <- <-. cbn [set_queue s_queue]. destruct (HF _ _ _ _ _ _ E) as (L & K). split; [exact L|]. intros t2 HT. rewrite (K t2 HT). reflexivity.
Qed.

Lemma q_current_local w : qlocal (fun _ => q_get_current w).
Proof.
  intros ? ? ? m a m' H. split; [|intros; exact H]. destruct m as [q|q]; cbn [q_get_current] in H.
  - unfold lift_single, single_get_current in H. destruct (pm_index _ _ _). injection H as <- <-. cbn. lia.
  - cbn. lia.
Qed.
Lemma q_cancelled_local w : qlocal (fun _ => q_worker_cancelled w).
Proof.
  intros ? ? ? m a m' H. split; [|intros; exact H]. destruct m as [q|q]; cbn [q_worker_cancelled] in H.
  - unfold lift_single, single_worker_cancelled in H. destruct (pm_index _ _ _). injection H as <- <-. cbn. lia.
  - cbn. lia.
Qed.
Lemma q_terminated_local w : qlocal (fun _ => q_worker_terminated w).
Proof.
  intros ? ? ? m a m' H. split; [|intros; exact H]. destruct m as [q|q]; cbn [q_worker_terminated] in H.
  - unfold lift_single, single_worker_terminated in H. destruct (pm_index _ _ _). destruct (split_jobs _ _) as [(kept, gone)|]; [|discriminate]. injection H as <- <-. cbn. lia.
  - cbn. lia.
Qed.
Lemma q_enqueue_local r : qlocal (fun o => q_enqueue_request o r).
Proof.
  intros rank clock t1 m a m' H. split; [|intros t2 _; exact H]. destruct m as [q|q]; cbn [q_enqueue_request] in H.
  - unfold lift_single, single_enqueue in H. destruct (select_idle _ _) as [[w|]|]; [| |discriminate]; cbn in H.
    + injection H as <- <-. cbn. lia.
    + destruct (assignable _ _) as [[|]|]; [| |discriminate]; injection H as <- <-; cbn; lia.
  - cbn. lia.
Qed.
Lemma single_assign_local w rank clock t1 q a q' : single_assign (mkOracle rank clock t1) w q = Val (a, q') -> sq_sorts q' = S (sq_sorts q) /\
  forall t2, t1 (sq_sorts q) = t2 (sq_sorts q) -> single_assign (mkOracle rank clock t2) w q = Val (a, q').
Proof.
  intros H. split.
  - unfold single_assign in H. destruct (take_first _ _) as [[(r, rest)|]|]; [| |discriminate]; injection H as <- <-; reflexivity.
  - intros t2 E. unfold single_assign in *. cbn [o_tie] in *. rewrite <- E. exact H.
Qed.
Lemma q_assign_local w : qlocal (fun o => q_assign_request o w).
Proof.
  intros rank clock t1 m a m' H. destruct m as [q|q]; cbn [q_assign_request] in *.
  - destruct (single_assign (mkOracle rank clock t1) w q) as [(x, q')|] eqn:E; [|discriminate]. injection H as <- <-.
    destruct (single_assign_local _ _ _ _ _ _ _ E) as (L & K). cbn [sorts_of snd]. split; [lia|]. intros t2 HT. rewrite (K t2) by (apply HT; lia). reflexivity.
  - split; [cbn; lia|]. intros; exact H.
Qed.
Lemma q_finished_local w : qlocal (fun o => q_worker_finished o w).
Proof.
  intros rank clock t1 m a m' H. destruct m as [q|q].
  - exact (q_assign_local w rank clock t1 (QSingle q) a m' H).
  - split; [|intros; exact H]. cbn. lia.
Qed.
Lemma q_add_local w cur : qlocal (fun o => q_add_worker o w cur).
Proof.
  intros rank clock t1 m a m' H. destruct m as [q|q]; cbn [q_add_worker] in *; [|split; [cbn; lia|]; intros; exact H].
  unfold single_add_worker in *. destruct cur as [r|]; [injection H as <- <-; cbn; split; [lia|]; intros; reflexivity|].
  destruct (single_assign _ _ _) as [(x, q')|] eqn:E; [|discriminate]. injection H as <- <-.
  destruct (single_assign_local _ _ _ _ _ _ _ E) as (L & K). cbn [sorts_of snd sq_sorts] in *. split; [lia|]. intros t2 HT. rewrite (K t2) by (apply HT; lia). reflexivity.
Qed.

Ltac loc := repeat match goal with
  | |- local (fun o => bind _ _) => apply local_bind; [|intros ?]
  | |- local (fun _ => ret _) => apply local_ret
  | |- local (fun _ => fail _) => apply local_fail
  | |- local (fun _ => get) => apply local_get
  | |- local (fun _ => respond _) => apply local_respond
  | |- local (fun _ => modify _) => apply local_modify; intros; reflexivity
  | |- local (fun _ => at_ _ _) => apply local_at
  | |- local (fun _ => queue_call _) => apply local_call
  | |- qlocal (fun _ => q_get_current _) => apply q_current_local
  | |- qlocal (fun _ => q_worker_cancelled _) => apply q_cancelled_local
  | |- qlocal (fun _ => q_worker_terminated _) => apply q_terminated_local
  | |- qlocal (fun o => q_enqueue_request o _) => apply q_enqueue_local
  | |- qlocal (fun o => q_assign_request o _) => apply q_assign_local
  | |- qlocal (fun o => q_worker_finished o _) => apply q_finished_local
  | |- qlocal (fun o => q_add_worker o _ _) => apply q_add_local
  | |- local (fun _ => if ?b then _ else _) => destruct b
  | |- local (fun _ => match ?x with _ => _ end) => destruct x
  end.

Section WithConfig.
Context (cfg : config).

Lemma reassign_local r : local (fun o => reassign_request o r).
Proof. unfold reassign_request, notify_monitor, send_request. loc. Qed.
Lemma failure_local r t : local (fun _ => check_failure_count cfg r t).
Proof. unfold check_failure_count, job_failed, notify_monitor. loc. Qed.
Lemma send_local w x : local (fun _ => send_if w x).
Proof. unfold send_if, send_request. loc. Qed.
Lemma eval_local i d : local (fun o => process_client_eval o i d).
Proof.
  unfold process_client_eval, notify_monitor, send_request. loc. apply (local_lift (fun _ => parse_eval_headers (skipn 2 d) [] [])).
Qed.
Lemma init_local i d : local (fun o => process_worker_init o i d).
Proof.
  unfold process_worker_init, notify_error. destruct (Nat.ltb (length d) 2); [loc|]. apply local_bind; [loc|]. intros hw. destruct (parse_init_headers (skipn 2 d) []) as (h, rest).
  apply local_bind; [loc|]. intros s.
  assert (HR : local (fun o => new_worker <- lift (make_worker (s_next_w s) (o_addr o (s_next_w s)) i hw h) ;; modify (set_next_w (S (s_next_w s))) ;;
    (let '(desc, cur, next) := parse_init_extra rest "" None (s_next_r s) in
     modify (set_next_r next) ;;
     let new_worker := set_description desc new_worker in
     modify (fun s0 => set_reg (reg_add new_worker (s_reg s0)) s0) ;;
     request <- queue_call (q_add_worker o new_worker cur) ;; send_if new_worker request ;;
     modify (fun s0 => set_timers (pm_emplace new_worker 0%Z (s_timers s0)) s0)))).
  { apply local_bind; [exact (local_lift (fun rank => make_worker (s_next_w s) (rank (s_next_w s)) i hw h))|]. intros w. apply local_bind; [loc|]. intros _.
    destruct (parse_init_extra rest "" None (s_next_r s)) as ((desc, cur), next). cbv zeta. loc. apply send_local. }
  destruct (find_worker_by_identity i (s_reg s)) as [c|]; [|exact HR]. destruct (headers_equal c h); [loc|]. apply local_bind; [loc|]. intros _. exact HR.
Qed.
Lemma done_local i d : local (fun o => process_worker_done o cfg i d).
Proof.
  unfold process_worker_done, job_done, job_failed, rejected_job, stat_incr, failures_incr. loc; try apply send_local; try apply reassign_local; try apply failure_local.
Qed.
Lemma scan_local z ws : local (fun _ => timer_scan cfg z ws).
Proof. induction ws as [|w ws IH]; cbn [timer_scan]; loc; exact IH. Qed.
Lemma requests_local rs : local (fun o => expire_requests o cfg rs).
Proof. induction rs as [|r rs IH]; cbn [expire_requests]; unfold rejected_job, notify_monitor; loc; try exact IH; try apply reassign_local; apply failure_local. Qed.
Lemma reject_local d rs : local (fun _ => reject_all d rs).
Proof. induction rs as [|r rs IH]; cbn [reject_all]; unfold rejected_job; loc; exact IH. Qed.
Lemma expire_local ws : local (fun o => expire_workers o cfg ws).
Proof. induction ws as [|w ws IH]; cbn [expire_workers]; unfold failures_incr; loc; try exact IH; [apply requests_local|apply reject_local]. Qed.
Lemma idle_local ws : local (fun _ => count_idle ws).
Proof. induction ws as [|w ws IH]; cbn [count_idle]; unfold stat_incr; loc; exact IH. Qed.
Lemma timer_local m : local (fun o => process_timer o cfg m).
Proof.
  unfold process_timer, stat_set. loc; [exact (local_lift (fun _ => stoll s))|apply scan_local|apply expire_local|apply idle_local].
Qed.

Theorem request_local m : local (fun o => on_request o cfg m).
Proof.
  unfold on_request, when. loc.
  - unfold call_function, worker_commands, process_worker_ping, process_worker_progress. cbn [sm_find].
    repeat match goal with |- context [if String.eqb ?x ?y then Some _ else _] => destruct (String.eqb x y) end; loc; [apply init_local|apply done_local].
  - unfold call_function, client_commands, process_client_get_runtime_stats, process_client_freeze, process_client_unfreeze. cbn [sm_find].
    repeat match goal with |- context [if String.eqb ?x ?y then Some _ else _] => destruct (String.eqb x y) end; loc. apply eval_local.
  - apply timer_local.
Qed.

(* a run does not depend on the sorts still to come *)
Theorem run_local rank clock t1 t2 k tr s : run (mkOracle rank clock t1) cfg k tr s -> (forall n, n < sorts_of (s_queue s) -> t1 n = t2 n) ->
  run (mkOracle rank clock t2) cfg k tr s.
Proof.
  intros HR. remember (mkOracle rank clock t1) as o eqn:E. induction HR as [|tr s m outs s' HR IH Hs]; intros HT; [apply run_nil|]. subst o.
  destruct (request_local m _ _ _ _ _ _ _ Hs) as (L & K). apply run_snoc; [apply IH; intros; apply HT; lia|]. apply K. intros n Hn. apply HT. lia.
Qed.
End WithConfig.
