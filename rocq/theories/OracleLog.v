(* The log under two environments (C78): as in Oracle.v, with the lines. *)
From Coq Require Import Lia.
From Verif Require Import Base Bytes Containers Worker Multi Single Queue Handler Logger LogHandler SpecText Spec SpecOracle Facts SpecJournal Journal Blind Oracle OracleRun.
Local Open Scope string_scope.
Local Open Scope list_scope.

Section Env.
Context (o1 o2 : oracle) (cfg : config).
Notation wr := (wr o1 o2).

Section Generic.
Context (Rq : manager -> manager -> Prop).
Context (H_add : forall m1 m2 w1 w2 cur, Rq m1 m2 -> wr w1 w2 -> rres (pr eq Rq) (q_add_worker o1 w1 cur m1) (q_add_worker o2 w2 cur m2)).
Context (H_assign : forall m1 m2 w1 w2, Rq m1 m2 -> wr w1 w2 -> rres (pr eq Rq) (q_assign_request o1 w1 m1) (q_assign_request o2 w2 m2)).
Context (H_finished : forall m1 m2 w1 w2, Rq m1 m2 -> wr w1 w2 -> rres (pr eq Rq) (q_worker_finished o1 w1 m1) (q_worker_finished o2 w2 m2)).
Context (H_terminated : forall m1 m2 w1 w2, Rq m1 m2 -> wr w1 w2 -> rres (pr eq Rq) (q_worker_terminated w1 m1) (q_worker_terminated w2 m2)).
Context (H_current : forall m1 m2 w1 w2, Rq m1 m2 -> wr w1 w2 -> rres (pr eq Rq) (q_get_current w1 m1) (q_get_current w2 m2)).
Context (H_cancelled : forall m1 m2 w1 w2, Rq m1 m2 -> wr w1 w2 -> rres (pr eq Rq) (q_worker_cancelled w1 m1) (q_worker_cancelled w2 m2)).
Context (H_enqueue : forall m1 m2 r, Rq m1 m2 -> rres (pr (renq o1 o2) Rq) (q_enqueue_request o1 r m1) (q_enqueue_request o2 r m2)).
Context (H_count : forall m1 m2, Rq m1 m2 -> q_queued_count m2 = q_queued_count m1).
Notation Rs := (Rs o1 o2 Rq).
Notation rel := (rel o1 o2 Rq).

Definition lrel {A B} (R : A -> B -> Prop) (c1 : L A) (c2 : L B) : Prop := forall s1 s2, Rs s1 s2 ->
  fst (c2 s2) = fst (c1 s1) /\ match snd (c1 s1), snd (c2 s2) with inl e, inl f => f = e | inr (a, s), inr (b, t) => R a b /\ Rs s t | _, _ => False end.

Lemma lrel_bind {A B C D} (R : A -> B -> Prop) (S : C -> D -> Prop) c1 c2 k1 k2 :
  lrel R c1 c2 -> (forall a b, R a b -> lrel S (k1 a) (k2 b)) -> lrel S (lbind c1 k1) (lbind c2 k2).
Proof.
  intros Hc Hk s1 s2 Hs. unfold lbind. specialize (Hc _ _ Hs).
  destruct (c1 s1) as (x1, [e1|(a, t1)]), (c2 s2) as (x2, [e2|(b, t2)]); simpl in Hc; destruct Hc as (-> & Hc); try contradiction.
  - split; [reflexivity|exact Hc].
  - destruct Hc as (Hab & Ht). specialize (Hk _ _ Hab _ _ Ht).
    destruct (k1 a t1) as (y1, r1), (k2 b t2) as (y2, r2). simpl in *. destruct Hk as (-> & Hk). split; [reflexivity|exact Hk].
Qed.
Lemma lrel_ret {A B} (R : A -> B -> Prop) a b : R a b -> lrel R (lret a) (lret b).
Proof. intros H s1 s2 Hs. split; [reflexivity|]. simpl. auto. Qed.
Lemma lrel_plain {A B} (R : A -> B -> Prop) c1 c2 : rel R c1 c2 -> lrel R (plain c1) (plain c2).
Proof.
  intros H s1 s2 Hs. specialize (H _ _ Hs). unfold plain, rout in *. destruct (c1 s1) as (x1, r1), (c2 s2) as (x2, r2). cbn [fst snd] in *.
  destruct H as (-> & H). split; [reflexivity|exact H].
Qed.
Lemma lrel_log l f a : lrel eq (log l f a) (log l f a).
Proof. intros s1 s2 Hs. split; [reflexivity|]. simpl. auto. Qed.

Ltac field := let HS := fresh "HF" in intros ? ? HS; destruct HS as [S1 S2 S3 S4 S5 S6 S7 S8 S9]; constructor; simpl; try assumption.

(* the relations of Oracle.v for what does not log *)
Ltac base := match goal with
  | |- rel _ (queue_call (q_get_current _)) _ => apply rel_queue; intros; apply H_current; assumption
  | |- rel _ (queue_call (q_worker_cancelled _)) _ => apply rel_queue; intros; apply H_cancelled; assumption
  | |- rel _ (queue_call (q_assign_request _ _)) _ => apply rel_queue; intros; apply H_assign; assumption
  | |- rel _ (queue_call (q_worker_finished _ _)) _ => apply rel_queue; intros; apply H_finished; assumption
  | |- rel _ (queue_call (q_worker_terminated _)) _ => apply rel_queue; intros; apply H_terminated; assumption
  | |- rel _ (queue_call (q_enqueue_request _ _)) _ => apply rel_queue; intros; apply H_enqueue; assumption
  | |- rel _ (queue_call (q_add_worker _ _ _)) _ => apply rel_queue; intros; apply H_add; assumption
  | |- rel _ get _ => apply rel_get
  | |- rel _ (ret _) _ => apply rel_ret; reflexivity
  | |- rel _ (fail _) _ => apply rel_fail
  | |- rel _ (send_request _ _) _ => apply rel_send; assumption
  | |- rel _ (notify_monitor _ _) _ => apply rel_respond
  | |- rel _ (rejected_job _ _) _ => apply rel_respond
  | |- rel _ (job_failed _ _) _ => apply rel_respond
  | |- rel _ (job_done _) _ => apply rel_respond
  | |- rel _ (notify_error _) _ => apply rel_respond
  | |- rel _ (respond _) _ => apply rel_respond
  | |- rel _ (stat_incr _) _ => apply rel_incr
  | |- rel _ (stat_set _ _) _ => apply rel_stat
  | |- rel _ (failures_incr _) _ => apply rel_fails
  | |- rel _ (check_failure_count _ _ _) _ => apply rel_check
  | |- rel _ (reject_all _ _) _ => apply rel_reject_all
  | |- rel _ (modify _) _ => apply rel_modify; solve [field; try reflexivity; try congruence]
  | |- rel _ (at_ _ _) _ => apply rel_at
  | |- rel _ (lift ?x) (lift ?x) => apply rel_lift; apply rres_eq
  end.
Ltac go := match goal with
  | |- lrel _ (lbind (plain get) _) _ => eapply lrel_bind; [apply lrel_plain; base|let s := fresh "s" in let t := fresh "t" in let HS := fresh "HS" in intros s t HS]
  | |- lrel _ (lbind (plain (queue_call (q_enqueue_request _ _))) _) _ => eapply lrel_bind; [apply lrel_plain; base|let HE1 := fresh "HE1" in let HE2 := fresh "HE2" in intros ? ? (HE1 & HE2)]
  | |- lrel _ (lbind (plain _) _) _ => eapply lrel_bind; [apply lrel_plain; base|intros ? ? <-]
  | |- lrel _ (lbind (log _ _ _) _) _ => eapply lrel_bind; [apply lrel_log|intros _ _ _]
  | |- lrel _ (lbind (lret _) _) _ => eapply lrel_bind; [apply lrel_ret; reflexivity|intros ? ? <-]
  | |- lrel _ (plain _) _ => apply lrel_plain; base
  | |- lrel _ (log _ _ _) _ => apply lrel_log
  | |- lrel _ (lret _) _ => apply lrel_ret; reflexivity
  end.

Lemma lrel_send w1 w2 r : wr w1 w2 -> lrel eq (send_request_log w1 r) (send_request_log w2 r).
Proof. intros H. unfold send_request_log. go. rewrite (wr_desc _ _ _ _ H). go. Qed.
Lemma lrel_send_if w1 w2 x : wr w1 w2 -> lrel eq (send_if_log w1 x) (send_if_log w2 x).
Proof. intros H. destruct x; cbn [send_if_log]; [apply lrel_send; exact H|go]. Qed.
Lemma lrel_assigned x y r c : opt wr x y -> lrel eq c c -> lrel eq (match x with Some w => send_request_log w r | None => c end)
  (match y with Some w => send_request_log w r | None => c end).
Proof. destruct x, y; simpl; intros H Hc; try contradiction; [apply lrel_send; exact H|exact Hc]. Qed.

Lemma lrel_reassign r : lrel eq (reassign_request_log o1 r) (reassign_request_log o2 r).
Proof.
  unfold reassign_request_log. go. rewrite (failures_rel _ _ _ r _ _ HS). go. go. rewrite HE2. destruct (negb (enqueued a)); [repeat go|].
  eapply lrel_bind; [apply lrel_assigned; [exact HE1|go]|intros _ _ _]. go.
Qed.
Lemma lrel_reject_lines h : lrel eq (reject_lines h) (reject_lines h).
Proof. induction h as [|(k, v) h IH]; cbn [reject_lines]; [go|]. go. exact IH. Qed.

Lemma lrel_eval i m : lrel eq (process_client_eval_log o1 i m) (process_client_eval_log o2 i m).
Proof.
  unfold process_client_eval_log. go. go. go. go. destruct a1 as [((h, md), add)|]; [|go]. go.
  rewrite (rs_frozen _ _ _ _ _ HS), (rs_next_r _ _ _ _ _ HS). destruct (s_frozen s); [repeat go|]. go. go. go. rewrite HE2.
  match goal with |- context [enqueued ?x] => destruct (enqueued x) end.
  - eapply lrel_bind; [apply lrel_assigned; [exact HE1|go]|intros _ _ _]. go.
  - go. eapply lrel_bind; [apply lrel_reject_lines|intros _ _ _]. repeat go.
Qed.

Lemma lrel_init i m : lrel eq (process_worker_init_log o1 i m) (process_worker_init_log o2 i m).
Proof.
  unfold process_worker_init_log. go. destruct (Nat.ltb _ _); [go|]. go. destruct (parse_init_headers (skipn 2 m) []) as (h, rest). go. cbv zeta.
  match goal with |- lrel eq (match _ with Some c => if _ then _ else lbind _ (fun _ => ?R1) | None => _ end) (match _ with Some d => if _ then _ else lbind _ (fun _ => ?R2) | None => _ end) =>
    assert (HREG : lrel eq R1 R2) end.
  { rewrite (rs_next_w _ _ _ _ _ HS), (rs_next_r _ _ _ _ _ HS). eapply lrel_bind; [apply lrel_plain, rel_lift, rel_make|intros w1 w2 Hw]. go.
    destruct (parse_init_extra rest "" None (s_next_r s)) as ((d, cur), next). go.
    assert (Hw' : wr (set_description d w1) (set_description d w2)) by (destruct Hw as (H1 & ->); split; [exact H1|reflexivity]).
    eapply lrel_bind; [apply lrel_plain, rel_modify; field; apply Forall2_app; [assumption|constructor; [exact Hw'|constructor]]|intros _ _ _]. go.
    eapply lrel_bind; [apply lrel_send_if; exact Hw'|intros _ _ _].
    eapply lrel_bind; [apply lrel_plain, rel_modify; field; apply (pmr_emplace o1); assumption|intros _ _ _]. rewrite (wr_desc _ _ _ _ Hw'). go. }
  pose proof (find_rel _ _ i _ _ (rs_reg _ _ _ _ _ HS)) as HF.
  destruct (find_worker_by_identity i (s_reg s)) as [c1|], (find_worker_by_identity i (s_reg t)) as [c2|]; simpl in HF; try contradiction; [|exact HREG].
  rewrite (wr_equal _ _ _ _ _ HF), (wr_desc _ _ _ _ HF). destruct (headers_equal c1 h); [go|]. go. exact HREG.
Qed.

Lemma lrel_done i m : lrel eq (process_worker_done_log o1 cfg i m) (process_worker_done_log o2 cfg i m).
Proof.
  unfold process_worker_done_log. go. go. pose proof (find_rel _ _ i _ _ (rs_reg _ _ _ _ _ HS)) as HF.
  destruct (find_worker_by_identity i (s_reg s)) as [w1|], (find_worker_by_identity i (s_reg t)) as [w2|]; simpl in HF; try contradiction; [|go].
  rewrite (wr_desc _ _ _ _ HF). destruct (Nat.ltb _ _); [go|]. go. go. destruct a as [r|]; [|go]. destruct (negb _); [go|]. go. cbv zeta.
  match goal with |- context [lbind (plain (stat_incr STATS_EVALUATED_JOBS)) (fun _ => ?f)] => set (fin1 := f) end.
  match goal with |- lrel _ _ (if _ then lbind _ (fun _ => lbind _ (fun _ => lbind _ (fun _ => lbind _ (fun _ => ?f)))) else _) => set (fin2 := f) end.
  assert (HFIN : lrel eq fin1 fin2).
  { unfold fin1, fin2. go. match goal with |- lrel _ (match ?x with Some _ => _ | None => _ end) _ => destruct x end; go. }
  clearbody fin1 fin2. destruct (String.eqb a "OK").
  { go. go. eapply lrel_bind; [apply lrel_send_if; exact HF|intros _ _ _]. go. exact HFIN. }
  destruct (String.eqb a "INTERNAL_ERROR").
  { destruct (negb _); [go|]. go. match goal with |- lrel _ (match ?x with Some _ => _ | None => _ end) _ => destruct x as [r0|] end; [|go]. go. go. eapply lrel_bind with (R := eq).
    - destruct (negb (r_complete r0)); [go|]. go. match goal with |- lrel _ (if ?b then _ else _) _ => destruct b end.
      + eapply lrel_bind; [apply lrel_reassign|intros _ _ _]. go.
      + go. apply lrel_send_if; exact HF.
    - intros ? ? _. go. exact HFIN. }
  destruct (String.eqb a "FAILED").
  - destruct (negb _); [go|]. go. go. go. match goal with |- lrel _ (match ?x with Some _ => _ | None => _ end) _ => destruct x as [r0|] end; [|go]. go. go.
    eapply lrel_bind; [apply lrel_send_if; exact HF|intros _ _ _]. go. exact HFIN.
  - go. exact HFIN.
Qed.

Lemma lrel_expire_requests rs : lrel eq (expire_requests_log o1 cfg rs) (expire_requests_log o2 cfg rs).
Proof.
  induction rs as [|r t IH]; cbn [expire_requests_log]; [go|]. destruct (negb (r_complete r)).
  - go. go. exact IH.
  - go. destruct (negb a); [exact IH|]. eapply lrel_bind; [apply lrel_reassign|intros d ? <-]. destruct (negb d).
    + eapply lrel_bind; [exact IH|intros rest ? <-]. go.
    + go. exact IH.
Qed.
Lemma lrel_expire_workers ws1 ws2 : Forall2 wr ws1 ws2 -> lrel eq (expire_workers_log o1 cfg ws1) (expire_workers_log o2 cfg ws2).
Proof.
  induction 1 as [|w1 w2 t1 t2 Hw HT IH]; cbn [expire_workers_log]; [go|]. rewrite (wr_desc _ _ _ _ Hw). go.
  eapply lrel_bind; [apply lrel_plain, rel_modify; field; apply remove_rel; assumption|intros _ _ _]. go.
  eapply lrel_bind with (R := eq); [apply lrel_plain; destruct a; base|intros _ _ _]. go. eapply lrel_bind; [apply lrel_expire_requests|intros un ? <-]. go. exact IH.
Qed.
Lemma lrel_timer m : lrel eq (process_timer_log o1 cfg m) (process_timer_log o2 cfg m).
Proof.
  unfold process_timer_log. destruct (m_data m) as [|front t]; [go|]. go. go.
  eapply lrel_bind; [apply lrel_plain, rel_scan; exact (rs_reg _ _ _ _ _ HS)|intros rm1 rm2 Hrm].
  eapply lrel_bind; [apply lrel_expire_workers; exact Hrm|intros _ _ _]. go.
  rewrite (H_count _ _ (rs_queue _ _ _ _ _ HS0)), (length_rel _ _ _ _ (rs_reg _ _ _ _ _ HS0)). go. go. go.
  eapply lrel_bind with (R := eq); [apply lrel_plain, rel_idle; [exact H_current|exact (rs_reg _ _ _ _ _ HS0)]|intros _ _ _]. go. rewrite !(stat_rel _ _ _ _ _ _ HS1). go.
Qed.

Lemma lrel_when (b : bool) c1 c2 : lrel eq c1 c2 -> lrel eq (when_log b c1) (when_log b c2).
Proof. destruct b; simpl; auto. intros _. go. Qed.

Theorem lrel_request m : lrel eq (on_request_log o1 cfg m) (on_request_log o2 cfg m).
Proof.
  unfold on_request_log. eapply lrel_bind; [apply lrel_when|intros _ _ _; eapply lrel_bind; [apply lrel_when|intros _ _ _; apply lrel_when; apply lrel_timer]].
  - go. eapply lrel_bind with (R := eq).
    + apply lrel_plain. pose proof (find_rel _ _ (m_ident m) _ _ (rs_reg _ _ _ _ _ HS)) as HF.
      destruct (find_worker_by_identity (m_ident m) (s_reg s)) as [w1|], (find_worker_by_identity (m_ident m) (s_reg t)) as [w2|]; simpl in HF; try contradiction; [|base].
      rewrite (wr_id _ _ _ _ HF). eapply rel_bind; [apply rel_modify; field; rewrite S4; reflexivity|intros _ _ _].
      apply rel_modify. field. apply (pmr_set o1); assumption.
    + intros _ _ _. go. unfold call_function_log, worker_commands_log. cbn [sm_find].
      destruct (String.eqb "init" a); [apply lrel_init|]. destruct (String.eqb "done" a); [apply lrel_done|].
      destruct (String.eqb "ping" a); [apply lrel_plain, rel_ping|]. destruct (String.eqb "progress" a); [apply lrel_plain, rel_respond|]. go.
  - go. unfold call_function_log, client_commands_log. cbn [sm_find].
    destruct (String.eqb "eval" a); [apply lrel_eval|]. destruct (String.eqb "get-runtime-stats" a).
    { unfold process_client_get_runtime_stats_log. go. apply lrel_plain. unfold process_client_get_runtime_stats. eapply rel_bind; [base|intros s t HS].
      rewrite (rs_stats _ _ _ _ _ HS), (rs_frozen _ _ _ _ _ HS). base. }
    destruct (String.eqb "freeze" a); [unfold process_client_freeze_log; repeat go|].
    destruct (String.eqb "unfreeze" a); [unfold process_client_unfreeze_log; repeat go|]. go.
Qed.

(* the records of a history, and the state it leads to *)
Context (k : kind) (H_start : Rq (empty_manager k) (empty_manager k)).

Lemma request_of o m s : on_request o cfg m s = (said (fst (on_request_log o cfg m s)), snd (on_request_log o cfg m s)).
Proof. apply erased. Qed.

Lemma run_log tr s : run o1 cfg k tr s -> forall tr' s', run o2 cfg k tr' s' -> map ev_in tr' = map ev_in tr ->
  map (record o2 cfg) tr' = map (record o1 cfg) tr /\ Rs s s'.
Proof.
  induction 1 as [|tr s m outs s1 HR IH Hm]; intros tr' s' HR' EI.
  - destruct tr'; [|discriminate]. inversion HR' as [|? ? ? ? ? ? ? E]; [|destruct tr; discriminate]. split; [reflexivity|]. subst. apply start_rel. exact H_start.
  - rewrite map_app in EI. inversion HR' as [E1 E2|tr2 s2 m2 outs2 s2' HR2 Hm2 E1 E2]; subst; [destruct tr; discriminate EI|].
    rewrite map_app in EI. cbn [map ev_in] in EI. apply app_inj_tail in EI. destruct EI as (EI & ->). destruct (IH _ _ HR2 EI) as (ER & HS).
    rewrite !map_app, ER. cbn [map]. unfold record at 2 4. cbn [ev_in ev_pre]. pose proof (lrel_request m _ _ HS) as (E & HO). rewrite E. split; [reflexivity|].
    rewrite request_of in Hm, Hm2. injection Hm as _ Hm. injection Hm2 as _ Hm2. rewrite Hm, Hm2 in HO. exact (proj2 HO).
Qed.
End Generic.
End Env.

Theorem multi_log o1 o2 cfg tr1 s1 tr2 s2 : run o1 cfg KMulti tr1 s1 -> run o2 cfg KMulti tr2 s2 -> map ev_in tr1 = map ev_in tr2 ->
  map (record o1 cfg) tr1 = map (record o2 cfg) tr2 /\ forall m, fst (on_request_log o1 cfg m s1) = fst (on_request_log o2 cfg m s2).
Proof.
  intros H1 H2 E. destruct (run_log o1 o2 cfg (Rm o1 o2) (m_add o1 o2) (m_assign o1 o2) (m_finished o1 o2) (m_terminated o1 o2) (m_current o1 o2)
    (m_cancelled o1 o2) (m_enqueue o1 o2) (m_count o1 o2) KMulti (m_start o1 o2) _ _ H1 _ _ H2 (eq_sym E)) as (ER & HS). split; [symmetry; exact ER|].
  intros m. symmetry. exact (proj1 (lrel_request o1 o2 cfg (Rm o1 o2) (m_add o1 o2) (m_assign o1 o2) (m_finished o1 o2) (m_terminated o1 o2) (m_current o1 o2)
    (m_cancelled o1 o2) (m_enqueue o1 o2) (m_count o1 o2) m _ _ HS)).
Qed.
Theorem single_log o1 o2 cfg tr1 s1 tr2 s2 : same_addresses o1 o2 -> same_clocks o1 o2 -> no_ties o1 \/ same_ties o1 o2 ->
  run o1 cfg KSingle tr1 s1 -> run o2 cfg KSingle tr2 s2 -> map ev_in tr1 = map ev_in tr2 ->
  map (record o1 cfg) tr1 = map (record o2 cfg) tr2 /\ forall m, fst (on_request_log o1 cfg m s1) = fst (on_request_log o2 cfg m s2).
Proof.
  intros HA HK HT H1 H2 E. destruct (run_log o1 o2 cfg (Rg o1 o2) (g_add o1 o2 HA HK HT) (g_assign o1 o2 HA HK HT) (g_finished o1 o2 HA HK HT)
    (g_terminated o1 o2 HA) (g_current o1 o2 HA) (g_cancelled o1 o2 HA) (g_enqueue o1 o2 HA) (g_count o1 o2) KSingle (g_start o1 o2) _ _ H1 _ _ H2 (eq_sym E)) as (ER & HS).
  split; [symmetry; exact ER|]. intros m. symmetry. exact (proj1 (lrel_request o1 o2 cfg (Rg o1 o2) (g_add o1 o2 HA HK HT) (g_assign o1 o2 HA HK HT) (g_finished o1 o2 HA HK HT)
    (g_terminated o1 o2 HA) (g_current o1 o2 HA) (g_cancelled o1 o2 HA) (g_enqueue o1 o2 HA) (g_count o1 o2) m _ _ HS)).
Qed.
