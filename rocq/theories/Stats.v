(* The runtime statistics (C27). *)
From Coq Require Import Permutation Lia.
From Verif Require Import Base Bytes Containers Worker Multi Single Queue Handler SpecText Spec SpecRun SpecMsg Facts QueueInv Atoms
  HandlerSim Keeps Conserve Provenance OneJob Messages.
Local Open Scope string_scope.
Local Open Scope list_scope.

Definition stats_list (ev fa idle : N) (busy : option N) (queue ws : N) : smap N :=
  [("evaluated-jobs", ev); ("failed-jobs", fa); ("idle-worker-count", idle)] ++
  match busy with Some b => [("jobs-in-progress", b)] | None => [] end ++
  [("queued-jobs", queue); ("worker-count", ws)].

Lemma stats_init : init_stats = stats_list 0 0 0 None 0 0.
Proof. reflexivity. Qed.
Lemma set_idle ev fa idle busy queue ws v : sm_set STATS_IDLE_WORKER_COUNT v (stats_list ev fa idle busy queue ws) = stats_list ev fa v busy queue ws.
Proof. destruct busy; reflexivity. Qed.
Lemma set_queued ev fa idle busy queue ws v : sm_set STATS_QUEUED_JOBS v (stats_list ev fa idle busy queue ws) = stats_list ev fa idle busy v ws.
Proof. destruct busy; reflexivity. Qed.
Lemma set_workers ev fa idle busy queue ws v : sm_set STATS_WORKER_COUNT v (stats_list ev fa idle busy queue ws) = stats_list ev fa idle busy queue v.
Proof. destruct busy; reflexivity. Qed.
Lemma set_busy ev fa idle busy queue ws v : sm_set STATS_JOBS_IN_PROGRESS v (stats_list ev fa idle busy queue ws) = stats_list ev fa idle (Some v) queue ws.
Proof. destruct busy; reflexivity. Qed.
Lemma set_evaluated ev fa idle busy queue ws v : sm_set STATS_EVALUATED_JOBS v (stats_list ev fa idle busy queue ws) = stats_list v fa idle busy queue ws.
Proof. destruct busy; reflexivity. Qed.
Lemma set_failed ev fa idle busy queue ws v : sm_set STATS_FAILED_JOBS v (stats_list ev fa idle busy queue ws) = stats_list ev v idle busy queue ws.
Proof. destruct busy; reflexivity. Qed.

Lemma queued_count_length m : q_queued_count m = length (queued m).
Proof.
  destruct m as [q|q]; simpl.
  - unfold single_queued_count. rewrite map_length. reflexivity.
  - unfold multi_queued_count. assert (G : forall l n, fold_left (fun acc (p : worker * list request) => acc + length (snd p)) l n
      = n + length (concat (map snd l))).
    { induction l as [|(w, rs) l IH]; intros n; simpl; [lia|]. rewrite IH, app_length. simpl. lia. }
    apply G.
Qed.

Lemma busy_idle m ws : qinv m ws -> length (running m) + list_count (is_idle m) ws = length ws.
Proof.
  intros HQ. rewrite (Permutation_length (running_current _ _ HQ)).
  clear. induction ws as [|w ws IH]; [reflexivity|]. cbn [flat_map]. rewrite app_length, list_count_cons. cbn [length].
  unfold is_idle at 1. destruct (current_of m w); simpl; lia.
Qed.

Section WithConfig.
Context (o : oracle) (cfg : config).
Local Notation refresh := (refresh cfg).

Lemma count_idle_stats ws : forall s outs s' ev fa idle busy queue n, inv s [] -> incl ws (s_reg s) ->
  count_idle ws s = (outs, inr (tt, s')) -> s_stats s = stats_list ev fa idle busy queue n ->
  s_stats s' = stats_list ev fa (idle + N.of_nat (list_count (is_idle (s_queue s)) ws)) busy queue n /\ s_queue s' = s_queue s.
Proof.
  induction ws as [|w ws IH]; cbn [count_idle]; intros s outs s' ev fa idle busy queue n HI Hincl H HS.
  - minv. rewrite list_count_nil, N.add_0_r. auto.
  - minv1 H. minv1 Hm. rewrite (q_get_current_spec _ _ _ (inv_q _ _ HI)) in Eq by (apply Hincl; simpl; auto).
    injection Eq as <- <-. rewrite set_queue_id in Hk. rewrite list_count_cons.
    apply bind_inv in Hk. destruct Hk as (o71 & a & s1 & o79 & Hm & Hk & _).
    unfold is_idle at 1. destruct (current_of (s_queue s) w) as [r|].
    + minv1 Hm. destruct (IH _ _ _ _ _ _ _ _ _ HI (fun x Hx => Hincl x (or_intror Hx)) Hk HS) as (-> & ->). auto.
    + unfold stat_incr in Hm. minv1 Hm.
      edestruct (IH (set_stats (sm_set STATS_IDLE_WORKER_COUNT (stat STATS_IDLE_WORKER_COUNT s + 1)%N (s_stats s)) s)) as (E1 & E2);
        [| |exact Hk| |].
      * eapply (atom_inv o cfg); [exact HI|apply a_tau; reflexivity].
      * intros x Hx. apply Hincl. simpl. auto.
      * cbn [s_stats set_stats]. rewrite HS, set_idle. reflexivity.
      * rewrite E1, E2. split; [|reflexivity]. f_equal. unfold stat. rewrite HS.
        assert (sm_find STATS_IDLE_WORKER_COUNT (stats_list ev fa idle busy queue n) = Some idle) as -> by (destruct busy; reflexivity).
        cbn [set_stats s_queue]. lia.
Qed.

Lemma timer_stats m s outs s' ev fa idle busy queue n : inv s [] -> process_timer o cfg m s = (outs, inr (tt, s')) ->
  s_stats s = stats_list ev fa idle busy queue n ->
  s_stats s' = stats_list ev fa (N.of_nat (list_count (is_idle (s_queue s')) (s_reg s'))) (Some (N.of_nat (length (running (s_queue s')))))
                 (N.of_nat (length (queued (s_queue s')))) (N.of_nat (length (s_reg s'))).
Proof.
  intros HI H HS. pose proof (process_timer_sim _ _ _ _ _ _ HI H) as (ls & A & _ & _).
  pose proof (atoms_inv _ _ _ _ _ _ _ A HI) as HI'.
  unfold process_timer in H. destruct (m_data m) as [|front rest]; [discriminate|].
  minv1 H. minv1 Hm. minv1 Hk. minv1 Hm. minv1 Hk0.
  pose proof (timer_scan_stats _ _ _ _ _ _ _ Hm) as ES. pose proof (timer_scan_core _ _ _ _ _ _ _ Hm) as (_ & HC & Hi & Hn).
  apply bind_inv in Hk. destruct Hk as (o71 & [] & s1 & o79 & He & Hk & _).
  pose proof (expire_workers_stats _ _ _ _ _ _ _ He) as ES1. rewrite ES, HS in ES1.
  minv1 Hk. minv1 Hm0. unfold stat_set in Hk0. minv1 Hk0. minv1 Hm0. minv1 Hk. minv1 Hm0. minv1 Hk0. minv1 Hm0.
  apply bind_inv in Hk. destruct Hk as (o74 & [] & s2 & o75 & Hc & Hk & _). minv1 Hk. minv1 Hm0. minv1 Hk0.
  match type of Hc with count_idle _ ?t = _ => set (s3 := t) in * end.
  assert (HI1 : inv s1 []).
  { assert (HI0 : inv s0 []) by (eapply (atom_inv o cfg); [exact HI|apply a_tau; exact HC]).
    edestruct (expire_workers_sim o cfg) as (ls2 & A2 & _); [exact HI0| | |exact He|eapply atoms_inv; eassumption].
    - apply Hn. apply (qi_nodup _ _ (inv_q _ _ HI)).
    - unfold core in HC. injection HC as HC _ _ _ _. rewrite <- HC. exact Hi. }
  assert (HI3 : inv s3 []) by (eapply (atom_inv o cfg); [exact HI1|apply a_tau; reflexivity]).
  pose proof (count_idle_core o cfg _ _ _ _ HI3 (incl_refl _) Hc) as (_ & HC3).
  assert (E3 : s_stats s3 = stats_list ev fa 0 busy (N.of_nat (q_queued_count (s_queue s1))) (N.of_nat (length (s_reg s1)))).
  { unfold s3. cbn [set_stats s_stats]. rewrite ES1, set_queued, set_workers, set_idle. reflexivity. }
  destruct (count_idle_stats _ _ _ _ _ _ _ _ _ _ HI3 (incl_refl _) Hc E3) as (E4 & E5).
  assert (ER : s_reg s2 = s_reg s1) by (unfold core in HC3; injection HC3 as HC3 _ _ _ _; rewrite <- HC3; reflexivity).
  assert (EQ : s_queue s2 = s_queue s1) by (rewrite E5; reflexivity).
  cbn [set_stats s_stats s_queue s_reg]. unfold stat. rewrite E4.
  assert (sm_find STATS_WORKER_COUNT (s_stats s2) = Some (N.of_nat (length (s_reg s1)))) as EW by (rewrite E4; destruct busy; reflexivity).
  rewrite E4 in EW. rewrite EW. rewrite set_busy.
  match goal with |- context [sm_find STATS_IDLE_WORKER_COUNT ?l] => assert (sm_find STATS_IDLE_WORKER_COUNT l =
     Some (0 + N.of_nat (list_count (is_idle (s_queue s3)) (s_reg s3)))%N) as -> by (destruct busy; reflexivity) end.
  rewrite ER, EQ, queued_count_length. change (s_queue s3) with (s_queue s1). change (s_reg s3) with (s_reg s1).
  pose proof (busy_idle _ _ (inv_q _ _ HI1)) as HB. rewrite N.add_0_l. f_equal. f_equal. unfold size_sub.
  destruct (N.leb_spec (N.of_nat (list_count (is_idle (s_queue s1)) (s_reg s1))) (N.of_nat (length (s_reg s1)))); lia.
Qed.

(* a done message counts as the report of the sender's current job with status st *)
Definition credits (st : string) (i : string) (d : list string) (s : state) : bool :=
  starts_with ["done"] d &&
  match find (named i) (s_reg s), nth_error d 1 with
  | Some w, Some j => match current_of (s_queue s) w with Some r => job_is j r | None => false end
  | _, _ => false
  end &&
  match d with
  | _ :: _ :: st' :: rest => String.eqb st' st && (String.eqb st "OK" || Nat.eqb (length rest) 1)
  | _ => false
  end.

Lemma done_stats i d s outs s' ev fa idle busy queue n : inv s [] -> starts_with ["done"] d = true ->
  process_worker_done o cfg i d s = (outs, inr (tt, s')) ->
  s_stats s = stats_list ev fa idle busy queue n ->
  s_stats s' = stats_list (ev + N.of_nat (b2n (credits "OK" i d s)))
    (fa + N.of_nat (b2n (credits "FAILED" i d s)) + N.of_nat (b2n (credits "INTERNAL_ERROR" i d s))) idle busy queue n.
Proof.
  intros HI HD H HS. unfold credits. rewrite HD. cbn [andb]. rewrite find_named.
  unfold process_worker_done in H. minv1 H. minv1 Hm.
  assert (Hsame : s_stats s = stats_list (ev + N.of_nat (b2n false)) (fa + N.of_nat (b2n false) + N.of_nat (b2n false)) idle busy queue n).
  { rewrite HS. simpl. f_equal; lia. }
  destruct (find_worker_by_identity i (s_reg s)) as [w|] eqn:Ef; [|minv; exact Hsame].
  destruct (find_by_identity_in _ _ _ Ef) as (Hin & _).
  destruct d as [|c [|j [|st rest]]].
  1,2,3: cbn [length Nat.ltb Nat.leb] in Hk; minv; rewrite andb_false_r; exact Hsame.
  cbn [length Nat.ltb Nat.leb nth_error] in *. minv1 Hk. minv1 Hm.
  rewrite (q_get_current_spec _ _ _ (inv_q _ _ HI) Hin) in Eq. injection Eq as <- <-. rewrite set_queue_id in Hk0.
  minv1 Hk0. minv1 Hm. cbn [nth_error] in Ea. injection Ea as <-.
  destruct (current_of (s_queue s) w) as [r|] eqn:Ec; [|minv].
  unfold job_is. rewrite (String.eqb_sym (r_job r) j).
  destruct (String.eqb j (r_job r)); cbn [negb andb] in *; [|minv; exact Hsame].
  minv1 Hk. minv1 Hm. cbn [nth_error] in Ea. injection Ea as <-.
  assert (Hfin : keeps s_stats (queue_call (q_get_current w);; ret tt)) by keep.
  destruct (String.eqb_spec st "OK") as [->|N1].
  { change (String.eqb "OK" "OK") with true. change (String.eqb "OK" "FAILED") with false.
    change (String.eqb "OK" "INTERNAL_ERROR") with false. cbn [andb orb b2n].
    unfold job_done, stat_incr in Hk0. minv1 Hk0. minv1 Hm. minv1 Hk. minv1 Hm. minv1 Hk0. apply send_if_inv in Hm. destruct Hm as (-> & _).
    minv1 Hk. minv1 Hm. rewrite (Hfin _ _ _ _ Hk0). cbn [set_stats set_queue s_stats]. unfold stat. cbn [set_queue s_stats].
    rewrite HS, set_evaluated. assert (sm_find STATS_EVALUATED_JOBS (stats_list ev fa idle busy queue n) = Some ev) as -> by reflexivity.
    simpl. f_equal; lia. }
  assert (E1 : String.eqb st "OK" = false) by (apply String.eqb_neq; exact N1).
  destruct (String.eqb_spec st "INTERNAL_ERROR") as [->|N2].
  { change (String.eqb "INTERNAL_ERROR" "FAILED") with false. change (String.eqb "INTERNAL_ERROR" "INTERNAL_ERROR") with true.
    change (String.eqb "INTERNAL_ERROR" "OK") with false. cbn [andb orb b2n].
    change (Nat.eqb (S (S (S (length rest)))) 4) with (Nat.eqb (length rest) 1) in Hk0.
    destruct (Nat.eqb (length rest) 1); cbn [negb] in Hk0; [|minv; simpl in *; exact Hsame].
    minv1 Hk0. minv1 Hm. cbn [set_queue] in Hk.
    match type of Hk with (match ?x with _ => _ end) _ = _ => destruct x as [fr|] end; [|minv].
    unfold failures_incr in Hk. minv1 Hk. minv1 Hm. minv1 Hk0. minv1 Hm. apply bind_inv in Hk.
    destruct Hk as (o71 & [] & s1 & o79 & Hm & Hk & _).
    match type of Hm with ?m _ = _ => assert (Hkeep : keeps s_stats m) end.
    { unfold check_failure_count, reassign_request, send_if, send_request, rejected_job, job_failed, notify_monitor. keep. }
    apply Hkeep in Hm. cbn [set_queue set_fails s_stats] in Hm. rewrite HS in Hm. clear Hkeep.
    unfold stat_incr in Hk. minv1 Hk. minv1 Hm0. rewrite (Hfin _ _ _ _ Hk0). cbn [set_stats s_stats]. unfold stat.
    rewrite Hm, set_failed. assert (sm_find STATS_FAILED_JOBS (stats_list ev fa idle busy queue n) = Some fa) as -> by reflexivity.
    simpl. f_equal; lia. }
  assert (E2 : String.eqb st "INTERNAL_ERROR" = false) by (apply String.eqb_neq; exact N2).
  rewrite ?E1, ?E2.
  destruct (String.eqb_spec st "FAILED") as [->|N3].
  { change (String.eqb "FAILED" "FAILED") with true. change (String.eqb "FAILED" "OK") with false. cbn [andb orb b2n].
    change (Nat.eqb (S (S (S (length rest)))) 4) with (Nat.eqb (length rest) 1) in Hk0.
    destruct (Nat.eqb (length rest) 1); cbn [negb] in Hk0; [|minv; simpl in *; exact Hsame].
    minv1 Hk0. minv1 Hm. unfold job_failed in Hk. minv1 Hk. minv1 Hm. minv1 Hk0. minv1 Hm.
    match type of Hk with (match ?x with _ => _ end) _ = _ => destruct x as [fr|] end; [|minv].
    unfold failures_incr in Hk. minv1 Hk. minv1 Hm. minv1 Hk0. minv1 Hm. minv1 Hk. apply send_if_inv in Hm. destruct Hm as (-> & _).
    unfold stat_incr in Hk0. minv1 Hk0. minv1 Hm. rewrite (Hfin _ _ _ _ Hk). cbn [set_stats set_queue set_fails s_stats]. unfold stat.
    cbn [set_stats set_queue set_fails s_stats].
    rewrite HS, set_failed. assert (sm_find STATS_FAILED_JOBS (stats_list ev fa idle busy queue n) = Some fa) as -> by reflexivity.
    simpl. f_equal; lia. }
  rewrite (Hfin _ _ _ _ Hk0). exact Hsame.
Qed.

Lemma credited_credits st s m outs s' : credited st (mkEvent s m outs s') =
  String.eqb (m_key m) "workers" && credits st (m_ident m) (m_data m) s.
Proof.
  unfold credited, own_report, credits. simpl ev_in. simpl ev_pre. rewrite String.eqb_refl, andb_true_r.
  destruct (String.eqb (m_key m) "workers"); cbn [andb]; [|reflexivity]. reflexivity.
Qed.

Lemma refresh_credits st i d s : credits st i d (refresh i s) = credits st i d s.
Proof. unfold credits. rewrite refresh_reg, refresh_queue. reflexivity. Qed.

Lemma step_stats m s outs s' ev fa idle busy queue n : inv s [] -> on_request o cfg m s = (outs, inr (tt, s')) ->
  s_stats s = stats_list ev fa idle busy queue n ->
  let e := mkEvent s m outs s' in
  let ev' := (ev + N.of_nat (b2n (credited "OK" e)))%N in
  let fa' := (fa + N.of_nat (b2n (credited "FAILED" e)) + N.of_nat (b2n (credited "INTERNAL_ERROR" e)))%N in
  s_stats s' = if String.eqb (m_key m) "timer"
    then stats_list ev' fa' (N.of_nat (list_count (is_idle (s_queue s')) (s_reg s'))) (Some (N.of_nat (length (running (s_queue s')))))
           (N.of_nat (length (queued (s_queue s')))) (N.of_nat (length (s_reg s')))
    else stats_list ev' fa' idle busy queue n.
Proof.
  intros HI Hstep HS e ev' fa'. unfold ev', fa', e. rewrite !credited_credits.
  rewrite on_request_eq in Hstep. unfold on_request_cases in Hstep.
  assert (Hsame : forall b, b = false -> s_stats s = stats_list (ev + N.of_nat (b2n b)) (fa + N.of_nat (b2n b) + N.of_nat (b2n b)) idle busy queue n).
  { intros b ->. rewrite HS. simpl. f_equal; lia. }
  destruct (String.eqb_spec (m_key m) "workers") as [Ek|Ek].
  - rewrite Ek. change (String.eqb "workers" "timer") with false. cbv iota. cbn [andb].
    destruct (m_data m) as [|c rest] eqn:Ed; [discriminate|].
    assert (HI1 : inv (refresh (m_ident m) s) []).
    { eapply (atom_inv o cfg); [exact HI|apply a_tau; apply refresh_core]. }
    assert (Hnd : forall st, c <> "done" -> credits st (m_ident m) (c :: rest) s = false).
    { intros st Hc. unfold credits, starts_with, list_string_eqb. cbn [length firstn combine forallb fst snd Nat.eqb].
      rewrite (proj2 (String.eqb_neq _ _) Hc). reflexivity. }
    unfold call_function, worker_commands in Hstep. cbn [sm_find] in Hstep.
    rewrite <- (refresh_stats cfg (m_ident m) s) in Hsame.
    destruct (String.eqb_spec "init" c) as [<-|N1].
    { rewrite (init_keeps_stats _ _ _ _ _ _ _ Hstep), !Hnd by discriminate. apply (Hsame false eq_refl). }
    destruct (String.eqb_spec "done" c) as [<-|N2].
    { rewrite <- (refresh_stats cfg (m_ident m)) in HS. rewrite <- (refresh_credits "OK" (m_ident m)), <- (refresh_credits "FAILED" (m_ident m)),
        <- (refresh_credits "INTERNAL_ERROR" (m_ident m)).
      exact (done_stats _ ("done" :: rest) _ _ _ _ _ _ _ _ _ HI1 eq_refl Hstep HS). }
    rewrite !Hnd by congruence.
    destruct (String.eqb "ping" c).
    { unfold process_worker_ping in Hstep. minv1 Hstep. minv1 Hm.
      destruct (find_worker_by_identity _ _); minv; apply (Hsame false eq_refl). }
    destruct (String.eqb "progress" c); [unfold process_worker_progress in Hstep|]; minv; apply (Hsame false eq_refl).
  - cbn [andb]. destruct (String.eqb_spec (m_key m) "clients") as [Ek2|Ek2].
    + rewrite Ek2. change (String.eqb "clients" "timer") with false. cbv iota.
      destruct (m_data m) as [|c rest] eqn:Ed; [discriminate|].
      unfold call_function, client_commands in Hstep. cbn [sm_find] in Hstep.
      destruct (String.eqb "eval" c).
      { rewrite (eval_stats _ _ _ _ _ _ _ Hstep). apply (Hsame false eq_refl). }
      destruct (String.eqb "get-runtime-stats" c).
      { unfold process_client_get_runtime_stats in Hstep. minv. apply (Hsame false eq_refl). }
      destruct (String.eqb "freeze" c).
      { unfold process_client_freeze in Hstep. minv. apply (Hsame false eq_refl). }
      destruct (String.eqb "unfreeze" c).
      { unfold process_client_unfreeze in Hstep. minv. apply (Hsame false eq_refl). }
      minv. apply (Hsame false eq_refl).
    + destruct (String.eqb_spec (m_key m) "timer") as [Ek3|Ek3].
      * rewrite (timer_stats _ _ _ _ _ _ _ _ _ _ HI Hstep HS). simpl. f_equal; lia.
      * minv. apply (Hsame false eq_refl).
Qed.

Lemma last_tick_snoc tr e : after_last_tick (tr ++ [e]) =
  if String.eqb (m_key (ev_in e)) "timer" then Some (ev_post e) else after_last_tick tr.
Proof. unfold after_last_tick. rewrite fold_left_app. reflexivity. Qed.

Lemma run_stats k tr s : run o cfg k tr s ->
  s_stats s = 
  let n f := match after_last_tick tr with Some t => N.of_nat (f t) | None => 0%N end in
  stats_list (N.of_nat (list_count (credited "OK") tr))
    (N.of_nat (list_count (credited "FAILED") tr + list_count (credited "INTERNAL_ERROR") tr))
    (n (fun t => list_count (is_idle (s_queue t)) (s_reg t)))
    (option_map (fun t => N.of_nat (length (running (s_queue t)))) (after_last_tick tr))
    (n (fun t => length (queued (s_queue t)))) (n (fun t => length (s_reg t))).
Proof.
  induction 1 as [|tr s m outs s' HR IH Hs]; [reflexivity|]. cbv zeta in *.
  rewrite (step_stats _ _ _ _ _ _ _ _ _ _ (run_inv _ _ _ _ _ HR) Hs IH). rewrite last_tick_snoc. simpl ev_in. simpl ev_post.
  rewrite !list_count_app, !list_count_cons, !list_count_nil. unfold b2n.
  destruct (String.eqb (m_key m) "timer"); cbn [option_map]; f_equal; lia.
Qed.

Theorem stats_reply k tr s i rest : run o cfg k tr s ->
  let show f := to_string_N (match after_last_tick tr with Some t => N.of_nat (f t) | None => 0%N end) in
  on_request o cfg (Msg "clients" i ("get-runtime-stats" :: rest)) s =
  ([Msg "clients" i
     (["evaluated-jobs"; to_string_N (N.of_nat (list_count (credited "OK") tr));
       "failed-jobs"; to_string_N (N.of_nat (list_count (credited "FAILED") tr + list_count (credited "INTERNAL_ERROR") tr));
       "idle-worker-count"; show (fun t => list_count (is_idle (s_queue t)) (s_reg t))] ++
      (if existsb (fun e => String.eqb (m_key (ev_in e)) "timer") tr
       then ["jobs-in-progress"; show (fun t => length (running (s_queue t)))] else []) ++
      ["queued-jobs"; show (fun t => length (queued (s_queue t)));
       "worker-count"; show (fun t => length (s_reg t));
       "is-frozen"; if frozen_after tr then "1" else "0"])], inr (tt, s)).
Proof.
  intros HR show. rewrite (client_message _ _ _ _ "get-runtime-stats" rest) by reflexivity.
  change (call_function (client_commands o) "get-runtime-stats") with process_client_get_runtime_stats.
  unfold process_client_get_runtime_stats, bind, get, respond.
  rewrite (run_stats _ _ _ HR), (frozen_history _ _ _ _ _ HR). unfold show.
  assert (HT : existsb (fun e => String.eqb (m_key (ev_in e)) "timer") tr = match after_last_tick tr with Some _ => true | None => false end).
  { clear. induction tr as [|e tr IH] using rev_ind; [reflexivity|]. rewrite existsb_app, last_tick_snoc, IH. simpl. rewrite orb_false_r.
    destruct (String.eqb (m_key (ev_in e)) "timer"); [apply orb_true_r|apply orb_false_r]. }
  rewrite HT. destruct (after_last_tick tr); reflexivity.
Qed.

End WithConfig.
