(* The ping bookkeeping, message by message (C15, C16, C17). *)
From Coq Require Import Permutation Lia.
From Verif Require Import Base Bytes Containers Worker Multi Single Queue Handler SpecText TextFacts HeaderFacts OrderFacts HexFacts Spec SpecRun SpecMsg SpecPings Facts QueueInv
  Atoms HandlerSim Keeps Conserve Provenance Members Messages.
Local Open Scope string_scope.
Local Open Scope list_scope.

Definition old_timer (s : state) (w : worker) : Z := match pm_find w (s_timers s) with Some z => z | None => 0%Z end.

Lemma reads_stoll t z : stoll t = Val z <-> reads t z.
Proof. apply stoll_spec. Qed.

Section WithConfig.
Context (o : oracle) (cfg : config).

(* one tick of z ms, for worker w *)
Definition scanned (z : Z) (s s' : state) (w : worker) (removed : Prop) : Prop :=
  in_i64 (old_timer s w + z) = true /\
  if Z.ltb (c_ping_interval cfg) (old_timer s w + z)
  then liveness s' w = size_pred (liveness s w) /\ ping_timer s' w = Some 0%Z /\ (removed <-> liveness s' w = 0%N)
  else liveness s' w = liveness s w /\ ping_timer s' w = Some (old_timer s w + z)%Z /\ ~ removed.

Lemma tbl_get_set k k' v t : tbl_get k (tbl_set k' v t) = if Nat.eqb k k' then v else tbl_get k t.
Proof. reflexivity. Qed.

Lemma old_timer_set w z s w' : old_timer (set_timers (pm_set w z (s_timers s)) s) w' =
  if Nat.eqb (w_id w) (w_id w') then z else old_timer s w'.
Proof. unfold old_timer. cbn [s_timers set_timers]. rewrite pm_find_set. destruct (Nat.eqb _ _); reflexivity. Qed.

Lemma timer_scan_exact time ws : forall s outs rm s', NoDup (ids ws) ->
  timer_scan cfg time ws s = (outs, inr (rm, s')) ->
  outs = [] /\
  (forall w, In w ws -> scanned time s s' w (In w rm)) /\
  (forall w, ~ In (w_id w) (ids ws) -> liveness s' w = liveness s w /\ ping_timer s' w = ping_timer s w) /\
  incl rm ws.
Proof.
  induction ws as [|w ws IH]; intros s outs rm s' Hnd H.
  - simpl in H. minv. split; [reflexivity|]. split; [intros w []|]. split; [auto|intros w []].
  - assert (Hn : ~ In (w_id w) (ids ws)) by (inversion Hnd; assumption).
    assert (Hnd' : NoDup (ids ws)) by (inversion Hnd; assumption).
    cbn [timer_scan] in H. minv1 H. minv1 Hm. fold (old_timer s w) in Hk.
    destruct (in_i64 (old_timer s w + time)) eqn:Ei; cbn [negb] in Hk; [|discriminate].
    destruct (Z.ltb (c_ping_interval cfg) (old_timer s w + time)) eqn:El.
    + minv1 Hk. minv1 Hm. minv1 Hk0. minv1 Hm. minv1 Hk.
      set (s1 := set_timers _ _) in Hm.
      destruct (IH _ _ _ _ Hnd' Hm) as (-> & S1 & S2 & S3). minv1 Hk0. rename s0 into s', x into a.
      assert (Hlive : liveness s1 w = size_pred (liveness s w)).
      { unfold s1, liveness. cbn [s_live set_live set_timers]. rewrite tbl_get_set, Nat.eqb_refl. reflexivity. }
      assert (Htim : ping_timer s1 w = Some 0%Z).
      { unfold s1, ping_timer. cbn [s_timers set_timers set_live]. rewrite pm_find_set, Nat.eqb_refl. reflexivity. }
      assert (Hoth : forall w', w_id w' <> w_id w -> liveness s1 w' = liveness s w' /\ ping_timer s1 w' = ping_timer s w').
      { intros w' Hne. unfold s1, liveness, ping_timer. cbn [s_live s_timers set_live set_timers].
        rewrite tbl_get_set, pm_find_set. rewrite (proj2 (Nat.eqb_neq _ _) Hne).
        rewrite (proj2 (Nat.eqb_neq _ _)) by congruence. auto. }
      assert (Hb : N.leb (size_pred (tbl_get (w_id w) (s_live s))) 0 = N.eqb (liveness s' w) 0).
      { destruct (S2 w Hn) as (-> & _). rewrite Hlive. unfold liveness.
        destruct (N.leb_spec (size_pred (tbl_get (w_id w) (s_live s))) 0);
          destruct (N.eqb_spec (size_pred (tbl_get (w_id w) (s_live s))) 0); (reflexivity || lia). }
      rewrite Hb. clear Hb.
      assert (Hnotin : forall w', In w' ws -> w_id w' <> w_id w).
      { intros w' Hw' E. apply Hn. rewrite <- E. apply in_map. exact Hw'. }
      split; [reflexivity|]. split; [|split].
      * intros w' [<-|Hw'].
        -- split; [exact Ei|]. rewrite El. destruct (S2 w Hn) as (E1 & E2). rewrite E1, E2, Hlive, Htim.
           split; [reflexivity|]. split; [reflexivity|].
           destruct (N.eqb_spec (size_pred (liveness s w)) 0) as [E|E]; simpl.
           ++ split; auto.
           ++ split; [|intros; contradiction]. intros Hin. apply S3 in Hin. apply Hnotin in Hin. contradiction.
        -- destruct (S1 w' Hw') as (T1 & T2). destruct (Hoth w' (Hnotin w' Hw')) as (E1 & E2).
           assert (Eo : old_timer s1 w' = old_timer s w').
           { change (match ping_timer s1 w' with Some z => z | None => 0%Z end = match ping_timer s w' with Some z => z | None => 0%Z end).
             rewrite E2. reflexivity. }
           assert (Er : In w' (if N.eqb (liveness s' w) 0 then w :: a else a) <-> In w' a).
           { destruct (N.eqb _ _); [|tauto]. simpl. split; [|auto]. intros [<-|?]; [|assumption].
             apply Hnotin in Hw'. contradiction. }
           unfold scanned. rewrite <- Eo, <- E1. split; [exact T1|].
           revert T2. destruct (Z.ltb (c_ping_interval cfg) (old_timer s1 w' + time)); tauto.
      * intros w' Hni. cbn [ids map] in Hni. apply Decidable.not_or in Hni. destruct Hni as (N1 & N2).
        destruct (S2 w' N2) as (-> & ->). apply Hoth. congruence.
      * intros w'. destruct (N.eqb _ _); simpl; [|intros ?; right; apply S3; assumption].
        intros [?|?]; [auto|right; apply S3; assumption].
    + minv1 Hk. minv1 Hm. set (s1 := set_timers _ _) in Hk0.
      destruct (IH _ _ _ _ Hnd' Hk0) as (-> & S1 & S2 & S3).
      assert (Hoth : forall w', w_id w' <> w_id w -> liveness s1 w' = liveness s w' /\ ping_timer s1 w' = ping_timer s w').
      { intros w' Hne. unfold s1, liveness, ping_timer. cbn [s_live s_timers set_live set_timers].
        rewrite pm_find_set. rewrite (proj2 (Nat.eqb_neq (w_id w) (w_id w'))) by congruence. auto. }
      assert (Hnotin : forall w', In w' ws -> w_id w' <> w_id w).
      { intros w' Hw' E. apply Hn. rewrite <- E. apply in_map. exact Hw'. }
      split; [reflexivity|]. split; [|split].
      * intros w' [<-|Hw'].
        -- split; [exact Ei|]. rewrite El. destruct (S2 w Hn) as (E1 & E2). rewrite E1, E2.
           unfold s1 at 1 2, liveness, ping_timer. cbn [s_live s_timers set_timers]. rewrite pm_find_set, Nat.eqb_refl.
           split; [reflexivity|]. split; [reflexivity|]. intros Hin. apply S3 in Hin. apply Hnotin in Hin. contradiction.
        -- destruct (S1 w' Hw') as (T1 & T2). destruct (Hoth w' (Hnotin w' Hw')) as (E1 & E2).
           assert (Eo : old_timer s1 w' = old_timer s w').
           { change (match ping_timer s1 w' with Some z => z | None => 0%Z end = match ping_timer s w' with Some z => z | None => 0%Z end).
             rewrite E2. reflexivity. }
           unfold scanned. rewrite <- Eo, <- E1. split; [exact T1|exact T2].
      * intros w' Hni. cbn [ids map] in Hni. apply Decidable.not_or in Hni. destruct Hni as (N1 & N2).
        destruct (S2 w' N2) as (-> & ->). apply Hoth. congruence.
      * intros w' Hw'. right. apply S3. exact Hw'.
Qed.

(* the registry after the removals *)
Lemma expire_requests_reg rs : keeps s_reg (expire_requests o cfg rs).
Proof.
  induction rs as [|r rs IH]; simpl; unfold check_failure_count, reassign_request, rejected_job, job_failed,
  notify_monitor, send_request, failures_incr; keep.
Qed.
Lemma reject_all_reg d rs : keeps s_reg (reject_all d rs).
Proof. induction rs as [|r rs IH]; simpl; unfold rejected_job; keep. Qed.
Lemma count_idle_reg ws : keeps s_reg (count_idle ws).
Proof. induction ws; simpl; unfold stat_incr; keep. Qed.
Lemma timer_scan_reg t ws : keeps s_reg (timer_scan cfg t ws).
Proof. induction ws; simpl; keep. Qed.

Lemma reg_remove_ids w ws : NoDup (ids ws) -> NoDup (ids (reg_remove w ws)).
Proof.
  intros H. induction ws as [|x ws IH]; simpl; [constructor|]. inversion H; subst. destruct (same_worker x w); [assumption|].
  simpl. constructor; [|auto]. intros Hc. apply H2. apply in_map_iff in Hc. destruct Hc as (y & E & Hy). rewrite <- E.
  apply in_map. eapply reg_remove_subset; eauto.
Qed.

Lemma expire_workers_reg ws : forall s outs s', NoDup (ids (s_reg s)) -> NoDup (ids ws) -> incl ws (s_reg s) ->
  expire_workers o cfg ws s = (outs, inr (tt, s')) -> forall w, In w (s_reg s') <-> In w (s_reg s) /\ ~ In w ws.
Proof.
  induction ws as [|x ws IH]; simpl; intros s outs s' Hnd Hn Hi H w.
  - minv. tauto.
  - apply bind_inv in H. destruct H as (? & [] & s1 & ? & H1 & H & _). apply modify_inv in H1. destruct H1 as (_ & _ & E1).
    apply bind_inv in H. destruct H as (? & cur & s2 & ? & H2 & H & _). apply queue_call_inv in H2. destruct H2 as (? & _ & _ & E2).
    apply bind_inv in H. destruct H as (? & [] & s3 & ? & H3 & H & _).
    assert (E3 : s_reg s3 = s_reg s2) by (destruct cur; unfold failures_incr in H3; minv; reflexivity).
    apply bind_inv in H. destruct H as (? & rs & s4 & ? & H4 & H & _). apply queue_call_inv in H4. destruct H4 as (? & _ & _ & E4).
    apply bind_inv in H. destruct H as (? & un & s5 & ? & H5 & H & _). pose proof (expire_requests_reg _ _ _ _ _ H5) as E5.
    apply bind_inv in H. destruct H as (? & [] & s6 & ? & H6 & H & _). pose proof (reject_all_reg _ _ _ _ _ _ H6) as E6.
    assert (E : s_reg s6 = reg_remove x (s_reg s)).
    { rewrite E6, E5, E4. cbn [s_reg set_queue]. rewrite E3, E2. cbn [s_reg set_queue]. rewrite E1. reflexivity. }
    clear E1 E2 E3 E4 E5 E6 H3 H5 H6. rename H into Hk.
    inversion Hn as [|? ? Hx Hn']; subst.
    assert (Hxin : In x (s_reg s)) by (apply Hi; left; reflexivity).
    assert (I1 : NoDup (ids (s_reg s6))) by (rewrite E; apply reg_remove_ids; exact Hnd).
    assert (I2 : incl ws (s_reg s6)).
    { rewrite E. intros y Hy. apply (reg_remove_in x y (s_reg s) Hnd Hxin). split; [apply Hi; right; exact Hy|].
      intros ->. apply Hx. apply in_map. exact Hy. }
    pose proof (IH _ _ _ I1 Hn' I2 Hk w) as HIw. rewrite E, (reg_remove_in x w (s_reg s) Hnd Hxin) in HIw.
    assert (x = w <-> w = x) by (split; congruence). tauto.
Qed.

Definition ticked (z : Z) (s s' : state) : Prop :=
  (forall w, In w (s_reg s) -> scanned z s s' w (~ In w (s_reg s'))) /\
  (forall w, ~ In (w_id w) (ids (s_reg s)) -> liveness s' w = liveness s w /\ ping_timer s' w = ping_timer s w) /\
  incl (s_reg s') (s_reg s) /\ s_next_w s' = s_next_w s.

Lemma process_timer_effect m s outs s' : inv s [] -> process_timer o cfg m s = (outs, inr (tt, s')) ->
  exists t rest z, m_data m = t :: rest /\ stoll t = Val z /\ ticked z s s'.
Proof.
  intros HI H. unfold process_timer in H. destruct (m_data m) as [|t rest]; [discriminate|].
  apply bind_inv in H. destruct H as (? & z & s1 & ? & H1 & H & _). apply lift_inv in H1. destruct H1 as (_ & Ez & ->).
  apply bind_inv in H. destruct H as (? & s1 & s2 & ? & H1 & H & _). apply get_inv in H1. destruct H1 as (_ & -> & ->).
  apply bind_inv in H. destruct H as (? & rm & s3 & ? & H1 & H & _).
  apply bind_inv in H. destruct H as (? & [] & s4 & ? & H2 & H & _).
  pose proof (qi_nodup _ _ (inv_q _ _ HI)) as Hnd.
  destruct (timer_scan_exact _ _ _ _ _ _ Hnd H1) as (_ & S1 & S2 & S3).
  destruct (timer_scan_core _ _ _ _ _ _ _ H1) as (_ & HC & _ & Hr). specialize (Hr Hnd).
  pose proof (timer_scan_reg _ _ _ _ _ _ H1) as R3.
  assert (HI3 : inv s3 []) by (eapply (atom_inv o cfg); [exact HI|apply a_tau; exact HC]).
  assert (Hnd3 : NoDup (ids (s_reg s3))) by (rewrite R3; exact Hnd).
  assert (Hrm : incl rm (s_reg s3)) by (rewrite R3; exact S3).
  pose proof (expire_workers_reg _ _ _ _ Hnd3 Hr Hrm H2) as R4.
  pose proof (expire_workers_pings _ _ _ _ _ _ _ H2) as P4.
  destruct (expire_workers_sim _ _ _ _ _ _ HI3 Hr Hrm H2) as (ls & A & _ & F).
  assert (N4 : s_next_w s4 = s_next_w s3).
  { clear - A F. remember [] as h eqn:Eh in A. clear Eh. revert F. induction A as [|s h l s1 h1 ls s2 h2 Ha _ IH]; intros F; [reflexivity|].
    inversion F; subst. rewrite IH by assumption. destruct Ha; simpl in *; try tauto; try reflexivity.
    - match goal with HH : core _ = core _ |- _ => unfold core in HH; injection HH as _ _ _ -> _ end. reflexivity.
    - destruct (current_of (s_queue s) w); reflexivity. }
  assert (HK : s_reg s' = s_reg s4 /\ pings s' = pings s4 /\ s_next_w s' = s_next_w s4).
  { apply bind_inv in H. destruct H as (? & s5 & s6 & ? & H3 & H & _). apply get_inv in H3. destruct H3 as (_ & -> & ->).
    assert (K1 : keeps s_reg (stat_set STATS_QUEUED_JOBS (N.of_nat (q_queued_count (s_queue s4))) ;;
      stat_set STATS_WORKER_COUNT (N.of_nat (length (s_reg s4))) ;; stat_set STATS_IDLE_WORKER_COUNT 0 ;;
      count_idle (s_reg s4) ;; s <- get ;;
      stat_set STATS_JOBS_IN_PROGRESS (size_sub (stat STATS_WORKER_COUNT s) (stat STATS_IDLE_WORKER_COUNT s)))).
    { pose proof count_idle_reg. unfold stat_set. keep. }
    assert (K2 : keeps pings (stat_set STATS_QUEUED_JOBS (N.of_nat (q_queued_count (s_queue s4))) ;;
      stat_set STATS_WORKER_COUNT (N.of_nat (length (s_reg s4))) ;; stat_set STATS_IDLE_WORKER_COUNT 0 ;;
      count_idle (s_reg s4) ;; s <- get ;;
      stat_set STATS_JOBS_IN_PROGRESS (size_sub (stat STATS_WORKER_COUNT s) (stat STATS_IDLE_WORKER_COUNT s)))).
    { pose proof count_idle_pings. unfold stat_set. keep. }
    assert (K3 : keeps s_next_w (stat_set STATS_QUEUED_JOBS (N.of_nat (q_queued_count (s_queue s4))) ;;
      stat_set STATS_WORKER_COUNT (N.of_nat (length (s_reg s4))) ;; stat_set STATS_IDLE_WORKER_COUNT 0 ;;
      count_idle (s_reg s4) ;; s <- get ;;
      stat_set STATS_JOBS_IN_PROGRESS (size_sub (stat STATS_WORKER_COUNT s) (stat STATS_IDLE_WORKER_COUNT s)))).
    { assert (forall ws, keeps s_next_w (count_idle ws)) by (induction ws; simpl; unfold stat_incr; keep). unfold stat_set. keep. }
    rewrite (K1 _ _ _ _ H), (K2 _ _ _ _ H), (K3 _ _ _ _ H). auto. }
  destruct HK as (K1 & K2 & K3). rewrite P4 in K2. unfold pings in K2. injection K2 as L1 L2.
  assert (LV : forall w, liveness s' w = liveness s3 w /\ ping_timer s' w = ping_timer s3 w).
  { intros w. unfold liveness, ping_timer. rewrite L1, L2. auto. }
  exists t, rest, z. split; [reflexivity|]. split; [exact Ez|]. split; [|split; [|split]].
  - intros w Hw. destruct (S1 w Hw) as (T1 & T2). split; [exact T1|]. destruct (LV w) as (-> & ->).
    assert (HR : ~ In w (s_reg s') <-> In w rm).
    { rewrite K1, R4, R3. destruct (in_dec Nat.eq_dec (w_id w) (ids rm)) as [Hi|Hn].
      - apply in_map_iff in Hi. destruct Hi as (w' & Ei & Hi).
        assert (w' = w) as -> by (eapply ids_inj; [exact Hnd|apply S3; exact Hi|exact Hw|exact Ei]). tauto.
      - assert (~ In w rm) by (intros Hc; apply Hn; apply in_map; exact Hc). tauto. }
    destruct (Z.ltb _ _); tauto.
  - intros w Hn. destruct (LV w) as (-> & ->). apply S2. exact Hn.
  - intros w Hw. rewrite K1 in Hw. apply R4 in Hw. rewrite R3 in Hw. tauto.
  - rewrite K3, N4. unfold core in HC. injection HC as _ _ _ <- _. reflexivity.
Qed.

(* messages other than ticks remove nobody *)
Definition not_expire (l : label) : Prop := match l with LExpire _ _ => False | _ => True end.
Lemma atoms_keep_workers s h ls s' h' : atoms o cfg s h ls s' h' -> Forall not_expire ls -> incl (s_reg s) (s_reg s').
Proof.
  induction 1 as [|s h l s1 h1 ls s2 h2 Ha _ IH]; intros F; [apply incl_refl|]. inversion F; subst.
  eapply incl_tran; [|apply IH; assumption]. destruct Ha; simpl in *; try apply incl_refl; try tauto.
  - match goal with HH : core _ = core _ |- _ => unfold core in HH; injection HH as <- _ _ _ _ end. apply incl_refl.
  - match goal with HH : core _ = (_, _, _, _, _) |- _ => unfold core in HH; injection HH as -> _ _ _ _ end.
    apply incl_appl. apply incl_refl.
  - match goal with HH : _ \/ _ |- _ => destruct HH; subst end; apply incl_refl.
Qed.

Lemma quiet_not_expire ls : Forall quiet ls -> Forall not_expire ls.
Proof. apply Forall_impl. intros []; simpl; tauto. Qed.

Lemma keep_workers m s outs s' : inv s [] -> m_key m <> "timer" -> on_request o cfg m s = (outs, inr (tt, s')) ->
  incl (s_reg s) (s_reg s').
Proof.
  intros HI Hk H. destruct (on_request_sim _ _ _ _ _ _ HI H) as (ls & A & _ & S).
  apply (atoms_keep_workers _ _ _ _ _ A). destruct S as [ls F _|ls E|ls rest _ _ S|pre w cur x next rest _ _ F _|ls rest _ _ S].
  - apply quiet_not_expire. exact F.
  - contradiction.
  - destruct S; repeat constructor.
  - apply Forall_app. split; [apply quiet_not_expire; exact F|repeat constructor].
  - constructor; [exact I|]. destruct S; repeat constructor.
    match goal with HH : error_shape _ _ _ |- _ => destruct HH end; repeat constructor.
Qed.

(* what registration does to the ping bookkeeping *)
Lemma init_effect i d s outs s' : process_worker_init o i d s = (outs, inr (tt, s')) ->
  s_live s' = s_live s /\
  ((s_timers s' = s_timers s /\ s_reg s' = s_reg s /\ s_next_w s' = s_next_w s) \/
   exists nw, w_id nw = s_next_w s /\ s_timers s' = pm_emplace nw 0%Z (s_timers s) /\ s_reg s' = s_reg s ++ [nw] /\
     s_next_w s' = S (s_next_w s)).
Proof.
  intros H. split; [exact (init_live _ _ _ _ _ _ _ H)|].
  unfold process_worker_init in H. destruct (Nat.ltb _ _); [minv; auto|].
  apply bind_inv in H. destruct H as (? & hw & s1 & ? & H1 & H & _). apply at_inv in H1. destruct H1 as (_ & _ & ->).
  destruct (parse_init_headers (skipn 2 d) []) as (headers, rest). cbv zeta in H.
  apply bind_inv in H. destruct H as (? & s1 & s2 & ? & H1 & H & _). apply get_inv in H1. destruct H1 as (_ & -> & ->).
  assert (HREG : forall outs s', (
      new_worker <- lift (make_worker (s_next_w s) (o_addr o (s_next_w s)) i hw headers) ;;
      modify (set_next_w (S (s_next_w s))) ;;
      let '(desc, cur, next) := parse_init_extra rest "" None (s_next_r s) in
      modify (set_next_r next) ;;
      let new_worker := set_description desc new_worker in
      modify (fun s => set_reg (reg_add new_worker (s_reg s)) s) ;;
      request <- queue_call (q_add_worker o new_worker cur) ;;
      send_if new_worker request ;;
      modify (fun s => set_timers (pm_emplace new_worker 0%Z (s_timers s)) s)) s = (outs, inr (tt, s')) ->
    exists nw, w_id nw = s_next_w s /\ s_timers s' = pm_emplace nw 0%Z (s_timers s) /\ s_reg s' = s_reg s ++ [nw] /\
     s_next_w s' = S (s_next_w s)).
  { clear. intros outs s' H.
    apply bind_inv in H. destruct H as (? & w0 & s1 & ? & H1 & H & _). apply lift_inv in H1. destruct H1 as (_ & Ew & ->).
    apply bind_inv in H. destruct H as (? & [] & s1 & ? & H1 & H & _). apply modify_inv in H1. destruct H1 as (_ & _ & ->).
    destruct (parse_init_extra rest "" None (s_next_r s)) as ((desc, cur), next). cbv zeta in H.
    apply bind_inv in H. destruct H as (? & [] & s1 & ? & H1 & H & _). apply modify_inv in H1. destruct H1 as (_ & _ & ->).
    apply bind_inv in H. destruct H as (? & [] & s1 & ? & H1 & H & _). apply modify_inv in H1. destruct H1 as (_ & _ & ->).
    apply bind_inv in H. destruct H as (? & xr & s1 & ? & H1 & H & _). apply queue_call_inv in H1. destruct H1 as (m & _ & _ & ->).
    apply bind_inv in H. destruct H as (? & [] & s1 & ? & H1 & H & _). apply send_if_inv in H1. destruct H1 as (-> & _).
    apply modify_inv in H. destruct H as (_ & _ & ->). exists (set_description desc w0).
    apply make_worker_fields in Ew. destruct Ew as (E & _). simpl. auto. }
  destruct (find_worker_by_identity i (s_reg s)) as [w|].
  - destruct (headers_equal w headers); [minv; auto|]. right.
    apply bind_inv in H. destruct H as (? & [] & s1 & ? & H1 & H & _). unfold notify_error in H1. apply respond_inv in H1.
    destruct H1 as (_ & _ & ->). exact (HREG _ _ H).
  - right. exact (HREG _ _ H).
Qed.

Lemma refresh_pings i s w : inv s [] ->
  match sender i s with
  | Some w0 => if Nat.eqb (w_id w0) (w_id w) then liveness (refresh cfg i s) w = c_max_liveness cfg /\ ping_timer (refresh cfg i s) w = Some 0%Z
               else liveness (refresh cfg i s) w = liveness s w /\ ping_timer (refresh cfg i s) w = ping_timer s w
  | None => liveness (refresh cfg i s) w = liveness s w /\ ping_timer (refresh cfg i s) w = ping_timer s w
  end.
Proof.
  intros HI. destruct (refresh_heard cfg i s) as (_ & H). specialize (H w). destruct (sender i s); [exact H|]. rewrite H. auto.
Qed.

Definition ping_inv (s : state) : Prop :=
  (forall w, In w (s_reg s) -> exists z, ping_timer s w = Some z) /\
  (forall w, s_next_w s <= w_id w -> liveness s w = 0%N /\ ping_timer s w = None).

Lemma pm_find_emplaced {A} (w w' : worker) (a : A) m :
  pm_find w' (pm_emplace w a m) = match pm_find w' m with Some x => Some x | None => if Nat.eqb (w_id w) (w_id w') then Some a else None end.
Proof.
  unfold pm_emplace. destruct (pm_mem w m) eqn:E.
  - destruct (pm_find w' m) eqn:Ef; [reflexivity|]. destruct (Nat.eqb_spec (w_id w) (w_id w')) as [Ei|]; [|reflexivity].
    exfalso. apply pm_mem_iff in E. rewrite Ei in E. clear - E Ef. induction m as [|(x, a) t IH]; simpl in *; [contradiction|].
    unfold same_worker in Ef. destruct (Nat.eqb_spec (w_id x) (w_id w')); [discriminate|]. destruct E; [contradiction|auto].
  - rewrite pm_find_insert by (intros Hc; apply pm_mem_iff in Hc; congruence). destruct (Nat.eqb_spec (w_id w) (w_id w')) as [Ei|Ei].
    + rewrite (pm_find_none w'); [reflexivity|]. rewrite <- Ei. intros Hc. apply pm_mem_iff in Hc. congruence.
    + destruct (pm_find w' m); reflexivity.
Qed.

Inductive ping_effect (m : msg) (s s' : state) (w : worker) : Prop :=
| pe_tick : forall t rest z, m_key m = "timer" -> m_data m = t :: rest -> reads t z ->
    scanned z s s' w (~ In w (s_reg s')) -> In w (s_reg s') \/ ~ In w (s_reg s') -> ping_effect m s s' w
| pe_heard : m_key m = "workers" -> sender (m_ident m) s = Some w -> In w (s_reg s') ->
    liveness s' w = c_max_liveness cfg -> ping_timer s' w = Some 0%Z -> ping_effect m s s' w
| pe_other : m_key m <> "timer" -> ~ (m_key m = "workers" /\ sender (m_ident m) s = Some w) -> In w (s_reg s') ->
    liveness s' w = liveness s w -> ping_timer s' w = ping_timer s w -> ping_effect m s s' w.

(* the parts of the state other than the registry that matter here, for messages that are not ticks *)
Lemma worker_pings c i d s outs s' : call_function (worker_commands o cfg) c i d s = (outs, inr (tt, s')) ->
  s_live s' = s_live s /\
  ((s_timers s' = s_timers s /\ s_next_w s' = s_next_w s /\ s_reg s' = s_reg s) \/
   exists nw, w_id nw = s_next_w s /\ s_timers s' = pm_emplace nw 0%Z (s_timers s) /\ s_reg s' = s_reg s ++ [nw] /\
     s_next_w s' = S (s_next_w s)).
Proof.
  intros H. unfold call_function, worker_commands in H. cbn [sm_find] in H.
  assert (HD : forall i d, keeps s_next_w (process_worker_done o cfg i d)).
  { intros. unfold process_worker_done, check_failure_count, reassign_request, send_if, send_request, rejected_job, job_failed, job_done,
    notify_monitor, failures_incr, stat_incr. keep. }
  assert (HD' : forall i d, keeps s_reg (process_worker_done o cfg i d)).
  { intros. unfold process_worker_done, check_failure_count, reassign_request, send_if, send_request, rejected_job, job_failed, job_done,
    notify_monitor, failures_incr, stat_incr. keep. }
  destruct (String.eqb "init" c).
  { destruct (init_effect _ _ _ _ _ H) as (H1 & [(H2 & H3 & H4)|H2]); auto. }
  destruct (String.eqb "done" c).
  { pose proof (done_pings _ _ _ _ _ _ _ _ H) as HP. unfold pings in HP. injection HP as -> ->.
    rewrite (HD _ _ _ _ _ _ H), (HD' _ _ _ _ _ _ H). auto. }
  destruct (String.eqb "ping" c).
  { unfold process_worker_ping in H. minv1 H. minv1 Hm. destruct (find_worker_by_identity _ _); minv; auto. }
  destruct (String.eqb "progress" c).
  { unfold process_worker_progress in H. minv. auto. }
  minv. auto.
Qed.

Lemma client_pings c i d s outs s' : call_function (client_commands o) c i d s = (outs, inr (tt, s')) ->
  pings s' = pings s /\ s_next_w s' = s_next_w s /\ s_reg s' = s_reg s.
Proof.
  intros H. unfold call_function, client_commands in H. cbn [sm_find] in H.
  assert (HD : forall i d, keeps s_next_w (process_client_eval o i d)) by (intros; unfold process_client_eval, send_request, notify_monitor; keep).
  assert (HD' : forall i d, keeps s_reg (process_client_eval o i d)) by (intros; unfold process_client_eval, send_request, notify_monitor; keep).
  destruct (String.eqb "eval" c).
  { rewrite (eval_pings _ _ _ _ _ _ _ H), (HD _ _ _ _ _ _ H), (HD' _ _ _ _ _ _ H). auto. }
  destruct (String.eqb "get-runtime-stats" c).
  { unfold process_client_get_runtime_stats in H. minv. auto. }
  destruct (String.eqb "freeze" c).
  { unfold process_client_freeze in H. minv. auto. }
  destruct (String.eqb "unfreeze" c).
  { unfold process_client_unfreeze in H. minv. auto. }
  minv. auto.
Qed.

Theorem step_pings m s outs s' : inv s [] -> ping_inv s -> on_request o cfg m s = (outs, inr (tt, s')) ->
  (forall w, In w (s_reg s) -> ping_effect m s s' w) /\ ping_inv s' /\
  (forall w, In w (s_reg s') -> In w (s_reg s) \/
    m_key m = "workers" /\ w_id w = s_next_w s /\ liveness s' w = 0%N /\ ping_timer s' w = Some 0%Z) /\
  s_next_w s <= s_next_w s'.
Proof.
  intros HI (P1 & P2) H. pose proof H as H0. rewrite on_request_eq in H. unfold on_request_cases in H.
  pose proof (qi_nodup _ _ (inv_q _ _ HI)) as Hnd.
  destruct (String.eqb_spec (m_key m) "workers") as [Ek|Ek].
  - destruct (m_data m) as [|c rest] eqn:Ed; [discriminate|].
    set (s1 := refresh cfg (m_ident m) s) in *.
    pose proof (fun w => refresh_pings (m_ident m) s w HI) as RP. fold s1 in RP.
    assert (R1 : s_reg s1 = s_reg s) by apply refresh_reg.
    assert (R2 : s_next_w s1 = s_next_w s) by apply refresh_next_w.
    destruct (worker_pings _ _ _ _ _ _ H) as (L & TT).
    assert (Lw : forall w, liveness s' w = liveness s1 w) by (intros; unfold liveness; rewrite L; reflexivity).
    assert (Tw : forall w, w_id w < s_next_w s -> ping_timer s' w = ping_timer s1 w).
    { intros w Hw. unfold ping_timer. destruct TT as [(-> & _)|(nw & E1 & -> & _)]; [reflexivity|].
      rewrite pm_find_emplaced. destruct (pm_find w (s_timers s1)); [reflexivity|].
      destruct (Nat.eqb_spec (w_id nw) (w_id w)); [lia|reflexivity]. }
    assert (Snd : forall w0, sender (m_ident m) s = Some w0 -> In w0 (s_reg s)).
    { intros w0 E. rewrite sender_find in E. apply find_by_identity_in in E. apply E. }
    assert (Hin : forall w, In w (s_reg s) -> In w (s_reg s')).
    { intros w Hw. destruct TT as [(_ & _ & ->)|(nw & _ & _ & -> & _)]; rewrite R1; [exact Hw|]. apply in_or_app. auto. }
    split; [|split; [|split]].
    + intros w Hw. pose proof (inv_w _ _ HI w Hw) as Hlt. specialize (RP w).
      destruct (sender (m_ident m) s) as [w0|] eqn:Es.
      * destruct (Nat.eqb_spec (w_id w0) (w_id w)) as [Ei|Ei].
        -- assert (w0 = w) as -> by (eapply ids_inj; eauto). apply pe_heard; auto.
           ++ rewrite Lw. apply RP.
           ++ rewrite Tw by assumption. apply RP.
        -- apply pe_other; auto.
           ++ rewrite Ek. discriminate.
           ++ rewrite Es. intros (_ & [= ->]). congruence.
           ++ rewrite Lw. apply RP.
           ++ rewrite Tw by assumption. apply RP.
      * apply pe_other; auto.
        -- rewrite Ek. discriminate.
        -- rewrite Es. intros (_ & E). discriminate.
        -- rewrite Lw. apply RP.
        -- rewrite Tw by assumption. apply RP.
    + split.
      * intros w Hw. assert (HC : In w (s_reg s) \/ exists nw, w = nw /\ w_id nw = s_next_w s /\ s_timers s' = pm_emplace nw 0%Z (s_timers s1)).
        { destruct TT as [(_ & _ & E)|(nw & E1 & E2 & E & _)]; rewrite E, R1 in Hw; [auto|].
          apply in_app_iff in Hw. destruct Hw as [?|[<-|[]]]; [auto|]. right. exists nw. rewrite <- R2. auto. }
        destruct HC as [Hi|(nw & -> & E1 & E2)].
        -- rewrite Tw by (apply (inv_w _ _ HI); exact Hi). destruct (P1 w Hi) as (z & Ez). specialize (RP w).
           destruct (sender (m_ident m) s) as [w0|]; [destruct (Nat.eqb _ _)|]; destruct RP as (_ & ->); eauto.
        -- unfold ping_timer. rewrite E2, pm_find_emplaced, Nat.eqb_refl. destruct (pm_find nw (s_timers s1)); eauto.
      * intros w Hw. rewrite Lw.
        assert (Hge : s_next_w s <= w_id w) by (destruct TT as [(_ & E & _)|(nw & _ & _ & _ & E)]; rewrite E, R2 in Hw; lia).
        destruct (P2 w Hge) as (E1 & E2). specialize (RP w).
        assert (RP' : liveness s1 w = liveness s w /\ ping_timer s1 w = ping_timer s w).
        { destruct (sender (m_ident m) s) as [w0|] eqn:Es; [|exact RP]. destruct (Nat.eqb_spec (w_id w0) (w_id w)) as [Ei|]; [|exact RP].
          specialize (inv_w _ _ HI w0 (Snd _ eq_refl)). lia. }
        destruct RP' as (-> & RT). split; [exact E1|]. rewrite E2 in RT. unfold ping_timer in *.
        destruct TT as [(-> & _)|(nw & En & -> & _ & En2)]; [exact RT|]. rewrite pm_find_emplaced, RT.
        destruct (Nat.eqb_spec (w_id nw) (w_id w)); [lia|reflexivity].
    + intros w Hw. destruct TT as [(_ & _ & E)|(nw & E1 & E2 & E & _)]; rewrite E, R1 in Hw; [auto|].
      apply in_app_iff in Hw. destruct Hw as [?|[<-|[]]]; [auto|]. right. split; [exact Ek|].
      rewrite R2 in E1. destruct (P2 nw) as (Q1 & Q2); [lia|]. specialize (RP nw).
      assert (RP' : liveness s1 nw = liveness s nw /\ ping_timer s1 nw = ping_timer s nw).
      { destruct (sender (m_ident m) s) as [w0|] eqn:Es; [|exact RP]. destruct (Nat.eqb_spec (w_id w0) (w_id nw)) as [Ei|]; [|exact RP].
        specialize (inv_w _ _ HI w0 (Snd _ eq_refl)). lia. }
      destruct RP' as (RL & RT). rewrite Lw, RL. split; [exact E1|]. split; [exact Q1|]. rewrite Q2 in RT. unfold ping_timer in *.
      rewrite E2, pm_find_emplaced, RT, Nat.eqb_refl. auto.
    + destruct TT as [(_ & -> & _)|(nw & _ & _ & _ & ->)]; lia.
  - destruct (String.eqb_spec (m_key m) "clients") as [Ec|Ec].
    + destruct (m_data m) as [|c rest] eqn:Ed; [discriminate|].
      destruct (client_pings _ _ _ _ _ _ H) as (E1 & E2 & E3). unfold pings in E1. injection E1 as L1 L2.
      split; [|split; [|split; [|lia]]].
      * intros w Hw. apply pe_other; unfold liveness, ping_timer; rewrite ?L1, ?L2, ?E3; auto; rewrite Ec; [|intros (E & _)]; discriminate.
      * unfold ping_inv, liveness, ping_timer. rewrite L1, L2, E2, E3. split; assumption.
      * intros w Hw. rewrite E3 in Hw. auto.
    + destruct (String.eqb_spec (m_key m) "timer") as [Et|Et].
      * destruct (process_timer_effect _ _ _ _ HI H) as (t & rest & z & Ed & Ez & T1 & T2 & T3 & T4).
        split; [|split; [|split; [|lia]]].
        -- intros w Hw. eapply pe_tick; eauto; [apply reads_stoll; exact Ez|].
           destruct (in_dec Nat.eq_dec (w_id w) (ids (s_reg s'))) as [Hc|Hc].
           ++ left. apply in_map_iff in Hc. destruct Hc as (w' & E & Hw'). assert (w' = w) as <-; [|exact Hw'].
              apply (ids_inj (s_reg s)); auto.
           ++ right. intros Hc'. apply Hc. apply in_map. exact Hc'.
        -- split.
           ++ intros w Hw. apply T3 in Hw. destruct (T1 w Hw) as (_ & HT). destruct (Z.ltb _ _); destruct HT as (_ & -> & _); eauto.
           ++ intros w Hw. rewrite T4 in Hw. assert (Hn : ~ In (w_id w) (ids (s_reg s))).
              { intros Hc. apply in_map_iff in Hc. destruct Hc as (w' & E & Hw'). apply (inv_w _ _ HI) in Hw'. lia. }
              destruct (T2 w Hn) as (-> & ->). auto.
        -- intros w Hw. auto.
      * minv. split; [|split; [split; assumption|split; [|lia]]].
        -- intros w Hw. apply pe_other; auto. intros (E & _). contradiction.
        -- intros w Hw. auto.
Qed.

Theorem run_ping_inv k tr s : run o cfg k tr s -> ping_inv s.
Proof.
  induction 1 as [|tr s m outs s' Hrun IH Hstep].
  - split; [intros w []|]. intros w _. split; reflexivity.
  - apply (step_pings _ _ _ _ (run_inv _ _ _ _ _ Hrun) IH Hstep).
Qed.

(* a worker that has been registered is never registered again after its removal *)
Lemma ticks_snoc tr e zs : ticks (tr ++ [e]) zs ->
  (m_key (ev_in e) <> "timer" /\ ticks tr zs) \/
  exists t rest z zs0, m_key (ev_in e) = "timer" /\ m_data (ev_in e) = t :: rest /\ reads t z /\ zs = zs0 ++ [z] /\ ticks tr zs0.
Proof.
  revert zs. induction tr as [|x tr IH]; simpl; intros zs H; inversion H; subst.
  - match goal with HH : ticks [] _ |- _ => inversion HH; subst end. right. exists t, rest, z, []. repeat split; auto.
  - match goal with HH : ticks [] _ |- _ => inversion HH; subst end. left. split; assumption.
  - match goal with HH : ticks (_ ++ _) _ |- _ => destruct (IH _ HH) as [(N & T)|(t' & rest' & z' & zs1 & K & Dd & R & -> & T)] end.
    + left. split; [exact N|]. econstructor; eassumption.
    + right. exists t', rest', z', (z :: zs1). repeat split; auto. econstructor; eassumption.
  - match goal with HH : ticks (_ ++ _) _ |- _ => destruct (IH _ HH) as [(N & T)|(t' & rest' & z' & zs1 & K & Dd & R & -> & T)] end.
    + left. split; [exact N|]. apply ti_other; assumption.
    + right. exists t', rest', z', zs1. repeat split; auto. apply ti_other; assumption.
Qed.

Lemma sum_snoc zs z : sum (zs ++ [z]) = (sum zs + z)%Z.
Proof. unfold sum. induction zs; simpl; lia. Qed.

Lemma reads_fun t z z' : reads t z -> reads t z' -> z = z'.
Proof. intros H H'. apply reads_stoll in H, H'. congruence. Qed.

Lemma run_last k tr e s : run o cfg k (tr ++ [e]) s -> run o cfg k tr (ev_pre e) /\
  on_request o cfg (ev_in e) (ev_pre e) = (ev_out e, inr (tt, ev_post e)) /\ ev_post e = s.
Proof.
  intros H. remember (tr ++ [e]) as trx eqn:E. destruct H as [|tr0 s0 m outs s' H1 H2]; [destruct tr; discriminate|].
  apply app_inj_tail in E. destruct E as (<- & <-). auto.
Qed.

(* a property of the state kept along a history, given the elapsed times of its ticks *)
Lemma along k (P : list Z -> state -> Prop) tr1 e tr2 s zs :
  run o cfg k (tr1 ++ e :: tr2) s -> ticks tr2 zs ->
  P [] (ev_post e) ->
  (forall tr0 x trx, tr2 = tr0 ++ x :: trx -> forall zs0, inv (ev_pre x) [] -> ping_inv (ev_pre x) -> P zs0 (ev_pre x) ->
     on_request o cfg (ev_in x) (ev_pre x) = (ev_out x, inr (tt, ev_post x)) ->
     (m_key (ev_in x) <> "timer" -> P zs0 (ev_post x)) /\
     (forall t rest z, m_key (ev_in x) = "timer" -> m_data (ev_in x) = t :: rest -> reads t z -> (exists zs2, zs = zs0 ++ z :: zs2) ->
        P (zs0 ++ [z]) (ev_post x))) ->
  P zs s.
Proof.
  intros HR HT H0 Hst.
  assert (HG : forall tr2' zs' s', (exists trx, tr2 = tr2' ++ trx) -> (exists zs2, zs = zs' ++ zs2) ->
    run o cfg k (tr1 ++ e :: tr2') s' -> ticks tr2' zs' -> P zs' s').
  { intros tr2'. induction tr2' as [|x tr2' IH] using rev_ind; intros zs' s' (trx & Etr) (zs2 & Ezs) HR' HT'.
    - inversion HT'; subst. destruct (run_last _ _ _ _ HR') as (_ & _ & <-). exact H0.
    - replace (tr1 ++ e :: tr2' ++ [x]) with ((tr1 ++ e :: tr2') ++ [x]) in HR' by (rewrite <- app_assoc; reflexivity).
      destruct (run_last _ _ _ _ HR') as (HRx & Hsx & <-).
      assert (Etr' : exists trx0, tr2 = tr2' ++ trx0) by (exists (x :: trx); rewrite Etr, <- app_assoc; reflexivity).
      destruct (ticks_snoc _ _ _ HT') as [(N & T)|(t & rest & z & zs0 & K & Dd & R & -> & T)].
      + assert (HP : P zs' (ev_pre x)) by (apply IH; eauto).
        apply (Hst tr2' x trx) in HP; auto; [apply HP; exact N| |exact (run_inv _ _ _ _ _ HRx)|exact (run_ping_inv _ _ _ HRx)].
        rewrite Etr, <- app_assoc. reflexivity.
      + assert (Ezs' : exists zs2, zs = zs0 ++ zs2) by (exists (z :: zs2); rewrite Ezs, <- app_assoc; reflexivity).
        assert (HP : P zs0 (ev_pre x)) by (apply IH; eauto).
        apply (Hst tr2' x trx) in HP; auto; [| |exact (run_inv _ _ _ _ _ HRx)|exact (run_ping_inv _ _ _ HRx)].
        * apply (proj2 HP t rest); auto. exists zs2. rewrite Ezs, <- app_assoc. reflexivity.
        * rewrite Etr, <- app_assoc. reflexivity. }
  apply (HG tr2 zs s); auto; exists []; rewrite app_nil_r; reflexivity.
Qed.

Theorem communicating_kept k tr1 e tr2 s w zs : run o cfg k (tr1 ++ e :: tr2) s -> hears w e -> ticks tr2 zs ->
  Forall (fun z => 0 <= z)%Z zs -> (1 <= c_max_liveness cfg)%N ->
  (sum zs < Z.of_N (c_max_liveness cfg) * (c_ping_interval cfg + 1))%Z ->
  In w (s_reg s).
Proof.
  intros HR (HK & HS) HT HZ Hm Hsum.
  destruct (run_split o cfg _ _ _ _ _ HR) as (HR1 & Hstep).
  pose (P := fun zs0 s => In w (s_reg s) /\ exists missed t, (missed < c_max_liveness cfg)%N /\
    liveness s w = (c_max_liveness cfg - missed)%N /\ ping_timer s w = Some t /\ (0 <= t)%Z /\
    (Z.of_N missed * (c_ping_interval cfg + 1) + t <= sum zs0)%Z /\ (0 <= sum zs0)%Z).
  enough (P zs s) as (? & _) by assumption.
  refine (along k P tr1 e tr2 s zs HR HT _ _).
  - pose proof (step_pings _ _ _ _ (run_inv _ _ _ _ _ HR1) (run_ping_inv _ _ _ HR1) Hstep) as (PE & _).
    assert (Hin : In w (s_reg (ev_pre e))) by (rewrite sender_find in HS; apply find_by_identity_in in HS; apply HS).
    destruct (PE w Hin) as [? ? ? K|_ _ Hi L T|_ N]; [rewrite K in HK; discriminate| |exfalso; apply N; auto].
    split; [exact Hi|]. exists 0%N, 0%Z. rewrite N.sub_0_r. cbn. repeat split; auto; lia.
  - intros tr0 x trx _ zs0 HI HP (Hin & missed & t & M & L & T & T0 & B & B0) Hx.
    pose proof (step_pings _ _ _ _ HI HP Hx) as (PE & _). specialize (PE w Hin).
    split.
    + intros N. destruct PE as [? ? ? K|_ _ Hi L' T'|_ _ Hi L' T']; [contradiction| |].
      * split; [exact Hi|]. exists 0%N, 0%Z. rewrite N.sub_0_r. repeat split; auto; lia.
      * split; [exact Hi|]. exists missed, t. rewrite L', T'. auto 10.
    + intros t' rest z K Dd R (zs2 & ->).
      destruct PE as [t'' rest'' z'' _ Dd' R' (SI & SC) SD|K' _ _ _ _|N _ _ _ _];
        [|rewrite K in K'; discriminate|contradiction].
      assert (z'' = z) as -> by (rewrite Dd in Dd'; injection Dd' as <- <-; eapply reads_fun; eassumption).
      apply Forall_app in HZ. destruct HZ as (_ & HZ). inversion HZ as [|? ? Hz HZ2]; subst.
      assert (Hle : (sum (zs0 ++ [z]) <= sum (zs0 ++ z :: zs2))%Z).
      { clear - HZ2. unfold sum. rewrite !fold_right_app. simpl. assert (0 <= fold_right Z.add 0 zs2)%Z.
        { induction HZ2; simpl; lia. }
        assert (HM : forall a b l, (a <= b)%Z -> (fold_right Z.add a l <= fold_right Z.add b l)%Z).
        { intros a b l Hab. induction l; simpl; lia. }
        apply HM. lia. }
      unfold old_timer in SI, SC. unfold ping_timer in T. rewrite T in SI, SC. rewrite sum_snoc in *.
      destruct (Z.ltb_spec (c_ping_interval cfg) (t + z)).
      * destruct SC as (L' & T' & Hrm). rewrite L in L'. unfold size_pred in L'.
        rewrite (proj2 (N.eqb_neq _ _)) in L' by lia.
        assert (HM : (missed + 1 < c_max_liveness cfg)%N).
        { destruct (N.ltb_spec (missed + 1) (c_max_liveness cfg)) as [|Hge]; [assumption|].
          exfalso. assert (c_max_liveness cfg = missed + 1)%N as E by lia. rewrite E in Hsum. nia. }
        assert (Hnr : ~ ~ In w (s_reg (ev_post x))) by (intros Hc; apply Hrm in Hc; lia).
        split.
        -- destruct SD; [assumption|contradiction].
        -- exists (missed + 1)%N, 0%Z. rewrite L', T', sum_snoc. repeat split; auto; lia.
      * destruct SC as (L' & T' & Hrm). split; [destruct SD; [assumption|contradiction]|].
        exists missed, (t + z)%Z. rewrite L', T', sum_snoc. repeat split; auto; lia.
Qed.

(* the registry of a later state has no worker that was removed *)
Theorem silent_removed k tr1 e tr2 s w zs d : run o cfg k (tr1 ++ e :: tr2) s -> hears w e -> silent w tr2 -> ticks tr2 zs ->
  Forall (fun z => 0 <= z <= d)%Z zs -> (0 <= d)%Z -> (0 <= c_ping_interval cfg)%Z -> (1 <= c_max_liveness cfg)%N ->
  (Z.of_N (c_max_liveness cfg - 1) * (c_ping_interval cfg + d) + c_ping_interval cfg < sum zs)%Z ->
  ~ In w (s_reg s).
Proof.
  intros HR (HK & HS) HQ HT HZ Hd Hi0 Hm Hsum.
  destruct (run_split o cfg _ _ _ _ _ HR) as (HR1 & Hstep).
  assert (Hin : In w (s_reg (ev_pre e))) by (rewrite sender_find in HS; apply find_by_identity_in in HS; apply HS).
  pose (P := fun zs0 s => w_id w < s_next_w s /\ (In w (s_reg s) -> exists missed t, (missed < c_max_liveness cfg)%N /\
    liveness s w = (c_max_liveness cfg - missed)%N /\ ping_timer s w = Some t /\ (0 <= t <= c_ping_interval cfg)%Z /\
    (sum zs0 <= Z.of_N missed * (c_ping_interval cfg + d) + t)%Z)).
  assert (HPs : P zs s).
  2:{ intros Hw. destruct (proj2 HPs Hw) as (missed & t & M & _ & _ & T & B). nia. }
  refine (along k P tr1 e tr2 s zs HR HT _ _).
  - pose proof (step_pings _ _ _ _ (run_inv _ _ _ _ _ HR1) (run_ping_inv _ _ _ HR1) Hstep) as (PE & _ & _ & Hmono).
    split; [pose proof (inv_w _ _ (run_inv _ _ _ _ _ HR1) w Hin); lia|]. intros _.
    destruct (PE w Hin) as [? ? ? K|_ _ Hi L T|_ N]; [rewrite K in HK; discriminate| |exfalso; apply N; auto].
    exists 0%N, 0%Z. rewrite N.sub_0_r. cbn. repeat split; auto; lia.
  - intros tr0 x trx Etr zs0 HI HP (Hlt & HP0) Hx.
    assert (Hsil : ~ hears w x) by (apply HQ; rewrite Etr; apply in_or_app; simpl; auto).
    pose proof (step_pings _ _ _ _ HI HP Hx) as (PE & _ & PN & Hmono).
    assert (Hold : In w (s_reg (ev_post x)) -> In w (s_reg (ev_pre x))).
    { intros Hw. destruct (PN w Hw) as [?|(_ & E & _)]; [assumption|lia]. }
    split.
    + intros N. split; [lia|]. intros Hw. specialize (Hold Hw). destruct (HP0 Hold) as (missed & t & M & L & T & T0 & B).
      destruct (PE w Hold) as [? ? ? K|K1 K2 _ _ _|_ _ _ L' T']; [contradiction|exfalso; apply Hsil; split; assumption|].
      exists missed, t. rewrite L', T'. auto 10.
    + intros t' rest z K Dd R (zs2 & ->). split; [lia|]. intros Hw. specialize (Hold Hw).
      destruct (HP0 Hold) as (missed & t & M & L & T & T0 & B).
      destruct (PE w Hold) as [t'' rest'' z'' _ Dd' R' (SI & SC) SD|K' _ _ _ _|N _ _ _ _];
        [|rewrite K in K'; discriminate|contradiction].
      assert (z'' = z) as -> by (rewrite Dd in Dd'; injection Dd' as <- <-; eapply reads_fun; eassumption).
      apply Forall_app in HZ. destruct HZ as (_ & HZ). inversion HZ as [|? ? Hz HZ2]; subst.
      unfold old_timer in SI, SC. unfold ping_timer in T. rewrite T in SI, SC. rewrite sum_snoc.
      destruct (Z.ltb_spec (c_ping_interval cfg) (t + z)).
      * destruct SC as (L' & T' & Hrm). rewrite L in L'. unfold size_pred in L'.
        rewrite (proj2 (N.eqb_neq _ _)) in L' by lia.
        assert (HM : (missed + 1 < c_max_liveness cfg)%N).
        { destruct (N.ltb_spec (missed + 1) (c_max_liveness cfg)) as [|Hge]; [assumption|].
          exfalso. apply (proj2 Hrm); [lia|exact Hw]. }
        exists (missed + 1)%N, 0%Z. rewrite L', T'. repeat split; auto; lia.
      * destruct SC as (L' & T' & Hrm). exists missed, (t + z)%Z. rewrite L', T'. repeat split; auto; lia.
Qed.

(* a worker whose liveness is zero is not removed for a long time *)
Lemma zero_wraps k tr1 e tr2 s w zs : run o cfg k (tr1 ++ e :: tr2) s ->
  In w (s_reg (ev_post e)) -> liveness (ev_post e) w = 0%N -> silent w tr2 -> ticks tr2 zs ->
  (N.of_nat (length zs) < two64)%N -> In w (s_reg s).
Proof.
  intros HR Hin HL HQ HT Hlen.
  pose (P := fun (zs0 : list Z) s => In w (s_reg s) /\ exists missed, (missed <= N.of_nat (length zs0))%N /\
    (liveness s w = 0%N /\ missed = 0%N \/ liveness s w = (two64 - missed)%N /\ (1 <= missed)%N)).
  enough (P zs s) as (? & _) by assumption.
  refine (along k P tr1 e tr2 s zs HR HT _ _).
  - split; [exact Hin|]. exists 0%N. split; [lia|auto].
  - intros tr0 x trx Etr zs0 HI HP (Hw & missed & B & HLv) Hx.
    assert (Hsil : ~ hears w x) by (apply HQ; rewrite Etr; apply in_or_app; simpl; auto).
    pose proof (step_pings _ _ _ _ HI HP Hx) as (PE & _ & _ & _). specialize (PE w Hw).
    split.
    + intros N. destruct PE as [? ? ? K|K1 K2 _ _ _|_ _ Hi L' T']; [contradiction|exfalso; apply Hsil; split; assumption|].
      split; [exact Hi|]. exists missed. rewrite L'. auto.
    + intros t' rest z K Dd R (zs2 & ->).
      destruct PE as [t'' rest'' z'' _ Dd' R' (SI & SC) SD|K' _ _ _ _|N _ _ _ _];
        [|rewrite K in K'; discriminate|contradiction].
      rewrite app_length in Hlen. cbn [length] in Hlen. unfold P. rewrite app_length. cbn [length].
      assert (H2 : (0 < two64)%N) by reflexivity.
      destruct (Z.ltb (c_ping_interval cfg) (old_timer (ev_pre x) w + z'')).
      * destruct SC as (L' & _ & Hrm).
        assert (L2 : liveness (ev_post x) w = (two64 - (missed + 1))%N).
        { rewrite L'. unfold size_pred. destruct HLv as [(-> & ->)|(-> & HM)]; [reflexivity|].
          rewrite (proj2 (N.eqb_neq _ _)) by lia. lia. }
        split.
        -- destruct SD as [?|Hn]; [assumption|]. apply Hrm in Hn. lia.
        -- exists (missed + 1)%N. split; [lia|]. right. split; [exact L2|lia].
      * destruct SC as (L' & _ & Hrm). split; [destruct SD; [assumption|contradiction]|].
        exists missed. rewrite L'. split; [lia|exact HLv].
Qed.

Theorem fresh_silence k tr1 e tr2 s w zs : run o cfg k (tr1 ++ e :: tr2) s -> enters w e -> silent w tr2 -> ticks tr2 zs ->
  (N.of_nat (length zs) < two64)%N -> In w (s_reg s).
Proof.
  intros HR (HN & HY) HQ HT Hlen. destruct (run_split o cfg _ _ _ _ _ HR) as (HR1 & Hstep).
  pose proof (step_pings _ _ _ _ (run_inv _ _ _ _ _ HR1) (run_ping_inv _ _ _ HR1) Hstep) as (_ & _ & PN & _).
  destruct (PN w HY) as [?|(_ & _ & L & _)]; [contradiction|]. eapply zero_wraps; eauto.
Qed.

Theorem zero_liveness_silence k tr1 e tr2 s w zs : c_max_liveness cfg = 0%N -> run o cfg k (tr1 ++ e :: tr2) s ->
  hears w e -> silent w tr2 -> ticks tr2 zs -> (N.of_nat (length zs) < two64)%N -> In w (s_reg s).
Proof.
  intros H0 HR (HK & HS) HQ HT Hlen. destruct (run_split o cfg _ _ _ _ _ HR) as (HR1 & Hstep).
  pose proof (step_pings _ _ _ _ (run_inv _ _ _ _ _ HR1) (run_ping_inv _ _ _ HR1) Hstep) as (PE & _).
  assert (Hin : In w (s_reg (ev_pre e))) by (rewrite sender_find in HS; apply find_by_identity_in in HS; apply HS).
  destruct (PE w Hin) as [? ? ? K|_ _ Hi L T|_ N]; [rewrite K in HK; discriminate| |exfalso; apply N; auto].
  rewrite H0 in L. eapply zero_wraps; eauto.
Qed.

End WithConfig.
