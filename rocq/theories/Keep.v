(* The table of ping timers: it grows with every registration and never shrinks. *)
From Coq Require Import Permutation.
From Verif Require Import Base Bytes Containers Worker Multi Single Queue Handler SpecText Spec SpecRun SpecMsg SpecPings SpecKeep
  Facts QueueInv Atoms HandlerSim Keeps Pings Provenance Members.
Local Open Scope string_scope.
Local Open Scope list_scope.

Lemma pm_set_timed {A} w (a : A) m : In w (keys m) -> keys (pm_set w a m) = keys m.
Proof.
  intros H. unfold pm_set. assert (E : pm_mem w m = true).
  { unfold pm_mem. apply existsb_exists. apply in_map_iff in H. destruct H as (p & E & Hp). exists p. split; [exact Hp|].
    rewrite E. unfold same_worker. apply Nat.eqb_refl. }
  rewrite E. unfold keys. rewrite map_map. apply map_ext. intros (x & b). cbn [fst]. destruct (same_worker x w); reflexivity.
Qed.

Section Keep.
Variable o : oracle.
Variable cfg : config.

Lemma scan_timed time ws : forall s outs rm s', incl ws (timed s) ->
  timer_scan cfg time ws s = (outs, inr (rm, s')) -> timed s' = timed s.
Proof.
  induction ws as [|w ws IH]; cbn [timer_scan]; intros s outs rm s' Hi H.
  - minv. reflexivity.
  - assert (Hw : In w (timed s)) by (apply Hi; left; reflexivity).
    assert (Hs : forall z, timed (set_timers (pm_set w z (s_timers s)) s) = timed s) by (intros z; exact (pm_set_timed w z _ Hw)).
    minv1 H. minv1 Hm. destruct (negb _) in Hk; [discriminate|]. destruct (Z.ltb _ _) in Hk.
    + minv1 Hk. minv1 Hm. minv1 Hk0. minv1 Hm. minv1 Hk. minv1 Hk0. apply IH in Hm.
      * rewrite Hm. apply (Hs 0%Z).
      * intros y Hy. change (In y (timed (set_timers (pm_set w 0%Z (s_timers s)) s))). rewrite Hs. apply Hi. right. exact Hy.
    + minv1 Hk. minv1 Hm. apply IH in Hk0.
      * rewrite Hk0. apply Hs.
      * intros y Hy. rewrite Hs. apply Hi. right. exact Hy.
Qed.

Definition kinv (s : state) : Prop :=
  incl (s_reg s) (timed s) /\ (forall w, In w (timed s) -> w_id w < s_next_w s).

Lemma timer_timed m s outs s' : kinv s -> process_timer o cfg m s = (outs, inr (tt, s')) -> timed s' = timed s.
Proof.
  intros (K & _) H. unfold process_timer in H. destruct (m_data m) as [|t rest]; [discriminate|].
  apply bind_inv in H. destruct H as (? & z & s1 & ? & H1 & H & _). apply lift_inv in H1. destruct H1 as (_ & Ez & ->).
  apply bind_inv in H. destruct H as (? & s1 & s2 & ? & H1 & H & _). apply get_inv in H1. destruct H1 as (_ & -> & ->).
  apply bind_inv in H. destruct H as (? & rm & s3 & ? & H1 & H & _).
  apply bind_inv in H. destruct H as (? & [] & s4 & ? & H2 & H & _).
  apply (scan_timed _ _ _ _ _ _ K) in H1. apply expire_workers_pings in H2.
  apply bind_inv in H. destruct H as (? & s5 & s6 & ? & H3 & H & _). apply get_inv in H3. destruct H3 as (_ & -> & ->).
  assert (K2 : keeps pings (stat_set STATS_QUEUED_JOBS (N.of_nat (q_queued_count (s_queue s4))) ;;
      stat_set STATS_WORKER_COUNT (N.of_nat (length (s_reg s4))) ;; stat_set STATS_IDLE_WORKER_COUNT 0 ;;
      count_idle (s_reg s4) ;; s <- get ;;
      stat_set STATS_JOBS_IN_PROGRESS (size_sub (stat STATS_WORKER_COUNT s) (stat STATS_IDLE_WORKER_COUNT s)))).
  { pose proof count_idle_pings. unfold stat_set. keep. }
  apply K2 in H. rewrite H2 in H. unfold pings in H. injection H as _ H. rewrite <- H1. unfold timed. rewrite H. reflexivity.
Qed.

Lemma step_timed m s outs s' : inv s [] -> kinv s -> on_request o cfg m s = (outs, inr (tt, s')) ->
  (timed s' = timed s /\ incl (s_reg s') (s_reg s) /\ s_next_w s' = s_next_w s) \/
  exists nw, w_id nw = s_next_w s /\ Permutation (timed s') (nw :: timed s) /\ s_reg s' = s_reg s ++ [nw] /\ s_next_w s' = S (s_next_w s).
Proof.
  intros HI K H. pose proof H as H0. rewrite on_request_eq in H. unfold on_request_cases in H. destruct K as (K1 & K2).
  destruct (String.eqb_spec (m_key m) "workers") as [Ek|Ek].
  - destruct (m_data m) as [|c rest]; [discriminate|].
    assert (R1 : s_reg (refresh cfg (m_ident m) s) = s_reg s) by apply refresh_reg.
    assert (R2 : s_next_w (refresh cfg (m_ident m) s) = s_next_w s) by apply refresh_next_w.
    assert (R3 : timed (refresh cfg (m_ident m) s) = timed s).
    { unfold refresh. destruct (find_worker_by_identity (m_ident m) (s_reg s)) as [w|] eqn:E; [|reflexivity].
      apply find_by_identity_in in E. apply (pm_set_timed w 0%Z (s_timers s)). apply K1. apply E. }
    destruct (worker_pings _ _ _ _ _ _ _ _ H) as (_ & [(T & N & R)|(nw & N & T & R & N')]).
    + left. unfold timed. rewrite T, N, R, R1. split; [exact R3|]. split; [apply incl_refl|exact R2].
    + right. exists nw. rewrite N', R, R1, R2. rewrite R2 in N. split; [exact N|]. split; [|auto].
      unfold timed at 1. rewrite T. rewrite pm_emplace_new.
      * rewrite <- R3. apply keys_insert_perm.
      * intros Hc. apply in_map_iff in Hc. destruct Hc as (w & E & Hw). change (In w (timed (refresh cfg (m_ident m) s))) in Hw.
        rewrite R3 in Hw. apply K2 in Hw. lia.
  - destruct (String.eqb_spec (m_key m) "clients") as [Ec|Ec].
    + destruct (m_data m) as [|c rest]; [discriminate|]. destruct (client_pings _ _ _ _ _ _ _ H) as (E1 & E2 & E3).
      unfold pings in E1. injection E1 as _ L2. left. unfold timed. rewrite L2, E2, E3. split; [reflexivity|]. split; [apply incl_refl|reflexivity].
    + destruct (String.eqb_spec (m_key m) "timer") as [Et|Et].
      * left. split; [apply (timer_timed _ _ _ _ (conj K1 K2) H)|].
        destruct (process_timer_effect _ _ _ _ _ _ HI H) as (t & rest & z & _ & _ & _ & _ & T3 & T4). auto.
      * minv. left. split; [reflexivity|]. split; [apply incl_refl|reflexivity].
Qed.

Lemma step_kinv m s outs s' : inv s [] -> kinv s -> on_request o cfg m s = (outs, inr (tt, s')) -> kinv s'.
Proof.
  intros HI K H. pose proof K as (K1 & K2). destruct (step_timed _ _ _ _ HI K H) as [(T & R & N)|(nw & N & T & R & N')].
  - split; [rewrite T; eapply incl_tran; eauto|rewrite T, N; exact K2].
  - split.
    + intros w Hw. apply (Permutation_in _ (Permutation_sym T)). rewrite R in Hw. apply in_app_iff in Hw.
      destruct Hw as [Hw|[<-|[]]]; [right; apply K1; exact Hw|left; reflexivity].
    + intros w Hw. apply (Permutation_in _ T) in Hw. rewrite N'. destruct Hw as [<-|Hw]; [lia|]. apply K2 in Hw. lia.
Qed.

Lemma run_kinv k tr s : run o cfg k tr s -> kinv s.
Proof.
  induction 1 as [|tr s m outs s' HR IH Hs]; [split; [intros w []|intros w []]|].
  apply (step_kinv _ _ _ _ (run_inv _ _ _ _ _ HR) IH Hs).
Qed.

Lemma newcomers_app tr1 tr2 ws1 ws2 : newcomers tr1 ws1 -> newcomers tr2 ws2 -> newcomers (tr1 ++ tr2) (ws1 ++ ws2).
Proof. induction 1; simpl; intros H2; [exact H2|apply nc_enter; auto|apply nc_other; auto]. Qed.

(* one event: nobody enters, or exactly one worker does *)
Lemma step_enters m s outs s' : inv s [] -> kinv s -> on_request o cfg m s = (outs, inr (tt, s')) ->
  ((forall w, ~ enters w (mkEvent s m outs s')) /\ timed s' = timed s) \/
  exists nw, (forall w, enters w (mkEvent s m outs s') <-> w = nw) /\ Permutation (timed s') (nw :: timed s).
Proof.
  intros HI K H. destruct (step_timed _ _ _ _ HI K H) as [(T & R & N)|(nw & N & T & R & N')].
  - left. split; [|exact T]. intros w (H1 & H2). apply H1. apply R. exact H2.
  - right. exists nw. split; [|exact T]. intros w. unfold enters. cbn [ev_pre ev_post]. rewrite R, in_app_iff. split.
    + intros (H1 & [H2|[H2|[]]]); [tauto|congruence].
    + intros ->. split; [|right; left; reflexivity]. intros Hc. apply (inv_w _ _ HI) in Hc. lia.
Qed.

Theorem newcomers_exist k tr s : run o cfg k tr s -> exists ws, newcomers tr ws.
Proof.
  induction 1 as [|tr s m outs s' HR (ws & IH) Hs]; [exists []; constructor|].
  destruct (step_enters _ _ _ _ (run_inv _ _ _ _ _ HR) (run_kinv _ _ _ HR) Hs) as [(N & _)|(nw & N & _)].
  - exists (ws ++ []). apply newcomers_app; [exact IH|]. apply nc_other; [exact N|constructor].
  - exists (ws ++ [nw]). apply newcomers_app; [exact IH|]. apply nc_enter; [apply N; reflexivity|constructor].
Qed.

Lemma newcomers_snoc tr e ws : newcomers (tr ++ [e]) ws ->
  ((forall w, ~ enters w e) /\ newcomers tr ws) \/ exists w ws0, ws = ws0 ++ [w] /\ enters w e /\ newcomers tr ws0.
Proof.
  revert ws. induction tr as [|x tr IH]; simpl; intros ws H; inversion H; subst.
  - match goal with HH : newcomers [] _ |- _ => inversion HH; subst end. right. exists w, []. split; [reflexivity|]. split; [assumption|constructor].
  - match goal with HH : newcomers [] _ |- _ => inversion HH; subst end. left. split; [assumption|constructor].
  - match goal with HH : newcomers (_ ++ _) _ |- _ => destruct (IH _ HH) as [(N & T)|(w' & ws1 & -> & E & T)] end.
    + left. split; [exact N|apply nc_enter; assumption].
    + right. exists w', (w :: ws1). split; [reflexivity|]. split; [exact E|apply nc_enter; assumption].
  - match goal with HH : newcomers (_ ++ _) _ |- _ => destruct (IH _ HH) as [(N & T)|(w' & ws1 & -> & E & T)] end.
    + left. split; [exact N|apply nc_other; assumption].
    + right. exists w', ws1. split; [reflexivity|]. split; [exact E|apply nc_other; assumption].
Qed.

Theorem timed_newcomers k tr s ws : run o cfg k tr s -> newcomers tr ws -> Permutation (timed s) ws /\ NoDup ws.
Proof.
  intros HR. revert ws. induction HR as [|tr s m outs s' HR IH Hs]; intros ws HN.
  - inversion HN; subst. split; constructor.
  - pose proof (run_kinv _ _ _ HR) as K. pose proof (run_inv _ _ _ _ _ HR) as HI.
    apply newcomers_snoc in HN.
    destruct HN as [(N & HN)|(w & ws0 & -> & E & HN)]; destruct (IH _ HN) as (P & ND).
    + split; [|exact ND]. destruct (step_enters _ _ _ _ HI K Hs) as [(_ & ->)|(nw & N' & _)]; [exact P|].
      exfalso. apply (N nw). apply N'. reflexivity.
    + destruct (step_timed _ _ _ _ HI K Hs) as [(T & R & _)|(nw & Hn & T & R & _)].
      * exfalso. destruct E as (E1 & E2). apply E1, R, E2.
      * assert (w = nw) as -> by (destruct E as (E1 & E2); cbn [ev_pre ev_post] in *; rewrite R, in_app_iff in E2;
          destruct E2 as [E2|[E2|[]]]; [tauto|congruence]).
        split.
        -- rewrite T, P. apply Permutation_cons_append.
        -- apply (Permutation_NoDup (Permutation_cons_append _ _)). constructor; [|exact ND]. intros Hc.
           apply (Permutation_in _ (Permutation_sym P)) in Hc. apply K in Hc. lia.
Qed.

Theorem never_forgotten k tr1 e tr2 s w : run o cfg k (tr1 ++ e :: tr2) s -> In w (s_reg (ev_post e)) -> In w (timed s).
Proof.
  intros HR Hw.
  assert (G : forall tr s, run o cfg k tr s -> forall t1 e t2, tr = t1 ++ e :: t2 -> incl (timed (ev_post e)) (timed s)).
  { clear. induction 1 as [|tr s m outs s' HR IH Hs]; intros t1 e t2 E; [destruct t1; discriminate|].
    assert (incl (timed s) (timed s')).
    { destruct (step_timed _ _ _ _ (run_inv _ _ _ _ _ HR) (run_kinv _ _ _ HR) Hs) as [(-> & _)|(nw & _ & T & _)]; [apply incl_refl|].
      intros w Hw. apply (Permutation_in _ (Permutation_sym T)). right. exact Hw. }
    destruct t2 as [|x t2] using rev_ind.
    - apply app_inj_tail in E. destruct E as (_ & <-). apply incl_refl.
    - clear IHt2. change (t1 ++ e :: t2 ++ [x]) with (t1 ++ (e :: t2) ++ [x]) in E. rewrite app_assoc in E. apply app_inj_tail in E.
      destruct E as (E & _). eapply incl_tran; [eapply IH; exact E|assumption]. }
  apply (G _ _ HR _ _ _ eq_refl).
  assert (HR2 : run o cfg k (tr1 ++ [e]) (ev_post e)).
  { change (tr1 ++ e :: tr2) with (tr1 ++ [e] ++ tr2) in HR. rewrite app_assoc in HR.
    destruct (run_prefix _ _ _ _ _ _ HR) as (s1 & H1). destruct (run_last _ _ _ _ _ _ H1) as (_ & _ & ->). exact H1. }
  apply (run_kinv _ _ _ HR2). exact Hw.
Qed.

End Keep.
