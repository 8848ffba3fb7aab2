(* What a timer tick does to the jobs of the workers it removes (C18). *)
From Coq Require Import Permutation Lia.
From Verif Require Import Base Bytes Containers Worker Multi Single Queue Handler Spec SpecRun Facts QueueInv OwnQueue
  Atoms HandlerSim Conserve Provenance Budget OneJob.
Local Open Scope string_scope.
Local Open Scope list_scope.

Lemma told_monitor j t j' t' : told j t (Msg KEY_MONITOR MONITOR_IDENTITY [j'; t']) = String.eqb j' j && String.eqb t' t.
Proof.
  unfold told, msg_eqb, list_string_eqb, KEY_MONITOR, MONITOR_IDENTITY. cbn [m_key m_ident m_data].
  rewrite !String.eqb_refl. cbn [length combine forallb fst snd andb Nat.eqb]. rewrite andb_true_r. reflexivity.
Qed.
Lemma told_other j t m : m_key m <> "monitor" -> told j t m = false.
Proof.
  intros H. unfold told, msg_eqb. cbn [m_key]. rewrite (proj2 (String.eqb_neq _ _) H). reflexivity.
Qed.
Lemma report_other j m : m_key m <> "status_notifier" -> is_report j m = false.
Proof. intros H. unfold is_report. rewrite (proj2 (String.eqb_neq _ _) H). reflexivity. Qed.
Lemma report_failed j j' d : is_report j (failed_report j' d) = String.eqb j' j.
Proof. apply is_report_for. apply report_rejected. Qed.

Definition failed_only (outs : list msg) : Prop :=
  forall m, In m outs -> m_key m = "status_notifier" -> exists j d, m = failed_report j d.
Lemma failed_only_nil : failed_only [].
Proof. intros m []. Qed.
Lemma failed_only_app a b : failed_only a -> failed_only b -> failed_only (a ++ b).
Proof. intros Ha Hb m Hm. rewrite in_app_iff in Hm. destruct Hm; auto. Qed.
Lemma failed_only_other m : m_key m <> "status_notifier" -> failed_only [m].
Proof. intros H m' [<-|[]] E. contradiction. Qed.
Lemma failed_only_report j d : failed_only [failed_report j d].
Proof. intros m' [<-|[]] _. eauto. Qed.

Section WithConfig.
Context (o : oracle) (cfg : config).

(* counts of job j in a list of outputs: ABORTED to the monitor, FAILED to the monitor, reports *)
Definition tally (j : string) (outs : list msg) (a f r : nat) : Prop :=
  list_count (told j "ABORTED") outs = a /\ list_count (told j "FAILED") outs = f /\ list_count (is_report j) outs = r.

Lemma tally_nil j : tally j [] 0 0 0.
Proof. repeat split. Qed.
Lemma tally_app j o1 o2 a1 f1 r1 a2 f2 r2 : tally j o1 a1 f1 r1 -> tally j o2 a2 f2 r2 ->
  tally j (o1 ++ o2) (a1 + a2) (f1 + f2) (r1 + r2).
Proof. intros (A1 & A2 & A3) (B1 & B2 & B3). unfold tally. rewrite !list_count_app. repeat split; congruence. Qed.
Lemma tally_report j j' d : tally j [failed_report j' d] 0 0 (b2n (String.eqb j' j)).
Proof.
  unfold tally. rewrite !list_count_cons, !told_other by discriminate. rewrite report_failed. simpl.
  destruct (String.eqb j' j); repeat split.
Qed.
Lemma tally_aborted j j' : tally j [Msg KEY_MONITOR MONITOR_IDENTITY [j'; "ABORTED"]] (b2n (String.eqb j' j)) 0 0.
Proof.
  unfold tally. rewrite !list_count_cons, !told_monitor, report_other by discriminate.
  destruct (String.eqb j' j); repeat split.
Qed.
Lemma tally_failed j j' : tally j [Msg KEY_MONITOR MONITOR_IDENTITY [j'; "FAILED"]] 0 (b2n (String.eqb j' j)) 0.
Proof.
  unfold tally. rewrite !list_count_cons, !told_monitor, report_other by discriminate.
  destruct (String.eqb j' j); repeat split.
Qed.
Lemma tally_dispatch j w r : tally j [dispatch_msg w r] 0 0 0.
Proof.
  unfold tally. rewrite !list_count_cons, !told_other, report_other by discriminate. repeat split.
Qed.

Lemma count_job j r rs : list_count (job_is j) (r :: rs) = b2n (String.eqb (r_job r) j) + list_count (job_is j) rs.
Proof. rewrite list_count_cons. unfold job_is at 1. destruct (String.eqb (r_job r) j); reflexivity. Qed.

(* the outputs of re-queueing the requests rs, leaving un unassigned *)
Lemma expire_requests_tally rs : forall s outs un s',
  expire_requests o cfg rs s = (outs, inr (un, s')) ->
  failed_only outs /\ forall j, exists a r, tally j outs a (r + list_count (job_is j) un) r /\
    a + r + list_count (job_is j) un = list_count (job_is j) rs.
Proof.
  induction rs as [|x rs IH]; simpl; intros s outs un s' H.
  - minv. split; [apply failed_only_nil|]. intros j. exists 0, 0. split; [apply tally_nil|reflexivity].
  - destruct (r_complete x) eqn:Hc; simpl in H.
    + minv1 H. destruct (check_failure_count_sim o _ _ _ _ [] _ _ _ Hm) as (-> & Hb & _).
      destruct x0; simpl in Hk.
      * destruct Hb as (-> & _). minv1 Hk. rename Hm0 into Hr. unfold reassign_request in Hr. minv1 Hr. minv1 Hm0.
        destruct (enqueued x1) eqn:Ee; cbn [negb] in Hk.
        -- minv1 Hk.
           assert (Hsend : failed_only o0 /\ forall j, tally j o0 0 0 0).
           { destruct (assigned_to x1); unfold send_request in Hm0; minv.
             - split; [apply failed_only_other; discriminate|intros; apply tally_dispatch].
             - split; [apply failed_only_nil|intros; apply tally_nil]. }
           minv1 Hk1. cbn [negb] in Hk0. unfold notify_monitor in Hk0. minv1 Hk0. minv1 Hm1.
           destruct (IH _ _ _ _ Hk) as (F1 & T1). destruct Hsend as (F0 & T0). rewrite app_nil_r. simpl.
           split.
           ++ apply failed_only_app; [exact F0|].
              match goal with |- failed_only (?m :: ?l) => change (m :: l) with ([m] ++ l) end.
              apply failed_only_app; [apply failed_only_other; discriminate|exact F1].
           ++ intros j. destruct (T1 j) as (a & r & T & E). exists (b2n (String.eqb (r_job x) j) + a), r. split.
              ** replace (b2n (String.eqb (r_job x) j) + a) with (0 + (b2n (String.eqb (r_job x) j) + a)) by lia.
                 apply (tally_app j _ _ 0 0 0 _ _ _ (T0 j)).
                 apply (tally_app j [_] _ _ 0 0 _ _ _ (tally_aborted j (r_job x)) T).
              ** rewrite count_job. lia.
        -- unfold notify_monitor in Hk. minv1 Hk. minv1 Hm0. minv1 Hk1. cbn [negb] in Hk0. minv1 Hk0.
           destruct (IH _ _ _ _ Hm0) as (F1 & T1). minv1 Hk. simpl. rewrite app_nil_r. split.
           ++ match goal with |- failed_only (?m :: ?l) => change (m :: l) with ([m] ++ l) end.
              apply failed_only_app; [apply failed_only_other; discriminate|exact F1].
           ++ intros j. destruct (T1 j) as (a & r & T & E). exists a, r. rewrite !count_job. split; [|lia].
              assert (TT := tally_app j [_] _ _ _ _ _ _ _ (tally_failed j (r_job x)) T).
              unfold tally in *. cbn [app] in TT. lia.
      * destruct Hb as (d & -> & _). destruct (IH _ _ _ _ Hk) as (F1 & T1). split.
        -- apply failed_only_app; [|exact F1].
           apply (failed_only_app [_] [_]); [apply failed_only_report|apply failed_only_other; discriminate].
        -- intros j. destruct (T1 j) as (a & r & T & E).
           exists a, (b2n (String.eqb (r_job x) j) + r). split; [|rewrite count_job; lia].
           replace (b2n (String.eqb (r_job x) j) + r + list_count (job_is j) un)
             with (b2n (String.eqb (r_job x) j) + (r + list_count (job_is j) un)) by lia.
           replace (b2n (String.eqb (r_job x) j) + r) with (b2n (String.eqb (r_job x) j) + 0 + r) by lia.
           refine (tally_app j [_; _] _ 0 (0 + _) _ _ _ _ _ T).
           apply (tally_app j [_] [_] 0 0 _ 0 _ 0); [apply tally_report|apply tally_failed].
    + unfold rejected_job, notify_monitor in H. minv1 H. minv1 Hm. minv1 Hk. minv1 Hm.
      destruct (IH _ _ _ _ Hk0) as (F1 & T1). simpl. split.
      * match goal with |- failed_only (?m :: ?m' :: ?l) => change (m :: m' :: l) with (([m] ++ [m']) ++ l) end.
        apply failed_only_app; [|exact F1]. apply failed_only_app; [apply failed_only_report|apply failed_only_other; discriminate].
      * intros j. destruct (T1 j) as (a & r & T & E).
        exists a, (b2n (String.eqb (r_job x) j) + r). split; [|rewrite count_job; lia].
        replace (b2n (String.eqb (r_job x) j) + r + list_count (job_is j) un)
          with (b2n (String.eqb (r_job x) j) + (r + list_count (job_is j) un)) by lia.
        replace (b2n (String.eqb (r_job x) j) + r) with (b2n (String.eqb (r_job x) j) + 0 + r) by lia.
        refine (tally_app j [_; _] _ 0 (0 + _) _ _ _ _ _ T).
        apply (tally_app j [_] [_] 0 0 _ 0 _ 0); [apply tally_report|apply tally_failed].
Qed.

Lemma reject_all_tally d rs : forall s outs s', reject_all d rs s = (outs, inr (tt, s')) ->
  failed_only outs /\ forall j, tally j outs 0 0 (list_count (job_is j) rs).
Proof.
  induction rs as [|x rs IH]; simpl; intros s outs s' H.
  - minv. split; [apply failed_only_nil|]. intros. apply tally_nil.
  - unfold rejected_job in H. minv1 H. minv1 Hm. destruct (IH _ _ _ Hk) as (F & T). split.
    + apply (failed_only_app [_]); [apply failed_only_report|exact F].
    + intros j. rewrite count_job. apply (tally_app j [_] _ 0 0 _ 0 0 _ (tally_report j (r_job x) d) (T j)).
Qed.

(* re-queueing only adds to what a registered worker owns *)
Lemma redo_owned j w s h ls s' h' : atoms o cfg s h ls s' h' -> Forall redo_label ls -> inv s h -> In w (s_reg s) ->
  list_count (job_is j) (owned (s_queue s) w) <= list_count (job_is j) (owned (s_queue s') w).
Proof.
  induction 1 as [|s h l s1 h1 ls s2 h2 Ha Has IHa]; intros F HI Hin; [lia|].
  inversion F; subst. pose proof (atom_inv _ _ _ _ _ _ _ HI Ha) as HI1.
  assert (Hin1 : In w (s_reg s1)).
  { rewrite (redo_reg o cfg _ _ _ _ _ (atoms_one o cfg _ _ _ _ _ Ha)); [exact Hin|]. constructor; [assumption|constructor]. }
  specialize (IHa H2 HI1 Hin1). etransitivity; [|exact IHa]. clear IHa Has F H2 Hin1 HI1.
  destruct Ha; simpl in *; try tauto; try lia.
  - unfold core in H. injection H as _ -> _ _ _. lia.
  - match goal with HH : q_enqueue_request _ _ _ = _ |- _ => rename HH into He end.
    pose proof (inv_q _ _ HI) as HQ. destruct (q_enqueue_spec o _ _ _ _ _ HQ H He) as (_ & HE).
    unfold owned. rewrite !list_count_app.
    assert (Hc : list_count (job_is j) (olist (current_of (s_queue s) w)) <= list_count (job_is j) (olist (current_of m' w))).
    { destruct x as [w1|].
      - destruct HE as (_ & Hn & _ & Hu & _). rewrite Hu. unfold upd.
        destruct (Nat.eqb_spec (w_id w1) (w_id w)) as [E|E]; [|lia].
        rewrite (current_of_id _ _ _ (eq_sym E)), Hn. simpl. unfold list_count. simpl. lia.
      - destruct HE as (_ & Hu & _). rewrite Hu. lia. }
    destruct (own_enqueue o _ _ _ _ _ w HQ He) as [->|(-> & _)]; [lia|]. rewrite list_count_app. lia.
Qed.

Lemma expire_workers_tally ws : forall s outs s',
  inv s [] -> NoDup (ids ws) -> incl ws (s_reg s) ->
  expire_workers o cfg ws s = (outs, inr (tt, s')) ->
  failed_only outs /\
  (forall j, exists a r, tally j outs a r r /\
     total (fun w => list_count (job_is j) (owned (s_queue s) w)) ws <= a + r) /\
  (forall w, In w (s_reg s') <-> In w (s_reg s) /\ ~ In w ws).
Proof.
  induction ws as [|w ws IH]; simpl; intros s outs s' HI Hnd Hincl H.
  - minv. split; [apply failed_only_nil|]. split; [|intros; tauto].
    intros j. exists 0, 0. split; [apply tally_nil|lia].
  - assert (Hin : In w (s_reg s)) by (apply Hincl; simpl; auto).
    minv1 H. minv1 Hm. minv1 Hk. minv1 Hm. simpl in Eq.
    rewrite (q_get_current_spec _ _ _ (inv_q _ _ HI) Hin) in Eq. injection Eq as <- <-.
    minv1 Hk0. minv1 Hk. minv1 Hm0.
    assert (Es : s0 = incr_opt (current_of (s_queue s) w) (set_reg (reg_remove w (s_reg s)) s) /\ o0 = []).
    { destruct (current_of (s_queue s) w); unfold failures_incr in Hm; minv; auto. }
    clear Hm. destruct Es as (-> & ->).
    assert (Eq' : q_worker_terminated w (s_queue s) = Val (x0, m)).
    { destruct (current_of (s_queue s) w); exact Eq. }
    clear Eq.
    set (s1 := set_queue m (incr_opt (current_of (s_queue s) w) (set_reg (reg_remove w (s_reg s)) s))) in *.
    assert (A1 : atom o cfg s [] (LExpire w x0) s1 (x0 ++ [])) by (apply a_expire; assumption).
    pose proof (atom_inv _ _ _ _ _ _ _ HI A1) as HI1.
    minv1 Hk0. destruct (expire_requests_sim _ _ _ _ _ _ _ _ HI1 Hm) as (ls2 & A2 & _ & F2).
    destruct (expire_requests_tally _ _ _ _ _ Hm) as (FO2 & T2).
    minv1 Hk. destruct x2. destruct (reject_all_sim o cfg _ _ _ [] _ _ Hm0) as (-> & ls3 & A3 & _ & F3).
    destruct (reject_all_tally _ _ _ _ _ Hm0) as (FO3 & T3).
    pose proof (atoms_inv _ _ _ _ _ _ _ A2 HI1) as HI2. pose proof (atoms_inv _ _ _ _ _ _ _ A3 HI2) as HI3.
    inversion Hnd as [|? ? Hni Hnd']; subst.
    assert (Hreg1 : s_reg s1 = reg_remove w (s_reg s)).
    { unfold s1. destruct (current_of (s_queue s) w); reflexivity. }
    assert (Hreg : s_reg s0 = reg_remove w (s_reg s)).
    { rewrite (redo_reg _ _ _ _ _ _ _ A2 F2). exact Hreg1. }
    assert (Hrest : forall w', In w' ws -> In w' (reg_remove w (s_reg s)) /\ w_id w' <> w_id w).
    { intros w' Hw'. split; [|intros E; apply Hni; rewrite <- E; apply in_ids; exact Hw'].
      apply reg_remove_in; [apply (qi_nodup _ _ (inv_q _ _ HI))|exact Hin|].
      split; [apply Hincl; simpl; auto|]. intros ->. apply Hni. apply in_ids. exact Hw'. }
    destruct (IH s0 o3 s' HI3 Hnd') as (FO4 & T4 & Hs').
    { intros w' Hw'. rewrite Hreg. apply Hrest. exact Hw'. }
    { exact Hk0. }
    destruct (own_terminated _ _ _ _ _ (inv_q _ _ HI) Hin Eq') as (Hoq & more & Erq).
    destruct (q_terminated_spec _ _ _ _ _ (inv_q _ _ HI) Hin Eq') as (gone & _ & _ & Hcu & _).
    split; [|split].
    + repeat apply failed_only_app; auto using failed_only_nil.
    + intros j. destruct (T2 j) as (a2 & r2 & T2j & E2). destruct (T4 j) as (a4 & r4 & T4j & E4).
      exists (a2 + a4), (r2 + list_count (job_is j) x1 + r4). split.
      * simpl. replace (a2 + a4) with (a2 + (0 + a4)) by lia.
        replace (tally j) with (tally j) by reflexivity.
        assert (TT := tally_app j _ _ _ _ _ _ _ _ T2j (tally_app j _ _ _ _ _ _ _ _ (T3 j) T4j)).
        unfold tally in *. lia.
      * assert (Hmono : total (fun w' => list_count (job_is j) (owned (s_queue s) w')) ws <=
                        total (fun w' => list_count (job_is j) (owned (s_queue s0) w')) ws).
        { clear - Hrest Hoq Hcu A2 F2 HI1 Hreg1. induction ws as [|w' ws IHw]; simpl; [lia|].
          destruct (Hrest w' ltac:(simpl; auto)) as (Hi & Hne).
          assert (E1 : owned (s_queue s) w' = owned (s_queue s1) w').
          { unfold owned. rewrite <- (Hcu w' Hne), <- (Hoq w' Hne). reflexivity. }
          pose proof (redo_owned j w' _ _ _ _ _ A2 F2 HI1 ltac:(rewrite Hreg1; exact Hi)) as Hle.
          rewrite E1. specialize (IHw ltac:(intros; apply Hrest; simpl; auto)). lia. }
        rewrite Erq, app_assoc, list_count_app in E2. unfold owned at 1. lia.
    + intros w'. rewrite Hs', Hreg.
      rewrite (reg_remove_in w w' (s_reg s) (qi_nodup _ _ (inv_q _ _ HI)) Hin). intuition congruence.
Qed.

Lemma total_mono_sub (f : worker -> nat) ws rs : NoDup ws -> incl ws rs -> total f ws <= total f rs.
Proof.
  revert rs. induction ws as [|w ws IH]; simpl; intros rs Hnd Hin; [lia|].
  inversion Hnd; subst. assert (Hw : In w rs) by (apply Hin; simpl; auto).
  apply in_split in Hw. destruct Hw as (l1 & l2 & ->).
  assert (E : total f (l1 ++ w :: l2) = f w + total f (l1 ++ l2)).
  { unfold total. rewrite !fold_right_app. simpl. clear. induction l1; simpl; lia. }
  rewrite E. specialize (IH (l1 ++ l2) H2). assert (incl ws (l1 ++ l2)).
  { intros y Hy. assert (In y (l1 ++ w :: l2)) by (apply Hin; simpl; auto). rewrite in_app_iff in *. simpl in H.
    destruct H as [?|[<-|?]]; [auto|contradiction|auto]. }
  specialize (IH H). lia.
Qed.

Theorem tick_accounts k tr1 e tr2 s : run o cfg k (tr1 ++ e :: tr2) s -> m_key (ev_in e) = "timer" ->
  (forall m, In m (ev_out e) -> m_key m = "status_notifier" -> exists j d, m = failed_report j d) /\
  (forall r, In r (held (s_queue (ev_pre e))) ->
     In r (held (s_queue (ev_post e))) \/ exists d, In (failed_report (r_job r) d) (ev_out e)) /\
  forall j,
    list_count (job_is j) (held (s_queue (ev_pre e))) =
      list_count (is_report j) (ev_out e) + list_count (job_is j) (held (s_queue (ev_post e))) /\
    list_count (told j "FAILED") (ev_out e) = list_count (is_report j) (ev_out e) /\
    forall ws, NoDup ws -> (forall w, In w ws -> In w (s_reg (ev_pre e)) /\ ~ In w (s_reg (ev_post e))) ->
      total (fun w => list_count (job_is j) (owned (s_queue (ev_pre e)) w)) ws <=
        list_count (told j "ABORTED") (ev_out e) + list_count (is_report j) (ev_out e).
Proof.
  intros HR Hk. destruct (run_split _ _ _ _ _ _ _ HR) as (HP & Hstep). pose proof (run_inv _ _ _ _ _ HP) as HI.
  destruct e as [pre m outs post]. cbn [ev_pre ev_in ev_out ev_post] in *.
  rewrite on_request_eq in Hstep. unfold on_request_cases in Hstep. rewrite Hk in Hstep. simpl in Hstep.
  destruct (process_timer_sim _ _ _ _ _ _ HI Hstep) as (ls & A & O & F).
  assert (Hcr : created ls = []).
  { clear - F. induction F as [|l ls Hl _ IH]; [reflexivity|]. unfold created in *. simpl. rewrite IH, app_nil_r. destruct l; simpl in Hl; tauto || reflexivity. }
  assert (Hdr : dropped ls = []).
  { clear - F. induction F as [|l ls Hl _ IH]; [reflexivity|]. unfold dropped in *. simpl. rewrite IH, app_nil_r. destruct l; simpl in Hl; tauto || reflexivity. }
  pose proof (atoms_conserve _ _ _ _ _ _ _ A HI) as HC. rewrite Hcr, Hdr in HC. simpl in HC. rewrite !app_nil_r in HC.
  unfold process_timer in Hstep. destruct (m_data m) as [|front rest]; [discriminate|].
  minv1 Hstep. minv1 Hm. minv1 Hk0. minv1 Hm. minv1 Hk1.
  destruct (timer_scan_core _ _ _ _ _ _ _ Hm) as (-> & HCo & Hi & Hn).
  minv1 Hk0. rename Hm0 into He. rename Hk1 into Hk0.
  assert (HI1 : inv s0 []) by (eapply (atom_inv o cfg); [exact HI|apply a_tau; exact HCo]).
  destruct x1.
  unfold core in HCo. injection HCo as Ereg Eq _ _ _.
  destruct (expire_workers_tally x0 s0 o0 s1 HI1) as (FO & T & Hrg); [ | |exact He|].
  { apply Hn. apply (qi_nodup _ _ (inv_q _ _ HI)). }
  { rewrite <- Ereg. exact Hi. }
  assert (HI2 : inv s1 []).
  { destruct (expire_workers_sim o cfg x0 s0 o0 s1 HI1) as (ls' & A' & _); [ | |exact He|].
    - apply Hn. apply (qi_nodup _ _ (inv_q _ _ HI)).
    - rewrite <- Ereg. exact Hi.
    - exact (atoms_inv _ _ _ _ _ _ _ A' HI1). }
  unfold stat_set in Hk0. minv. units.
  assert (HI3 : forall f, inv (set_stats f s1) []).
  { intros f. eapply (atom_inv o cfg); [exact HI2|]. apply a_tau. reflexivity. }
  match goal with HH : count_idle _ ?st = _ |- _ =>
    destruct (count_idle_core o cfg _ st _ _ ltac:(apply HI3) ltac:(apply incl_refl) HH) as (-> & HC2) end.
  cbn [app] in *. rewrite !app_nil_r in *.
  unfold core in HC2. cbn [s_reg s_queue set_stats] in HC2. injection HC2 as Er2 Eq2 _ _ _.
  cbn [s_reg s_queue set_stats] in HC |- *. 
  split; [exact FO|]. split.
  - intros r Hr. eapply Permutation_in in Hr; [|exact HC]. rewrite in_app_iff in Hr. destruct Hr as [Hr|Hr]; [right|left; exact Hr].
    assert (Hm' : exists mm, In mm (outs_all ls) /\ report_for (r_job r) mm).
    { clear - A Hr. induction A as [|a h l a1 h1 ls a2 h2 Ha _ IHA]; [destruct Hr|].
      unfold finished, outs_all in *. simpl in *. rewrite in_app_iff in Hr. destruct Hr as [Hr|Hr].
      - destruct Ha; simpl in Hr; try tauto; destruct Hr as [<-|[]]; simpl; eauto.
      - destruct (IHA Hr) as (mm & H1 & H2). exists mm. rewrite in_app_iff. auto. }
    destruct Hm' as (mm & Hi' & Hrep). rewrite O in Hi'. destruct Hrep as (Hkey & _ & rest' & Hd').
    destruct (FO _ Hi' Hkey) as (j & d & ->). injection Hd' as -> _. eauto.
  - intros j. destruct (T j) as (a & r & (T1 & T2 & T3) & Hle).
    assert (HRep := atoms_reports o cfg j _ _ _ _ _ A). rewrite O in HRep.
    pose proof (list_count_perm (job_is j) _ _ HC) as HP'. rewrite list_count_app in HP'.
    split; [lia|]. split; [congruence|]. intros ws Hnd Hws. rewrite T1, T3. rewrite Eq. etransitivity; [|exact Hle].
    apply total_mono_sub; [exact Hnd|]. intros w Hw. destruct (Hws w Hw) as (H1 & H2).
    rewrite <- Er2 in H2. destruct (in_dec (fun a b : worker => ltac:(repeat decide equality)) w x0) as [Hd|Hd]; [exact Hd|].
    exfalso. apply H2. apply Hrg. rewrite <- Ereg. auto.
Qed.

End WithConfig.
