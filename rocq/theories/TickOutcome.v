(* The exact effect of a timer tick. *)
From Coq Require Import Lia Permutation.
From Verif Require Import Base Bytes Containers Worker Multi Single Queue Handler SpecText Spec SpecRun SpecMsg SpecQueue SpecPings SpecOutcome SpecJoin SpecTick
  Facts TextFacts QueueInv Atoms Members HandlerSim Provenance HeaderFacts OrderFacts Messages QueueContract QueueOrder WorkConserving Keeps Pings Outcome Joining.
Local Open Scope string_scope.
Local Open Scope list_scope.

Section WithConfig.
Context (o : oracle) (cfg : config).

Lemma too_many r text s : check_failure_count cfg r text s =
  if N.leb (c_max_failures cfg) (failures r s)
  then ([failed_report (r_job r) ("Job was reassigned too many (" ++ to_string_N (one_less (failures r s)) ++ ") times. Last failure message was: " ++ text)%string;
         tell (r_job r) "FAILED"], inr (false, s))
  else ([], inr (true, s)).
Proof. unfold check_failure_count, bind, get. destruct (N.leb _ _); reflexivity. Qed.

Lemma settle ws rs : forall s outs un s', used o (s_queue s) ws -> expire_requests o cfg rs s = (outs, inr (un, s')) ->
  settled cfg ws (attempts s) (s_queue s) rs outs un (s_queue s') /\ used o (s_queue s') ws /\ s' = set_queue (s_queue s') s.
Proof.
  induction rs as [|r rs IH]; intros s outs un s' HU H.
  - simpl in H. minv. split; [constructor|]. split; [exact HU|]. symmetry. apply set_queue_id.
  - cbn [expire_requests] in H. destruct (r_complete r) eqn:Hc; cbn [negb] in H.
    + apply bind_inv in H. destruct H as (o1 & b & s1 & o2 & H1 & H & ->). rewrite too_many in H1. change (failures r s) with (attempts s r) in H1.
      destruct (N.leb_spec (c_max_failures cfg) (attempts s r)) as [Hle|Hlt]; injection H1 as <- <- <-; cbn [negb] in H.
      * destruct (IH _ _ _ _ HU H) as (HS & HU' & Hs'). split; [|auto]. exact (se_last cfg ws (attempts s) _ _ _ _ _ _ Hc Hle HS).
      * apply bind_inv in H. destruct H as (o3 & d & s2 & o4 & H2 & H & ->). unfold reassign_request in H2.
        apply bind_inv in H2. destruct H2 as (o5 & y & s3 & o6 & H2 & H3 & ->). apply queue_call_inv in H2. destruct H2 as (m1 & -> & E & ->).
        destruct (used_inv o _ _ HU) as (HI & HB). pose proof (us_enqueue o _ _ _ _ _ HU Hc E) as HU1.
        destruct (q_enqueue_spec o _ _ _ _ _ HI Hc E) as (_ & HE). pose proof (enqueue_waiting o _ _ _ _ _ HI HB Hc E) as HW.
        destruct y as [[w|] [|]]; try (destruct HE; fail); cbn [enqueued assigned_to negb] in H3.
        -- apply bind_inv in H3. destruct H3 as (o7 & [] & s4 & o8 & H3 & H4 & ->). unfold send_request in H3. minv1 H3. minv1 H4. cbn [negb] in H.
           apply bind_inv in H. destruct H as (o9 & [] & s5 & o10 & H5 & H & ->). unfold notify_monitor in H5. minv1 H5.
           destruct HE as (Hw & Hi & Hcap & Hu & Hq). apply (fits_capable w r (HB w Hw)) in Hcap.
           destruct (IH (set_queue m1 s) _ _ _ HU1 H) as (HS & HU' & Hs'). split; [|split; [exact HU'|rewrite Hs'; reflexivity]].
           exact (se_given cfg ws (attempts s) _ _ _ _ _ _ w m1 Hc Hlt Hw Hcap Hi (upd_now _ _ _ _ Hu) HW HS).
        -- apply bind_inv in H3. destruct H3 as (o7 & [] & s4 & o8 & H3 & H4 & ->). minv1 H3. minv1 H4. cbn [negb] in H.
           apply bind_inv in H. destruct H as (o9 & [] & s5 & o10 & H5 & H & ->). unfold notify_monitor in H5. minv1 H5.
           destruct HE as ((w & Hw & Hcap) & Hu & Hq). apply (fits_capable w r (HB w Hw)) in Hcap.
           destruct (IH (set_queue m1 s) _ _ _ HU1 H) as (HS & HU' & Hs'). split; [|split; [exact HU'|rewrite Hs'; reflexivity]].
           exact (se_queued cfg ws (attempts s) _ _ _ _ _ _ w m1 Hc Hlt Hw Hcap Hu HW HS).
        -- clear HW. apply bind_inv in H3. destruct H3 as (o7 & [] & s4 & o8 & H3 & H4 & ->). unfold notify_monitor in H3. minv1 H3. minv1 H4. cbn [negb] in H.
           apply bind_inv in H. destruct H as (o9 & un1 & s5 & o10 & H5 & H & ->). minv1 H. destruct HE as (-> & Hno).
           rewrite set_queue_id in H5. destruct (IH _ _ _ _ HU H5) as (HS & HU' & Hs'). rewrite !app_nil_r.
           split; [|auto]. refine (se_nobody cfg ws (attempts s) _ _ _ _ _ _ Hc Hlt _ HS).
           intros w Hw Hf. apply (fits_capable w r (HB w Hw)) in Hf. unfold capable in Hf. rewrite (Hno w Hw) in Hf. discriminate.
    + apply bind_inv in H. destruct H as (o1 & [] & s1 & o2 & H1 & H & ->). unfold rejected_job in H1. minv1 H1. clear H1.
      apply bind_inv in H. destruct H as (o1 & [] & s1 & o3 & H1 & H & ->). unfold notify_monitor in H1. minv1 H1. clear H1.
      destruct (IH _ _ _ _ HU H) as (HS & HU' & Hs'). split; [|auto]. exact (se_announced cfg ws (attempts s) _ _ _ _ _ _ Hc HS).
Qed.

Lemma reject_all_outs d rs : forall s outs s', reject_all d rs s = (outs, inr (tt, s')) -> outs = map (fun r => failed_report (r_job r) d) rs /\ s' = s.
Proof.
  induction rs as [|r rs IH]; intros s outs s' H; simpl in H; [minv; auto|]. unfold rejected_job in H. minv1 H. minv1 Hm.
  destruct (IH _ _ _ Hk) as (-> & ->). auto.
Qed.

Definition kind_now (s : state) : kind := kind_of (s_queue s).
Lemma keeps_kind {A} (g : manager -> res (A * manager)) : (forall m a m', g m = Val (a, m') -> kind_of m' = kind_of m) -> keeps kind_now (queue_call g).
Proof. intros H s outs a s' E. apply queue_call_inv in E. destruct E as (m & _ & E & ->). exact (H _ _ _ E). Qed.
Lemma enqueue_kind r m y m' : q_enqueue_request o r m = Val (y, m') -> kind_of m' = kind_of m.
Proof.
  intros H. destruct m as [q|q]; simpl in H; unfold lift_single in H.
  - destruct (single_enqueue _ _ _) as [(?, ?)|]; simpl in H; [|discriminate]. injection H as _ <-. reflexivity.
  - destruct (multi_enqueue _ _) as [(?, ?)|]; simpl in H; [|discriminate]. injection H as _ <-. reflexivity.
Qed.
Lemma terminated_kind w m y m' : q_worker_terminated w m = Val (y, m') -> kind_of m' = kind_of m.
Proof.
  intros H. destruct m as [q|q]; simpl in H; unfold lift_single, lift_multi in H.
  - destruct (single_worker_terminated _ _) as [(?, ?)|]; simpl in H; [|discriminate]. injection H as _ <-. reflexivity.
  - simpl in H. injection H as _ <-. reflexivity.
Qed.
Lemma settle_kind rs : keeps kind_now (expire_requests o cfg rs).
Proof.
  assert (HQ : forall r, keeps kind_now (queue_call (q_enqueue_request o r))) by (intros r; apply keeps_kind; apply enqueue_kind).
  induction rs as [|r rs IH]; simpl; unfold check_failure_count, reassign_request, rejected_job, job_failed, notify_monitor, send_request; keep; try apply HQ; keep.
Qed.

Lemma split_jobs_sub ws : forall l kept gone, split_jobs ws l = Val (kept, gone) ->
  subseq gone (map e_request l) /\ subseq (map e_request kept) (map e_request l).
Proof.
  induction l as [|e l IH]; intros kept gone H; cbn [split_jobs] in H; [injection H as <- <-; split; constructor|].
  destruct (assignable (e_request e) ws) as [b|]; cbn in H; [|discriminate].
  destruct (split_jobs ws l) as [(kept1, gone1)|]; cbn in H; [|discriminate]. destruct (IH _ _ eq_refl) as (I1 & I2).
  destruct b; injection H as <- <-; split; cbn [map]; constructor; assumption.
Qed.

Lemma terminated_order q ws w gone m' : qinv (QSingle q) ws -> In w ws ->
  q_worker_terminated w (QSingle q) = Val (olist (current_of (QSingle q) w) ++ gone, m') ->
  subseq gone (queued (QSingle q)) /\ subseq (queued m') (queued (QSingle q)).
Proof.
  intros HI Hw E. simpl in E. unfold single_worker_terminated in E. destruct (qi_impl _ _ HI) as [S1 S2 S3 S4].
  destruct (pm_index None w (sq_worker_jobs q)) as (c, wj) eqn:Ei.
  assert (Ec : c = current_of (QSingle q) w).
  { destruct (keys_around ws w _ (qi_nodup _ _ HI) S2 Hw) as (l1 & a & l2 & A).
    rewrite (ar_index _ _ _ _ _ A) in Ei. injection Ei as <- _. unfold current_of. simpl.
    rewrite (ar_find _ _ _ _ _ A). destruct a; reflexivity. }
  destruct (split_jobs (list_remove w (sq_workers q)) (sq_jobs q)) as [(kept1, gone')|f] eqn:Es; simpl in E; [|discriminate].
  injection E as Eg <-. apply split_jobs_sub in Es. subst c.
  assert (gone' = gone) as -> by (destruct (current_of (QSingle q) w) as [r|]; simpl in Eg; [injection Eg as Eg|]; exact Eg).
  exact Es.
Qed.

Definition kept (s s' : state) : Prop := s_frozen s' = s_frozen s /\ s_next_w s' = s_next_w s /\ s_next_r s' = s_next_r s.

Lemma remove_all rm : forall s outs s', used o (s_queue s) (s_reg s) -> NoDup (ids rm) -> incl rm (s_reg s) ->
  expire_workers o cfg rm s = (outs, inr (tt, s')) ->
  exists att', removals cfg rm (s_reg s) (attempts s) (s_queue s) outs att' (s_queue s') /\ (forall r, attempts s' r = att' r) /\ kept s s' /\
    used o (s_queue s') (s_reg s').
Proof.
  induction rm as [|w rm IH]; intros s outs s' HU Hnd Hin H.
  - simpl in H. minv. exists (attempts s). split; [constructor|]. split; [reflexivity|]. split; [split; [reflexivity|split; reflexivity]|exact HU].
  - assert (Hw : In w (s_reg s)) by (apply Hin; left; reflexivity). destruct (used_inv o _ _ HU) as (HI & HB).
    pose proof (qi_nodup _ _ HI) as Hn. inversion Hnd as [|? ? Hni Hnd']; subst.
    destruct (terminated_contract o _ _ _ HU Hw) as (gone & m1 & Et & HU1 & HN1 & HQ1 & HK1).
    rewrite (reg_remove_eq _ _ Hn) in HU1. cbn [expire_workers] in H.
    apply bind_inv in H. destruct H as (o1 & [] & s1 & o2 & H1 & H & ->). minv1 H1. clear H1.
    apply bind_inv in H. destruct H as (o1 & cur & s1 & o3 & H1 & H & ->). apply queue_call_inv in H1. destruct H1 as (m & -> & E & ->).
    cbn [set_reg s_queue] in E. rewrite (current_contract o _ _ _ HU Hw) in E. injection E as <- <-.
    set (s1 := set_queue (s_queue s) (set_reg (reg_remove w (s_reg s)) s)) in H.
    apply bind_inv in H. destruct H as (o1 & [] & s2 & o4 & H1 & H & ->).
    assert (H2 : o1 = [] /\ s_queue s2 = s_queue s /\ s_reg s2 = reg_remove w (s_reg s) /\ kept s s2 /\
      forall r, attempts s2 r = (attempts s r + match current_of (s_queue s) w with Some c => if Nat.eqb (r_id r) (r_id c) then 1 else 0 | None => 0 end)%N).
    { destruct (current_of (s_queue s) w) as [c|]; unfold failures_incr in H1; minv1 H1; (split; [reflexivity|]; split; [reflexivity|]; split; [reflexivity|];
        split; [split; [reflexivity|split; reflexivity]|]); intros r.
      - exact (attempts_incr c s1 r).
      - change (attempts s1 r) with (attempts s r). lia. }
    destruct H2 as (-> & Q2 & R2 & K2 & A2). clear H1.
    apply bind_inv in H. destruct H as (o1 & rs & s3 & o5 & H1 & H & ->). apply queue_call_inv in H1. destruct H1 as (m & -> & E & ->).
    rewrite Q2, Et in E. injection E as <- <-.
    apply bind_inv in H. destruct H as (o1 & un & s4 & o6 & H1 & H & ->).
    destruct (settle (reg_remove w (s_reg s)) _ (set_queue m1 s2) _ _ _ HU1 H1) as (HS & HU4 & E4). cbn [set_queue s_queue] in HS.
    apply bind_inv in H. destruct H as (o7 & [] & s5 & o8 & H5 & H & ->). apply reject_all_outs in H5. destruct H5 as (-> & ->).
    assert (R4 : s_reg s4 = reg_remove w (s_reg s)) by (rewrite E4; exact R2).
    assert (A4 : forall r, attempts s4 r = attempts s2 r) by (rewrite E4; reflexivity).
    assert (K4 : kept s s4) by (rewrite E4; exact K2).
    rewrite <- R4 in HU4. destruct (IH s4 o8 s' HU4 Hnd') as (att' & HR & HA & HK & HU').
    { intros w' Hw'. rewrite R4. apply (reg_remove_in _ _ _ Hn Hw). split; [apply Hin; right; exact Hw'|]. intros ->. apply Hni. apply in_ids. exact Hw'. }
    { exact H. }
    exists att'. split; [|split; [exact HA|split; [unfold kept in *; destruct HK as (-> & -> & ->); exact K4|exact HU']]].
    simpl app. rewrite (map_ext _ (died_report w)) by (intros r; unfold died_report; rewrite shown_description; reflexivity).
    refine (rm_next cfg w rm (s_reg s) (reg_remove w (s_reg s)) (attempts s) (s_queue s) _ m1 (attempts s2) o1 un (s_queue s4) o8 att' (s_queue s') _ _ A2 _ _ _).
    + exists gone. split; [reflexivity|]. split; [exact HN1|]. split; [exact HQ1|]. destruct (s_queue s) as [q|q] eqn:Eq; [|exact HK1].
      destruct HK1 as (K1 & K3). destruct (terminated_order _ _ _ _ _ HI Hw Et) as (T1 & T2). auto.
    + intros w'. apply (reg_remove_in _ _ _ Hn Hw).
    + exact HS.
    + pose proof (settle_kind _ _ _ _ _ H1) as HKd. unfold kind_now in HKd. rewrite HKd. cbn [set_queue s_queue]. exact (terminated_kind _ _ _ _ Et).
    + rewrite R4 in HR. assert (HA4 : attempts s4 = attempts s2) by (rewrite E4; reflexivity). rewrite HA4 in HR. exact HR.
Qed.

Lemma timer_scan_sub z ws : forall s outs rm s', timer_scan cfg z ws s = (outs, inr (rm, s')) -> subseq rm ws.
Proof.
  induction ws as [|w ws IH]; intros s outs rm s' H; cbn [timer_scan] in H; [minv; constructor|].
  minv1 H. minv1 Hm. destruct (negb _); [discriminate|]. destruct (Z.ltb _ _).
  - minv1 Hk. minv1 Hm. minv1 Hk0. minv1 Hm. minv1 Hk. minv1 Hk0. destruct (N.leb _ _); [apply ss_take|apply ss_skip]; eapply IH; exact Hm.
  - minv1 Hk. minv1 Hm. apply ss_skip. eapply IH. exact Hk0.
Qed.

Lemma subseq_ids rm ws : subseq rm ws -> NoDup (ids ws) -> NoDup (ids rm) /\ incl rm ws.
Proof.
  induction 1 as [l|a l1 l2 H IH|a l1 l2 H IH]; intros Hn.
  - split; [constructor|intros x []].
  - inversion Hn as [|? ? Hni Hn']; subst. destruct (IH Hn') as (I1 & I2). split.
    + constructor; [|exact I1]. intros Hx. apply Hni. unfold ids in *. apply in_map_iff in Hx. destruct Hx as (y & Ey & Hy). rewrite <- Ey. apply in_map. apply I2. exact Hy.
    + intros x [<-|Hx]; [left; reflexivity|right; apply I2; exact Hx].
  - inversion Hn as [|? ? Hni Hn']; subst. destruct (IH Hn') as (I1 & I2). split; [exact I1|]. intros x Hx. right. apply I2. exact Hx.
Qed.

Lemma idle_scan ws : forall s outs s', used o (s_queue s) (s_reg s) -> incl ws (s_reg s) -> count_idle ws s = (outs, inr (tt, s')) ->
  outs = [] /\ s_queue s' = s_queue s /\ s_fails s' = s_fails s /\ s_reg s' = s_reg s /\ kept s s'.
Proof.
  induction ws as [|w ws IH]; intros s outs s' HU Hi H; cbn [count_idle] in H; [minv; unfold kept; auto 10|].
  apply bind_inv in H. destruct H as (o1 & cur & s1 & o2 & H1 & H & ->). apply queue_call_inv in H1. destruct H1 as (m & -> & E & ->).
  rewrite (current_contract o _ _ _ HU (Hi w (or_introl eq_refl))) in E. injection E as <- <-. rewrite set_queue_id in H.
  apply bind_inv in H. destruct H as (o1 & [] & s1 & o3 & H1 & H & ->).
  assert (o1 = [] /\ s_queue s1 = s_queue s /\ s_fails s1 = s_fails s /\ s_reg s1 = s_reg s /\ kept s s1) as (-> & Q & F & R & K).
  { destruct (current_of (s_queue s) w); unfold stat_incr in H1; minv1 H1; unfold kept; auto 10. }
  destruct (IH s1 o3 s') as (-> & -> & -> & -> & K'); [| |exact H|].
  - rewrite Q, R. exact HU.
  - rewrite R. intros x Hx. apply Hi. right. exact Hx.
  - unfold kept in *. destruct K' as (-> & -> & ->). auto.
Qed.

Lemma pred_zero n : size_pred n = 0%N <-> n = 1%N.
Proof. unfold size_pred, two64. destruct (N.eqb_spec n 0); split; intros; subst; try discriminate; lia. Qed.

Theorem tick_outcome k tr s i t rest z outs s' : run o cfg k tr s -> reads t z ->
  on_request o cfg (Msg "timer" i (t :: rest)) s = (outs, inr (tt, s')) ->
  exists rm att', subseq rm (s_reg s) /\
    (forall w, In w (s_reg s) -> (In w rm <-> last_miss cfg z s w)) /\ (forall w, In w (s_reg s') <-> In w (s_reg s) /\ ~ In w rm) /\
    removals cfg rm (s_reg s) (attempts s) (s_queue s) outs att' (s_queue s') /\ (forall r, attempts s' r = att' r) /\
    s_frozen s' = s_frozen s /\ s_next_w s' = s_next_w s /\ s_next_r s' = s_next_r s.
Proof.
  intros HR Hz H. apply reads_stoll in Hz. rewrite on_request_eq in H. unfold on_request_cases in H. cbn [m_key m_ident m_data] in H. simpl String.eqb in H. cbv iota in H.
  pose proof (run_inv _ _ _ _ _ HR) as HI. pose proof (run_used o cfg k tr s HR) as HU.
  pose proof (qi_nodup _ _ (inv_q _ _ HI)) as Hn. unfold process_timer in H. cbn [m_data] in H. rewrite Hz in H.
  apply bind_inv in H. destruct H as (o1 & z1 & s1 & o2 & H1 & H & ->). apply lift_inv in H1. destruct H1 as (-> & E1 & ->). injection E1 as <-.
  apply bind_inv in H. destruct H as (o1 & s1 & s2 & o3 & H1 & H & ->). apply get_inv in H1. destruct H1 as (-> & -> & ->).
  apply bind_inv in H. destruct H as (o1 & rm & s3 & o4 & H1 & H & ->).
  apply bind_inv in H. destruct H as (o5 & [] & s4 & o6 & H2 & H & ->).
  destruct (timer_scan_exact _ _ _ _ _ _ _ Hn H1) as (-> & S1 & _ & S3). pose proof (timer_scan_sub _ _ _ _ _ _ H1) as HSub.
  destruct (timer_scan_core _ _ _ _ _ _ _ H1) as (_ & HC & _ & Hr). specialize (Hr Hn).
  unfold core in HC. injection HC as C1 C2 C3 C4 C5.
  assert (HU3 : used o (s_queue s3) (s_reg s3)) by (rewrite <- C1, <- C2; exact HU).
  assert (Hi3 : incl rm (s_reg s3)) by (rewrite <- C1; exact S3).
  assert (Hn3 : NoDup (ids (s_reg s3))) by (rewrite <- C1; exact Hn).
  destruct (remove_all rm s3 o5 s4 HU3 Hr Hi3 H2) as (att' & HRm & HA & HK & HU4).
  pose proof (expire_workers_reg _ _ _ _ _ _ Hn3 Hr Hi3 H2) as R4.
  assert (HF : s_frozen s3 = s_frozen s) by (eapply timer_scan_frozen; exact H1).
  apply bind_inv in H. destruct H as (o1 & s5 & s6 & o7 & H3 & H & ->). apply get_inv in H3. destruct H3 as (-> & -> & ->). unfold stat_set in H.
  do 3 (apply bind_inv in H; destruct H as (? & [] & ? & ? & H3 & H & ->); apply modify_inv in H3; destruct H3 as (-> & _ & ->)).
  apply bind_inv in H. destruct H as (o8 & [] & s8 & o9 & H3 & H & ->).
  apply idle_scan in H3; [|exact HU4|apply incl_refl]. cbn [set_stats s_queue s_reg s_fails] in H3. destruct H3 as (-> & Q8 & F8 & R8 & K8).
  apply bind_inv in H. destruct H as (? & ? & ? & ? & H3 & H & ->). apply get_inv in H3. destruct H3 as (-> & -> & ->).
  apply modify_inv in H. destruct H as (-> & _ & ->). cbn [set_stats s_queue s_reg s_frozen s_next_w s_next_r app].
  rewrite app_nil_r. exists rm, att'. split; [exact HSub|]. split; [|split; [|split; [|split]]].
  - intros w Hw. destruct (S1 w Hw) as (_ & HS). unfold last_miss, old_timer in *. fold (ping_timer s w) in HS.
    destruct (Z.ltb_spec (c_ping_interval cfg) (match ping_timer s w with Some z0 => z0 | None => 0%Z end + z)) as [Hlt|Hge].
    + destruct HS as (E & _ & ->). rewrite E, pred_zero. tauto.
    + destruct HS as (_ & _ & HS). split; [contradiction|]. intros (Hc & _). lia.
  - intros w. rewrite R8, R4, C1. reflexivity.
  - rewrite C1, Q8, C2. assert (EA : attempts s = attempts s3) by (unfold attempts; rewrite C3; reflexivity). rewrite EA. exact HRm.
  - intros r. unfold attempts. cbn [s_fails set_stats]. rewrite F8. apply HA.
  - unfold kept in *. cbn [set_stats s_frozen s_next_w s_next_r] in K8. destruct K8 as (-> & -> & ->). destruct HK as (-> & -> & ->).
    rewrite HF, C4, C5. auto.
Qed.
Theorem quiet_tick k tr s i t rest z outs s' : run o cfg k tr s -> reads t z ->
  on_request o cfg (Msg "timer" i (t :: rest)) s = (outs, inr (tt, s')) ->
  (forall w, In w (s_reg s) -> ~ last_miss cfg z s w) ->
  outs = [] /\ s_queue s' = s_queue s /\ (forall w, In w (s_reg s') <-> In w (s_reg s)) /\ (forall r, attempts s' r = attempts s r).
Proof.
  intros HR Hz H Hq. destruct (tick_outcome _ _ _ _ _ _ _ _ _ HR Hz H) as (rm & att' & HS & HL & HG & HM & HA & _).
  assert (rm = []) as ->.
  { destruct rm as [|w rm]; [reflexivity|]. assert (Hw : In w (s_reg s)).
    { destruct (subseq_ids _ _ HS (qi_nodup _ _ (inv_q _ _ (run_inv _ _ _ _ _ HR)))) as (_ & Hi). apply Hi. left. reflexivity. }
    destruct (Hq w Hw). apply HL; [exact Hw|left; reflexivity]. }
  inversion HM; subst. split; [reflexivity|]. split; [congruence|]. split; [|exact HA]. intros w. rewrite HG. simpl. tauto.
Qed.
End WithConfig.
