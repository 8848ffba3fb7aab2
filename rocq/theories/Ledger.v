(* The broker with one queue per worker is the ledger of SpecLedger (C71). *)
From Coq Require Import Permutation Lia.
From Verif Require Import Base Bytes Containers Worker Multi Single Queue Handler SpecText Spec SpecRun SpecMsg SpecQueue SpecPings SpecOutcome SpecJoin SpecTick SpecFront SpecBook SpecLedger
  Facts TextFacts QueueInv Atoms HandlerSim Keeps Conserve Provenance Members HeaderFacts OrderFacts Messages Pings Blind Outcome Joining Front OwnQueue Stats TickOutcome Book LedgerFloor LedgerTick.
Local Open Scope string_scope.
Local Open Scope list_scope.

Lemma named_find s i ds ws : Forall2 (drel s) ds ws ->
  match desk_named i ds, find_worker_by_identity i ws with
  | Some d, Some w => drel s d w | None, None => True | _, _ => False end.
Proof.
  induction 1 as [|d w ds ws Hr _ IH]; [exact I|]. unfold desk_named in *. cbn [find find_worker_by_identity].
  rewrite <- (drel_name _ _ _ Hr). destruct (String.eqb (name_of d) i); [exact Hr|exact IH].
Qed.

Lemma attend_none n i ds : desk_named i ds = None -> attend n i ds = ds.
Proof.
  unfold desk_named. induction ds as [|d ds IH]; [reflexivity|]. cbn [find attend]. destruct (String.eqb (name_of d) i); [discriminate|].
  intros H. rewrite (IH H). reflexivity.
Qed.

Lemma frel_hear n i s s' ds ws : s_queue s' = s_queue s -> s_fails s' = s_fails s -> NoDup (ids ws) -> Forall2 (drel s) ds ws ->
  (forall w, In w ws -> match find_worker_by_identity i ws with
     | Some w0 => if Nat.eqb (w_id w0) (w_id w) then liveness s' w = n /\ ping_timer s' w = Some 0%Z
                  else liveness s' w = liveness s w /\ ping_timer s' w = ping_timer s w
     | None => liveness s' w = liveness s w /\ ping_timer s' w = ping_timer s w
     end) -> Forall2 (drel s') (attend n i ds) ws.
Proof.
  intros EQ EF Hnd H.
  assert (HK : forall d w, drel s d w -> liveness s' w = liveness s w /\ ping_timer s' w = ping_timer s w -> drel s' d w).
  { intros d w [H1 H2 H3 H4] (E1 & E2). constructor; [exact H1|eapply rel_pings; eassumption|rewrite EQ, EF; exact H3|rewrite EQ, EF; exact H4]. }
  induction H as [|d w ds ws Hr HF IH]; intros HP; [constructor|].
  inversion Hnd as [|? ? Hni Hnd']; subst. cbn [find_worker_by_identity] in HP. cbn [attend]. rewrite <- (drel_name _ _ _ Hr) in HP.
  assert (Hne : forall u, In u ws -> w_id w <> w_id u) by (intros u Hu E; apply Hni; rewrite E; apply in_map; exact Hu).
  destruct (String.eqb (name_of d) i).
  - constructor.
    + specialize (HP w (or_introl eq_refl)). rewrite Nat.eqb_refl in HP. destruct Hr as [H1 H2 H3 H4].
      constructor; cbn [with_guest d_key d_guest d_now d_line]; [exact H1| |rewrite EQ, EF; exact H3|rewrite EQ, EF; exact H4].
      destruct H2. constructor; cbn [renew g_name g_group g_frames g_note g_chances g_waited]; tauto.
    + assert (HQ : forall u, In u ws -> liveness s' u = liveness s u /\ ping_timer s' u = ping_timer s u).
      { intros u Hu. specialize (HP u (or_intror Hu)). rewrite (proj2 (Nat.eqb_neq _ _) (Hne u Hu)) in HP. exact HP. }
      clear - HF HQ HK. induction HF as [|g' w' gs ws Hr HF IH]; constructor.
      * apply HK; [exact Hr|apply HQ; left; reflexivity].
      * apply IH. intros u Hu. apply HQ. right. exact Hu.
  - constructor.
    + specialize (HP w (or_introl eq_refl)). apply HK; [exact Hr|].
      destruct (find_worker_by_identity i ws) as [w0|] eqn:Ef; [|exact HP].
      destruct (Nat.eqb_spec (w_id w0) (w_id w)) as [E|]; [|exact HP]. apply find_by_identity_in in Ef. destruct (Hne w0 (proj1 Ef)). congruence.
    + apply IH; [exact Hnd'|]. intros u Hu. apply HP. right. exact Hu.
Qed.

Lemma line_incr s r ks rs : (forall r', In r' rs -> r_id r' <> r_id r) -> Forall2 (krel (s_fails s)) ks rs -> Forall2 (krel (s_fails (incr_fails r s))) ks rs.
Proof.
  intros HL H. induction H as [|k r' ks rs HK _ IH]; constructor.
  - apply krel_incr; [apply HL; left; reflexivity|exact HK].
  - apply IH. intros r'' Hr''. apply HL. right. exact Hr''.
Qed.

Lemma pm_find_id {A} (u v : worker) (m : pmap A) : w_id u = w_id v -> pm_find u m = pm_find v m.
Proof. intros E. induction m as [|(x, a) m IH]; [reflexivity|]. cbn [pm_find]. unfold same_worker. rewrite E, IH. reflexivity. Qed.

Section WithConfig.
Context (o : oracle) (cfg : config).

(* ---- ticks ---- *)
Lemma timer_ledger m s outs s' ds rota : inv s [] -> frel s (Floor ds rota) -> process_timer o cfg m s = (outs, inr (tt, s')) ->
  exists t rest z F', m_data m = t :: rest /\ reads t z /\
    close cfg (Floor (map (pass cfg z) ds) rota) (map d_key (filter (lost cfg z) ds)) outs F' /\ frel s' F' /\ inv s' [].
Proof.
  intros HI HF H. pose proof (process_timer_sim _ _ _ _ _ _ HI H) as (ls & A & _ & _). pose proof (atoms_inv _ _ _ _ _ _ _ A HI) as HI'.
  unfold process_timer in H. destruct (m_data m) as [|front rest]; [discriminate|].
  minv1 H. minv1 Hm. rename El into Ez. minv1 Hk. minv1 Hm. minv1 Hk0. cbv beta in Hk.
  pose proof (qi_nodup _ _ (inv_q _ _ HI)) as Hnd.
  destruct (scan_sim cfg _ _ _ _ _ _ _ HI HF Hm) as (-> & Eids & HF1).
  destruct (timer_scan_core _ _ _ _ _ _ _ Hm) as (_ & HC & Hi & Hn).
  assert (HI1 : inv s0 []) by (eapply (atom_inv o cfg); [exact HI|apply a_tau; exact HC]).
  apply bind_inv in Hk. destruct Hk as (o71 & [] & s1 & o79 & He & Hk & ->).
  assert (Hi1 : incl x0 (s_reg s0)) by (unfold core in HC; injection HC as C1 _ _ _ _; rewrite <- C1; exact Hi).
  destruct (close_sim o cfg _ _ _ _ _ HI1 (Hn Hnd) Hi1 HF1 He) as (F' & C1 & C2).
  destruct (expire_workers_sim o cfg _ _ _ _ HI1 (Hn Hnd) Hi1 He) as (ls1 & A1 & _ & _).
  pose proof (atoms_inv _ _ _ _ _ _ _ A1 HI1) as HI2.
  exists front, rest, x, F'. split; [reflexivity|]. split; [apply reads_stoll; exact Ez|]. rewrite <- Eids.
  minv1 Hk. minv1 Hm0. unfold stat_set in Hk0. minv1 Hk0. minv1 Hm0. minv1 Hk. minv1 Hm0. minv1 Hk0. minv1 Hm0.
  apply bind_inv in Hk. destruct Hk as (o74 & [] & s2 & o75 & Hc & Hk & ->). minv1 Hk. minv1 Hm0. minv1 Hk0.
  match type of Hc with count_idle _ ?t = _ => set (s3 := t) in * end.
  assert (HI3 : inv s3 []) by (eapply (atom_inv o cfg); [exact HI2|apply a_tau; reflexivity]).
  destruct (count_idle_core o cfg _ _ _ _ HI3 (incl_refl _) Hc) as (-> & HC3). unfold core in HC3. injection HC3 as Q1 Q2 Q3 Q4 Q5.
  pose proof (count_idle_pings _ _ _ _ _ Hc) as HP3. unfold pings in HP3. injection HP3 as P1 P2.
  cbn [app]. rewrite !app_nil_r. split; [exact C1|]. split; [|exact HI']. apply (frel_ext s1); [| | | | |exact C2]; cbn [set_stats s_reg s_queue s_fails s_live s_timers].
  - rewrite <- Q1. reflexivity.
  - rewrite <- Q2. reflexivity.
  - rewrite <- Q3. reflexivity.
  - rewrite P1. reflexivity.
  - rewrite P2. reflexivity.
Qed.

(* ---- reports ---- *)
Lemma done_ledger i rest s outs s' ds rota w d ev fa idle busy queue n : inv s [] -> frel s (Floor ds rota) ->
  process_worker_done o cfg i ("done" :: rest) s = (outs, inr (tt, s')) ->
  find_worker_by_identity i (s_reg s) = Some w -> d_key d = w_id w -> name_of d = w_identity w ->
  may_be (krel (s_fails s)) (d_now d) (current_of (s_queue s) w) -> Forall2 (krel (s_fails s)) (d_line d) (own_queue (s_queue s) w) ->
  s_stats s = stats_list ev fa idle busy queue n ->
  exists F' a b, report cfg d (Floor ds rota) ("done" :: rest) outs F' a b /\ frel s' F' /\ s_stats s' = stats_list (ev + a) (fa + b) idle busy queue n /\
    s_frozen s' = s_frozen s /\ s_next_w s' = s_next_w s.
Proof.
  intros HI HF H Ef Hk Hn Hnow Hline HS. destruct (find_by_identity_in _ _ _ Ef) as (Hin & _). pose proof (inv_q _ _ HI) as HQ.
  unfold process_worker_done in H. minv1 H. minv1 Hm. rewrite Ef in Hk0.
  assert (Hsame : s_stats s = stats_list (ev + 0) (fa + 0) idle busy queue n) by (rewrite HS; f_equal; lia).
  destruct rest as [|j [|st rest]].
  1,2: cbn [length Nat.ltb Nat.leb] in Hk0; minv1 Hk0; exists (Floor ds rota), 0%N, 0%N; (split; [apply re_short; cbn [length]; lia|auto]).
  cbn [length Nat.ltb Nat.leb] in Hk0. minv1 Hk0. minv1 Hm.
  rewrite (q_get_current_spec _ _ _ HQ Hin) in Eq. injection Eq as <- <-. rewrite set_queue_id in Hk1.
  minv1 Hk1. minv1 Hm. cbn [nth_error] in Ea. injection Ea as <-.
  destruct (current_of (s_queue s) w) as [r|] eqn:Ec; [|minv].
  destruct (d_now d) as [k|] eqn:Ed; [|inversion Hnow]. assert (HK : krel (s_fails s) k r) by (inversion Hnow; assumption). clear Hnow.
  rewrite (kr_name _ _ _ HK) in Hk0. destruct (String.eqb_spec j (k_name k)) as [->|Nj]; cbn [negb] in Hk0.
  2:{ minv1 Hk0. exists (Floor ds rota), 0%N, 0%N. split; [eapply re_other; eassumption|auto]. }
  minv1 Hk0. minv1 Hm. cbn [nth_error] in Ea. injection Ea as <-. rename Hk1 into H. cbv zeta in H.
  (* the lookup at the end does nothing *)
  assert (Hfin : forall t oo u t', qinv (s_queue t) (s_reg t) -> In w (s_reg t) -> (queue_call (q_get_current w) ;; ret tt) t = (oo, inr (u, t')) -> oo = [] /\ t' = t).
  { intros t oo u t' HQt Hint HH. minv1 HH. minv1 Hm. rewrite (q_get_current_spec _ _ _ HQt Hint) in Eq. injection Eq as <- <-. minv1 Hk0. rewrite set_queue_id. auto. }
  destruct (q_finished_eq o _ _ _ HQ Hin) as (m1 & Em1 & HQ1 & _ & Hcu & Efin). rewrite Ec in Em1.
  pose proof (own_queue_cancelled w w _ _ _ Em1) as Eown.
  pose proof (cancel_sim s ds rota w _ _ HQ HF Hin Em1) as HF1.
  assert (HI1 : inv (incr_fails r (set_queue m1 s)) [r]) by (eapply (atom_inv o cfg); [exact HI|eapply a_cancel; eassumption]).
  assert (HF2 : frel (incr_fails r (set_queue m1 s)) (Floor (change (w_id w) (has None) ds) rota)).
  { eapply incr_sim; [exact HQ1|exact (inv_nodup _ _ HI1)|exact HF1]. }
  assert (HL2 : Forall2 (krel (s_fails (incr_fails r (set_queue m1 s)))) (d_line d) (own_queue m1 w)).
  { apply (line_incr (set_queue m1 s)); [|rewrite Eown; exact Hline]. intros r' Hr' E.
    pose proof (inv_nodup _ _ HI1) as HND. rewrite map_app in HND. cbn [map] in HND. apply NoDup_remove_2 in HND. apply HND. rewrite app_nil_r, <- E. apply in_map.
    cbn [incr_fails set_fails set_queue s_queue]. destruct (fr_multi _ _ HF1) as (q1 & Eq1). cbn [set_queue s_queue] in Eq1. subst m1. eapply in_held_line; [exact HQ1|exact Hr']. }
  assert (HA : forall x m2, q_assign_request o w m1 = Val (x, m2) -> qinv m2 (s_reg s)).
  { intros x m2 E. assert (Hid : current_of m1 w = None) by (rewrite Hcu; unfold upd; rewrite Nat.eqb_refl; reflexivity).
    destruct (q_assign_spec o _ _ _ _ _ HQ1 Hin Hid E) as (HH & _). exact HH. }
  destruct (takes_next d ds) as (ts, ds') eqn:Et.
  destruct (String.eqb_spec st "OK") as [->|N1].
  { unfold job_done, stat_incr in H. minv1 H. minv1 Hm. minv1 Hk0. minv1 Hm. rewrite Efin in Eq. minv1 Hk1. apply send_if_inv in Hm. destruct Hm as (-> & ->).
    minv1 Hk0. minv1 Hm. apply Hfin in Hk1; [|cbn; exact (HA _ _ Eq)|exact Hin]. destruct Hk1 as (-> & ->).
    assert (HL1 : Forall2 (krel (s_fails (set_queue m1 s))) (d_line d) (own_queue (s_queue (set_queue m1 s)) w)) by (cbn [set_queue s_queue s_fails]; rewrite Eown; exact Hline).
    destruct (take_sim o (set_queue m1 s) d ds rota w _ _ HQ1 HF1 Hin Hk Hn HL1 Eq) as (T1 & T2).
    rewrite Et in T1, T2. cbn [fst snd] in T1, T2.
    exists (Floor ds' rota), 1%N, 0%N. split; [|split; [|split]].
    - cbn [app]. rewrite app_nil_r. rewrite T1 in Et. eapply re_ok; [exact Ed|exact Et].
    - apply (frel_ext (set_queue m s)); [reflexivity|reflexivity|reflexivity|reflexivity|reflexivity|exact T2].
    - cbn [set_stats set_queue s_stats]. unfold stat. cbn [set_queue s_stats]. rewrite HS, set_evaluated.
      assert (sm_find STATS_EVALUATED_JOBS (stats_list ev fa idle busy queue n) = Some ev) as -> by reflexivity. f_equal; lia.
    - auto. }
  destruct (String.eqb_spec st "INTERNAL_ERROR") as [->|N2].
  { change (Nat.eqb (S (S (S (length rest)))) 4) with (Nat.eqb (length rest) 1) in H.
    destruct (Nat.eqb_spec (length rest) 1) as [L1|L1]; cbn [negb] in H.
    2:{ minv1 H. exists (Floor ds rota), 0%N, 0%N. split; [eapply re_frames; [exact Ed|simpl; tauto|exact L1]|auto]. }
    destruct rest as [|text [|? ?]]; try discriminate L1.
    minv1 H. minv1 Hm. rewrite Em1 in Eq. injection Eq as <- <-. unfold failures_incr in Hk0. minv1 Hk0. minv1 Hm.
    change (set_fails (tbl_set (r_id r) (failures r (set_queue m1 s) + 1)%N (s_fails (set_queue m1 s))) (set_queue m1 s)) with (incr_fails r (set_queue m1 s)) in *.
    set (s2 := incr_fails r (set_queue m1 s)) in *.
    minv1 Hk1. minv1 Hm. cbn [nth_error] in Ea. injection Ea as <-.
    apply bind_inv in Hk0. destruct Hk0 as (o71 & [] & s3 & o79 & Hm & H & ->). unfold stat_incr in H. minv1 H. minv1 Hm0.
    assert (HK2 : krel (s_fails s2) (struck k) r) by (apply (krel_struck (set_queue m1 s)); exact HK).
    assert (HR : exists F' x, report cfg d (Floor ds rota) ["done"; k_name k; "INTERNAL_ERROR"; text] x F' 0 1 /\ x = o71 /\ frel s3 F' /\
       qinv (s_queue s3) (s_reg s3) /\ (s_reg s3, s_stats s3, s_frozen s3, s_next_w s3) = (s_reg s, s_stats s, s_frozen s, s_next_w s)).
    { clear Hk0. destruct (r_complete r) eqn:Hc; cbn [negb] in Hm.
      - assert (Hw : k_whole k = true) by (rewrite <- (kr_whole _ _ _ HK); exact Hc).
        minv1 Hm. unfold check_failure_count, job_failed, notify_monitor in Hm0. minv1 Hm0. minv1 Hm.
        assert (Efl : failures r s2 = (k_strikes k + 1)%N) by (unfold failures; rewrite (kr_strikes _ _ _ HK2); reflexivity).
        rewrite Efl in Hk1. destruct (N.leb_spec (c_max_failures cfg) (k_strikes k + 1)) as [Hle|Hlt].
        + minv1 Hk1. minv1 Hm. minv1 Hk2. minv1 Hm. minv1 Hk1. minv1 Hk0. minv1 Hm. apply send_if_inv in Hk1. destruct Hk1 as (-> & ->).
          destruct (take_sim o s2 d ds rota w _ _ HQ1 HF2 Hin Hk Hn HL2 Eq) as (T1 & T2). rewrite Et in T1, T2. cbn [fst snd] in T1, T2.
          eexists (Floor ds' rota), _. split; [|split; [reflexivity|split; [exact T2|split; [exact (HA _ _ Eq)|reflexivity]]]].
          cbn [app]. rewrite T1 in Et. rewrite (kr_name _ _ _ HK). eapply re_worn; eassumption.
        + minv1 Hk1. minv1 Hk0. minv1 Hk1. unfold reassign_request in Hm. minv1 Hm. minv1 Hm0.
          destruct (place_sim o s2 _ r (struck k) _ _ HQ1 HF2 HK2 Hc Eq) as (F' & HP & HF').
          pose proof (q_enqueue_spec o _ _ _ _ _ HQ1 Hc Eq) as (HQ3 & HE).
          destruct x0 as [y b]. destruct b.
          * cbn [enqueued assigned_to negb] in *. exists F', (match y with Some w => [Msg "workers" (w_identity w) (r_frames r)] | None => [] end).
            assert (E3 : s0 = set_queue m s2 /\ o3 = match y with Some w => [Msg "workers" (w_identity w) (r_frames r)] | None => [] end).
            { clearbody s2. clear - Hk0. destruct y; unfold send_request in Hk0; minv; auto. }
            destruct E3 as (-> & ->). split; [|split; [cbn [app]; rewrite ?app_nil_r; reflexivity|split; [exact HF'|split; [exact HQ3|reflexivity]]]].
            rewrite <- Hk in HP. eapply re_again; [exact Ed|exact Hw|exact Hlt|exact HP].
          * exfalso. destruct y; [exact HE|]. destruct HE as (_ & HE). pose proof (HE w Hin) as H1. pose proof (qi_current _ _ HQ w r Hin Ec Hc) as H2. unfold capable in *. congruence.
      - unfold rejected_job in Hm. minv1 Hm. eexists _, _. split; [|split; [reflexivity|split; [exact HF2|split; [exact HQ1|reflexivity]]]].
        rewrite (kr_name _ _ _ HK), <- Hk. apply re_unknown; [exact Ed|]. rewrite <- (kr_whole _ _ _ HK). exact Hc. }
    destruct HR as (F' & x9 & R1 & -> & R2 & R3 & R4). injection R4 as R4 R5 R6 R7.
    apply Hfin in Hk0; [|exact R3|cbn; rewrite R4; exact Hin]. destruct Hk0 as (-> & ->).
    exists F', 0%N, 1%N. cbn [app]. rewrite !app_nil_r. split; [exact R1|]. split; [|split].
    - apply (frel_ext s3); [reflexivity|reflexivity|reflexivity|reflexivity|reflexivity|exact R2].
    - cbn [set_stats s_stats]. unfold stat. rewrite R5, HS, set_failed.
      assert (sm_find STATS_FAILED_JOBS (stats_list ev fa idle busy queue n) = Some fa) as -> by reflexivity. f_equal; lia.
    - cbn. auto. }
  destruct (String.eqb_spec st "FAILED") as [->|N3].
  { change (Nat.eqb (S (S (S (length rest)))) 4) with (Nat.eqb (length rest) 1) in H.
    destruct (Nat.eqb_spec (length rest) 1) as [L1|L1]; cbn [negb] in H.
    2:{ minv1 H. exists (Floor ds rota), 0%N, 0%N. split; [eapply re_frames; [exact Ed|simpl; tauto|exact L1]|auto]. }
    destruct rest as [|text [|? ?]]; try discriminate L1.
    minv1 H. minv1 Hm. cbn [nth_error] in Ea. injection Ea as <-. unfold job_failed in Hk0. minv1 Hk0. minv1 Hm. minv1 Hk1. minv1 Hm.
    rewrite Em1 in Eq. injection Eq as <- <-. unfold failures_incr in Hk0. minv1 Hk0. minv1 Hm.
    change (set_fails (tbl_set (r_id r) (failures r (set_queue m1 s) + 1)%N (s_fails (set_queue m1 s))) (set_queue m1 s)) with (incr_fails r (set_queue m1 s)) in *.
    set (s2 := incr_fails r (set_queue m1 s)) in *.
    minv1 Hk1. minv1 Hm. minv1 Hk0. apply send_if_inv in Hm. destruct Hm as (-> & ->). unfold stat_incr in Hk1. minv1 Hk1. minv1 Hm.
    apply Hfin in Hk0; [|cbn; exact (HA _ _ Eq)|exact Hin]. destruct Hk0 as (-> & ->).
    destruct (take_sim o s2 d ds rota w _ _ HQ1 HF2 Hin Hk Hn HL2 Eq) as (T1 & T2). rewrite Et in T1, T2. cbn [fst snd] in T1, T2.
    exists (Floor ds' rota), 0%N, 1%N. split; [|split; [|split]].
    - cbn [app]. rewrite app_nil_r. rewrite T1 in Et. eapply re_failed; [exact Ed|exact Et].
    - apply (frel_ext (set_queue m s2)); [reflexivity|reflexivity|reflexivity|reflexivity|reflexivity|exact T2].
    - cbn [set_stats set_queue s_stats]. unfold stat. cbn [set_queue s_stats]. change (s_stats s2) with (s_stats s). rewrite HS, set_failed.
      assert (sm_find STATS_FAILED_JOBS (stats_list ev fa idle busy queue n) = Some fa) as -> by reflexivity. f_equal; lia.
    - auto. }
  apply Hfin in H; [|exact HQ|exact Hin]. destruct H as (-> & ->).
  exists (Floor ds rota), 0%N, 0%N. split; [eapply re_status; [exact Ed|simpl; intuition congruence]|auto].
Qed.

(* ---- registrations ---- *)
Lemma init_exact i hw frames s outs s' q h rest : s_queue s = QMulti q -> process_worker_init o i ("init" :: hw :: frames) s = (outs, inr (tt, s')) ->
  parse_init_headers frames [] = (h, rest) ->
  match find_worker_by_identity i (s_reg s) with Some c => headers_equal c h | None => false end = false ->
  exists w0 desc cur next, make_worker (s_next_w s) (o_addr o (s_next_w s)) i hw h = Val w0 /\
    parse_init_extra rest "" None (s_next_r s) = (desc, cur, next) /\
    let w := set_description desc w0 in
    outs = (match find_worker_by_identity i (s_reg s) with
            | Some c => [Msg "status_notifier" "" ["type"; "error"; "message"; "Received two different INIT messages from the same worker (" ++ get_description c ++ ")"]] | None => [] end)%string /\
    q_add_worker o w cur (s_queue s) = Val (None, QMulti (snd (multi_add_worker w cur q))) /\
    s' = set_timers (pm_emplace w 0%Z (s_timers s)) (set_queue (QMulti (snd (multi_add_worker w cur q)))
           (set_reg (s_reg s ++ [w]) (set_next_r next (set_next_w (S (s_next_w s)) s)))).
Proof.
  intros Eq H Ep HN. unfold process_worker_init in H. cbn [length Nat.ltb Nat.leb skipn] in H.
  minv1 H. minv1 Hm. cbn [nth_error] in Ea. injection Ea as <-. rewrite Ep in Hk.
  minv1 Hk. minv1 Hm. set (register := bind _ _) in Hk0.
  assert (HR : forall oo se, register s = (oo, inr (tt, se)) -> exists w0 desc cur next, make_worker (s_next_w s) (o_addr o (s_next_w s)) i hw h = Val w0 /\
    parse_init_extra rest "" None (s_next_r s) = (desc, cur, next) /\
    let w := set_description desc w0 in oo = [] /\
    q_add_worker o w cur (s_queue s) = Val (None, QMulti (snd (multi_add_worker w cur q))) /\
    se = set_timers (pm_emplace w 0%Z (s_timers s)) (set_queue (QMulti (snd (multi_add_worker w cur q)))
           (set_reg (s_reg s ++ [w]) (set_next_r next (set_next_w (S (s_next_w s)) s))))).
  { clear - Eq. intros oo se HH. unfold register in HH. clear register. minv1 HH. minv1 Hm. minv1 Hk. minv1 Hm.
    destruct (parse_init_extra rest "" None (s_next_r s)) as ((desc, cur), next) eqn:Ex.
    minv1 Hk0. minv1 Hm. minv1 Hk. minv1 Hm. minv1 Hk0. minv1 Hm. cbn [set_reg set_next_r set_next_w s_queue] in Eq0.
    exists x, desc, cur, next. split; [exact El|]. split; [reflexivity|]. cbv zeta. rewrite Eq in *. cbn [q_add_worker] in *. unfold lift_multi in *.
    cbn [multi_add_worker fst snd] in *. injection Eq0 as <- <-. minv1 Hk. cbn [send_if] in Hm. minv1 Hm. minv1 Hk0. auto. }
  clearbody register. destruct (find_worker_by_identity i (s_reg s)) as [c|].
  - rewrite HN in Hk0. unfold notify_error in Hk0. apply bind_inv in Hk0. destruct Hk0 as (o8 & a & s1 & o9 & Hm1 & Hk1 & ->). minv1 Hm1.
    destruct (HR _ _ Hk1) as (w0 & desc & cur & next & R1 & R2 & R3 & R4 & R5). exists w0, desc, cur, next. cbv zeta. rewrite R3. auto.
  - destruct (HR _ _ Hk0) as (w0 & desc & cur & next & R1 & R2 & R3 & R4 & R5). exists w0, desc, cur, next. auto.
Qed.

Lemma init_ledger i hw frames hdrs s0 outs s' ds rota : inv s0 [] -> ping_inv s0 -> frel s0 (Floor ds rota) -> init_block frames hdrs ->
  process_worker_init o i ("init" :: hw :: frames) s0 = (outs, inr (tt, s')) ->
  match find_worker_by_identity i (s_reg s0) with Some c => headers_equal c (fst (parse_init_headers frames [])) | None => false end = false ->
  frel s' (Floor (ds ++ [Desk (s_next_w s0) (Guest i hw hdrs (fallback (last_extra "description" ("init" :: hw :: frames))) 0 0)
             (match last_extra "current_job" ("init" :: hw :: frames) with Some j => Some (Task j false [] [] 0) | None => None end) []]) (s_next_w s0 :: rota)) /\
  outs = match find_worker_by_identity i (s_reg s0) with
         | Some c => [Msg "status_notifier" "" ["type"; "error"; "message"; ("Received two different INIT messages from the same worker (" ++ get_description c ++ ")")%string]] | None => [] end /\
  s_next_w s' = S (s_next_w s0) /\ s_frozen s' = s_frozen s0 /\ s_stats s' = s_stats s0.
Proof.
  intros HI HPI HF HBl H HN. destruct HF as [(q & Eq) HD HR]. cbn [f_desks f_rota] in *.
  destruct (init_block_headers _ _ HBl) as (EB & NB).
  destruct (parse_init_headers frames []) as (h, rest) eqn:Ep. cbn [fst] in *.
  destruct (init_exact _ _ _ _ _ _ _ _ _ Eq H Ep HN) as (w0 & desc & cur & next & Ew & Ex & Eo & Ea & ->).
  set (w := set_description desc w0) in *. split; [|split; [exact Eo|auto]].
  destruct (make_worker_fields _ _ _ _ _ _ Ew) as (W1 & W2 & W3 & W4 & W5 & W6). pose proof (make_worker_made _ _ _ _ _ _ Ew) as (M1 & M2 & M3).
  assert (Hid : w_id w = s_next_w s0) by exact W1. pose proof (inv_q _ _ HI) as HQ.
  assert (Hni : ~ In (w_id w) (ids (s_reg s0))).
  { intros Hc. apply in_ids_inv in Hc. destruct Hc as (u & Hu & E). pose proof (inv_w _ _ HI u Hu). lia. }
  destruct (parse_init_extra_spec _ _ _ _ _ _ _ Ex) as (_ & Hcur & _).
  assert (Hinc : forall r, cur = Some r -> r_complete r = false /\ s_next_r s0 <= r_id r).
  { intros r Er. destruct (Hcur r Er) as [|(Ei & Hb)]; [discriminate|]. split; [rewrite Ei; reflexivity|lia]. }
  assert (HAd : add_post (s_queue s0) (s_reg s0) w cur None (QMulti (snd (multi_add_worker w cur q)))).
  { eapply q_add_spec; [exact HQ|exact Hni|intros r Er; apply Hinc; exact Er|exact Ea]. }
  pose proof (own_add o _ _ _ _ _ _ HQ Hni Ea) as HOw.
  assert (HCu : forall u, current_of (QMulti (snd (multi_add_worker w cur q))) u = upd (current_of (s_queue s0)) w cur u).
  { destruct HAd as (_ & HAd). destruct cur as [r|]; [|apply HAd]. apply HAd. }
  destruct (proj2 HPI w) as (PL & PT); [lia|].
  assert (HT : forall u, ping_timer (set_timers (pm_emplace w 0%Z (s_timers s0)) s0) u = if Nat.eqb (w_id w) (w_id u) then Some 0%Z else ping_timer s0 u).
  { intros u. unfold ping_timer. cbn [set_timers s_timers]. rewrite pm_find_emplaced. destruct (Nat.eqb_spec (w_id w) (w_id u)) as [E|E].
    - unfold ping_timer in PT. assert (pm_find u (s_timers s0) = None) as ->; [|reflexivity]. rewrite <- PT. symmetry. apply pm_find_id. exact E.
    - destruct (pm_find u (s_timers s0)); reflexivity. }
  constructor; cbn [set_timers set_queue set_reg set_next_r set_next_w s_queue s_reg f_desks f_rota]; [eauto| |].
  - apply Forall2_app.
    + assert (HL : forall u, In u (s_reg s0) -> w_id w <> w_id u) by (intros u Hu E; apply Hni; rewrite E; apply in_map; exact Hu).
      assert (HG : forall es us, incl us (s_reg s0) -> Forall2 (drel s0) es us ->
        Forall2 (drel (set_timers (pm_emplace w 0%Z (s_timers s0)) (set_queue (QMulti (snd (multi_add_worker w cur q)))
           (set_reg (s_reg s0 ++ [w]) (set_next_r next (set_next_w (S (s_next_w s0)) s0)))))) es us).
      { intros es us Hi HH. induction HH as [|e u es us Hr _ IH]; constructor.
        - assert (Hu : In u (s_reg s0)) by (apply Hi; left; reflexivity). specialize (HL u Hu). destruct Hr as [H1 H2 H3 H4]. constructor.
          + exact H1.
          + apply (rel_pings s0); [reflexivity| |exact H2]. specialize (HT u). rewrite (proj2 (Nat.eqb_neq _ _) HL) in HT. exact HT.
          + cbn [set_timers set_queue set_reg set_next_r set_next_w s_queue s_fails]. rewrite HCu. unfold upd. rewrite (proj2 (Nat.eqb_neq _ _) HL). exact H3.
          + cbn [set_timers set_queue set_reg set_next_r set_next_w s_queue s_fails]. rewrite (proj1 (HOw u)). exact H4.
        - apply IH. intros v Hv. apply Hi. right. exact Hv. }
      apply HG; [apply incl_refl|exact HD].
    + constructor; [|constructor]. constructor; cbn [d_key d_guest d_now d_line set_timers set_queue set_reg set_next_r set_next_w s_queue s_fails].
      * symmetry. exact Hid.
      * constructor; cbn [g_name g_group g_frames g_note g_chances g_waited].
        -- exact W3.
        -- rewrite <- EB. split; [exact M1|]. split; [exact M2|exact M3].
        -- exact NB.
        -- cbn [w set_description w_description]. pose proof (extra_description _ _ _ _ _ _ _ Ex) as HE. unfold fallback, last_extra. cbn [skipn].
           destruct (parse_init_headers_rest _ _ _ _ Ep) as [(Er1 & Er2)|Er1]; rewrite Er1 in HE; [rewrite Er2; simpl in HE |- *; congruence|].
           cbn [fold_left] in HE. rewrite fold_last in HE. simpl in HE. match goal with |- _ = match ?x with _ => _ end => destruct x end; congruence.
        -- exact PL.
        -- specialize (HT w). rewrite Nat.eqb_refl in HT. exact HT.
      * rewrite HCu. unfold upd. rewrite Nat.eqb_refl. pose proof (announced_spec _ _ _ _ _ _ _ _ _ Ep Ex) as HAn. unfold last_extra. cbn [skipn]. rewrite <- HAn.
        destruct cur as [r|]; cbn [option_map]; constructor. destruct (Hinc r eq_refl) as (I1 & I2). constructor; cbn [k_name k_whole k_need k_text k_strikes]; try congruence.
        apply (inv_f _ _ HI). exact I2.
      * rewrite (proj2 (HOw w) eq_refl). constructor.
  - cbn [manager_workers multi_add_worker snd mq_order ids map]. rewrite Hid, HR, Eq. reflexivity.
Qed.
End WithConfig.
