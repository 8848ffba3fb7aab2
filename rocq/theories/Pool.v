(* The broker with one queue for all workers is the hall of SpecPool (C73). *)
From Coq Require Import Permutation Lia.
From Verif Require Import Base Bytes Containers Worker Multi Single Queue Handler SpecText Spec SpecRun SpecMsg SpecQueue SpecPings SpecOutcome SpecJoin SpecTick SpecFront SpecBook SpecLedger SpecPool
  Facts TextFacts QueueInv Atoms HandlerSim Keeps Conserve Provenance Members HeaderFacts OrderFacts Messages Pings Blind Outcome Joining Front OwnQueue Stats TickOutcome Book LedgerFloor LedgerTick Ledger PoolFloor PoolTick.
Local Open Scope string_scope.
Local Open Scope list_scope.

Section WithConfig.
Context (o : oracle) (cfg : config) (arranged : list (task * Z) -> list (task * Z) -> Prop).

(* ---- ticks ---- *)
Lemma timer_pool m s outs s' ds pool nr : inv s [] -> hrel o s (Hall ds pool nr) -> process_timer o cfg m s = (outs, inr (tt, s')) ->
  exists t rest z F', m_data m = t :: rest /\ reads t z /\
    clear_out (o_addr o) (o_clock o) cfg (Hall (map (pass cfg z) ds) pool nr) (map d_key (filter (lost cfg z) ds)) outs F' /\ hrel o s' F' /\ inv s' [].
Proof.
  intros HI HF H. pose proof (process_timer_sim _ _ _ _ _ _ HI H) as (ls & A & _ & _). pose proof (atoms_inv _ _ _ _ _ _ _ A HI) as HI'.
  unfold process_timer in H. destruct (m_data m) as [|front rest]; [discriminate|].
  minv1 H. minv1 Hm. rename El into Ez. minv1 Hk. minv1 Hm. minv1 Hk0. cbv beta in Hk.
  pose proof (qi_nodup _ _ (inv_q _ _ HI)) as Hnd.
  destruct (pool_scan o cfg _ _ _ _ _ _ _ _ HI HF Hm) as (-> & Eids & HF1).
  destruct (timer_scan_core _ _ _ _ _ _ _ Hm) as (_ & HC & Hi & Hn).
  assert (HI1 : inv s0 []) by (eapply (atom_inv o cfg); [exact HI|apply a_tau; exact HC]).
  apply bind_inv in Hk. destruct Hk as (o71 & [] & s1 & o79 & He & Hk & ->).
  assert (Hi1 : incl x0 (s_reg s0)) by (unfold core in HC; injection HC as C1 _ _ _ _; rewrite <- C1; exact Hi).
  destruct (clear_sim o cfg _ _ _ _ _ HI1 (Hn Hnd) Hi1 HF1 He) as (F' & C1 & C2).
  destruct (expire_workers_sim o cfg _ _ _ _ HI1 (Hn Hnd) Hi1 He) as (ls1 & A1 & _ & _).
  pose proof (atoms_inv _ _ _ _ _ _ _ A1 HI1) as HI2.
  exists front, rest, x, F'. split; [reflexivity|]. split; [apply reads_stoll; exact Ez|]. rewrite <- Eids.
  minv1 Hk. minv1 Hm0. unfold stat_set in Hk0. minv1 Hk0. minv1 Hm0. minv1 Hk. minv1 Hm0. minv1 Hk0. minv1 Hm0.
  apply bind_inv in Hk. destruct Hk as (o74 & [] & s2 & o75 & Hc & Hk & ->). minv1 Hk. minv1 Hm0. minv1 Hk0.
  match type of Hc with count_idle _ ?t = _ => set (s3 := t) in * end.
  assert (HI3 : inv s3 []) by (eapply (atom_inv o cfg); [exact HI2|apply a_tau; reflexivity]).
  destruct (count_idle_core o cfg _ _ _ _ HI3 (incl_refl _) Hc) as (-> & HC3). unfold core in HC3. injection HC3 as Q1 Q2 Q3 Q4 Q5.
  pose proof (count_idle_pings _ _ _ _ _ Hc) as HP3. unfold pings in HP3. injection HP3 as P1 P2.
  cbn [app]. rewrite !app_nil_r. split; [exact C1|]. split; [|exact HI']. apply (hrel_ext o s1); [| | | | |exact C2]; cbn [set_stats s_reg s_queue s_fails s_live s_timers].
  - rewrite <- Q1. reflexivity.
  - rewrite <- Q2. reflexivity.
  - rewrite <- Q3. reflexivity.
  - rewrite P1. reflexivity.
  - rewrite P2. reflexivity.
Qed.

(* ---- reports ---- *)
Lemma done_pool i rest s outs s' ds pool nr w d s9 ev fa idle busy queue n : arranging o arranged (s_queue s) -> inv s [] -> hrel o s (Hall ds pool nr) ->
  process_worker_done o cfg i ("done" :: rest) s = (outs, inr (tt, s')) ->
  find_worker_by_identity i (s_reg s) = Some w -> d_key d = w_id w -> name_of d = w_identity w ->
  may_be (krel (s_fails s)) (d_now d) (current_of (s_queue s) w) -> rel s9 (d_guest d) w ->
  s_stats s = stats_list ev fa idle busy queue n ->
  exists F' a b, tells (o_addr o) (o_clock o) arranged cfg d (Hall ds pool nr) ("done" :: rest) outs F' a b /\ hrel o s' F' /\ s_stats s' = stats_list (ev + a) (fa + b) idle busy queue n /\
    s_frozen s' = s_frozen s /\ s_next_w s' = s_next_w s.
Proof.
  intros HArr HI HF H Ef Hk Hn Hnow Hline HS. destruct (find_by_identity_in _ _ _ Ef) as (Hin & _). pose proof (inv_q _ _ HI) as HQ.
  unfold process_worker_done in H. minv1 H. minv1 Hm. rewrite Ef in Hk0.
  assert (Hsame : s_stats s = stats_list (ev + 0) (fa + 0) idle busy queue n) by (rewrite HS; f_equal; lia).
  destruct rest as [|j [|st rest]].
  1,2: cbn [length Nat.ltb Nat.leb] in Hk0; minv1 Hk0; exists (Hall ds pool nr), 0%N, 0%N; (split; [apply te_short; cbn [length]; lia|auto]).
  cbn [length Nat.ltb Nat.leb] in Hk0. minv1 Hk0. minv1 Hm.
  rewrite (q_get_current_spec _ _ _ HQ Hin) in Eq. injection Eq as <- <-. rewrite set_queue_id in Hk1.
  minv1 Hk1. minv1 Hm. cbn [nth_error] in Ea. injection Ea as <-.
  destruct (current_of (s_queue s) w) as [r|] eqn:Ec; [|minv].
  destruct (d_now d) as [k|] eqn:Ed; [|inversion Hnow]. assert (HK : krel (s_fails s) k r) by (inversion Hnow; assumption). clear Hnow.
  rewrite (kr_name _ _ _ HK) in Hk0. destruct (String.eqb_spec j (k_name k)) as [->|Nj]; cbn [negb] in Hk0.
  2:{ minv1 Hk0. exists (Hall ds pool nr), 0%N, 0%N. split; [eapply te_other; eassumption|auto]. }
  minv1 Hk0. minv1 Hm. cbn [nth_error] in Ea. injection Ea as <-. rename Hk1 into H. cbv zeta in H.
  (* the lookup at the end does nothing *)
  assert (Hfin : forall t oo u t', qinv (s_queue t) (s_reg t) -> In w (s_reg t) -> (queue_call (q_get_current w) ;; ret tt) t = (oo, inr (u, t')) -> oo = [] /\ t' = t).
  { intros t oo u t' HQt Hint HH. minv1 HH. minv1 Hm. rewrite (q_get_current_spec _ _ _ HQt Hint) in Eq. injection Eq as <- <-. minv1 Hk0. rewrite set_queue_id. auto. }
  destruct (q_finished_eq o _ _ _ HQ Hin) as (m1 & Em1 & HQ1 & _ & Hcu & Efin). rewrite Ec in Em1.
  pose proof (pool_cancel o s ds pool nr w _ _ HQ HF Hin Em1) as HF1. pose proof (arranging_cancelled o _ _ _ _ _ Em1 HArr) as HArr1.
  assert (HI1 : inv (incr_fails r (set_queue m1 s)) [r]) by (eapply (atom_inv o cfg); [exact HI|eapply a_cancel; eassumption]).
  assert (HF2 : hrel o (incr_fails r (set_queue m1 s)) (Hall (change (w_id w) (has None) ds) pool nr)).
  { eapply pool_incr; [exact HQ1|exact (inv_nodup _ _ HI1)|exact HF1]. }
  assert (HA : forall x m2, q_assign_request o w m1 = Val (x, m2) -> qinv m2 (s_reg s)).
  { intros x m2 E. assert (Hid : current_of m1 w = None) by (rewrite Hcu; unfold upd; rewrite Nat.eqb_refl; reflexivity).
    destruct (q_assign_spec o _ _ _ _ _ HQ1 Hin Hid E) as (HH & _). exact HH. }
  destruct (String.eqb_spec st "OK") as [->|N1].
  { unfold job_done, stat_incr in H. minv1 H. minv1 Hm. minv1 Hk0. minv1 Hm. rewrite Efin in Eq. minv1 Hk1. apply send_if_inv in Hm. destruct Hm as (-> & ->).
    minv1 Hk0. minv1 Hm. apply Hfin in Hk1; [|cbn; exact (HA _ _ Eq)|exact Hin]. destruct Hk1 as (-> & ->).
    destruct (pool_take o arranged (set_queue m1 s) s9 d ds pool nr w _ _ HArr1 HQ1 HF1 Hin Hk Hline Eq) as (H9 & T1 & T2).
    exists H9, 1%N, 0%N. split; [|split; [|split]].
    - cbn [app]. rewrite app_nil_r. eapply te_ok; [exact Ed|exact T1].
    - apply (hrel_ext o (set_queue m s)); [reflexivity|reflexivity|reflexivity|reflexivity|reflexivity|exact T2].
    - cbn [set_stats set_queue s_stats]. unfold stat. cbn [set_queue s_stats]. rewrite HS, set_evaluated.
      assert (sm_find STATS_EVALUATED_JOBS (stats_list ev fa idle busy queue n) = Some ev) as -> by reflexivity. f_equal; lia.
    - auto. }
  destruct (String.eqb_spec st "INTERNAL_ERROR") as [->|N2].
  { change (Nat.eqb (S (S (S (length rest)))) 4) with (Nat.eqb (length rest) 1) in H.
    destruct (Nat.eqb_spec (length rest) 1) as [L1|L1]; cbn [negb] in H.
    2:{ minv1 H. exists (Hall ds pool nr), 0%N, 0%N. split; [eapply te_frames; [exact Ed|simpl; tauto|exact L1]|auto]. }
    destruct rest as [|text [|? ?]]; try discriminate L1.
    minv1 H. minv1 Hm. rewrite Em1 in Eq. injection Eq as <- <-. unfold failures_incr in Hk0. minv1 Hk0. minv1 Hm.
    change (set_fails (tbl_set (r_id r) (failures r (set_queue m1 s) + 1)%N (s_fails (set_queue m1 s))) (set_queue m1 s)) with (incr_fails r (set_queue m1 s)) in *.
    set (s2 := incr_fails r (set_queue m1 s)) in *.
    minv1 Hk1. minv1 Hm. cbn [nth_error] in Ea. injection Ea as <-.
    apply bind_inv in Hk0. destruct Hk0 as (o71 & [] & s3 & o79 & Hm & H & ->). unfold stat_incr in H. minv1 H. minv1 Hm0.
    assert (HK2 : krel (s_fails s2) (struck k) r) by (apply (krel_struck (set_queue m1 s)); exact HK).
    assert (HR : exists F' x, tells (o_addr o) (o_clock o) arranged cfg d (Hall ds pool nr) ["done"; k_name k; "INTERNAL_ERROR"; text] x F' 0 1 /\ x = o71 /\ hrel o s3 F' /\
       qinv (s_queue s3) (s_reg s3) /\ (s_reg s3, s_stats s3, s_frozen s3, s_next_w s3) = (s_reg s, s_stats s, s_frozen s, s_next_w s)).
    { clear Hk0. destruct (r_complete r) eqn:Hc; cbn [negb] in Hm.
      - assert (Hw : k_whole k = true) by (rewrite <- (kr_whole _ _ _ HK); exact Hc).
        minv1 Hm. unfold check_failure_count, job_failed, notify_monitor in Hm0. minv1 Hm0. minv1 Hm.
        assert (Efl : failures r s2 = (k_strikes k + 1)%N) by (unfold failures; rewrite (kr_strikes _ _ _ HK2); reflexivity).
        rewrite Efl in Hk1. destruct (N.leb_spec (c_max_failures cfg) (k_strikes k + 1)) as [Hle|Hlt].
        + minv1 Hk1. minv1 Hm. minv1 Hk2. minv1 Hm. minv1 Hk1. minv1 Hk0. minv1 Hm. apply send_if_inv in Hk1. destruct Hk1 as (-> & ->).
          destruct (pool_take o arranged s2 s9 d ds pool nr w _ _ HArr1 HQ1 HF2 Hin Hk Hline Eq) as (H9 & T1 & T2).
          eexists H9, _. split; [|split; [reflexivity|split; [exact T2|split; [exact (HA _ _ Eq)|reflexivity]]]].
          cbn [app]. rewrite (kr_name _ _ _ HK). eapply te_worn; eassumption.
        + minv1 Hk1. minv1 Hk0. minv1 Hk1. unfold reassign_request in Hm. minv1 Hm. minv1 Hm0.
          destruct (join_sim o s2 _ r (struck k) _ _ HQ1 HF2 HK2 Hc Eq) as (F' & HP & HF').
          pose proof (q_enqueue_spec o _ _ _ _ _ HQ1 Hc Eq) as (HQ3 & HE).
          destruct x0 as [y b]. destruct b.
          * cbn [enqueued assigned_to negb] in *. exists F', (match y with Some w => [Msg "workers" (w_identity w) (r_frames r)] | None => [] end).
            assert (E3 : s0 = set_queue m s2 /\ o3 = match y with Some w => [Msg "workers" (w_identity w) (r_frames r)] | None => [] end).
            { clearbody s2. clear - Hk0. destruct y; unfold send_request in Hk0; minv; auto. }
            destruct E3 as (-> & ->). split; [|split; [cbn [app]; rewrite ?app_nil_r; reflexivity|split; [exact HF'|split; [exact HQ3|reflexivity]]]].
            rewrite <- Hk in HP. eapply te_again; [exact Ed|exact Hw|exact Hlt|exact HP].
          * exfalso. destruct y; [exact HE|]. destruct HE as (_ & HE). pose proof (HE w Hin) as H1. pose proof (qi_current _ _ HQ w r Hin Ec Hc) as H2. unfold capable in *. congruence.
      - unfold rejected_job in Hm. minv1 Hm. eexists _, _. split; [|split; [reflexivity|split; [exact HF2|split; [exact HQ1|reflexivity]]]].
        rewrite (kr_name _ _ _ HK), <- Hk. apply te_unknown; [exact Ed|]. rewrite <- (kr_whole _ _ _ HK). exact Hc. }
    destruct HR as (F' & x9 & R1 & -> & R2 & R3 & R4). injection R4 as R4 R5 R6 R7.
    apply Hfin in Hk0; [|exact R3|cbn; rewrite R4; exact Hin]. destruct Hk0 as (-> & ->).
    exists F', 0%N, 1%N. cbn [app]. rewrite !app_nil_r. split; [exact R1|]. split; [|split].
    - apply (hrel_ext o s3); [reflexivity|reflexivity|reflexivity|reflexivity|reflexivity|exact R2].
    - cbn [set_stats s_stats]. unfold stat. rewrite R5, HS, set_failed.
      assert (sm_find STATS_FAILED_JOBS (stats_list ev fa idle busy queue n) = Some fa) as -> by reflexivity. f_equal; lia.
    - cbn. auto. }
  destruct (String.eqb_spec st "FAILED") as [->|N3].
  { change (Nat.eqb (S (S (S (length rest)))) 4) with (Nat.eqb (length rest) 1) in H.
    destruct (Nat.eqb_spec (length rest) 1) as [L1|L1]; cbn [negb] in H.
    2:{ minv1 H. exists (Hall ds pool nr), 0%N, 0%N. split; [eapply te_frames; [exact Ed|simpl; tauto|exact L1]|auto]. }
    destruct rest as [|text [|? ?]]; try discriminate L1.
    minv1 H. minv1 Hm. cbn [nth_error] in Ea. injection Ea as <-. unfold job_failed in Hk0. minv1 Hk0. minv1 Hm. minv1 Hk1. minv1 Hm.
    rewrite Em1 in Eq. injection Eq as <- <-. unfold failures_incr in Hk0. minv1 Hk0. minv1 Hm.
    change (set_fails (tbl_set (r_id r) (failures r (set_queue m1 s) + 1)%N (s_fails (set_queue m1 s))) (set_queue m1 s)) with (incr_fails r (set_queue m1 s)) in *.
    set (s2 := incr_fails r (set_queue m1 s)) in *.
    minv1 Hk1. minv1 Hm. minv1 Hk0. apply send_if_inv in Hm. destruct Hm as (-> & ->). unfold stat_incr in Hk1. minv1 Hk1. minv1 Hm.
    apply Hfin in Hk0; [|cbn; exact (HA _ _ Eq)|exact Hin]. destruct Hk0 as (-> & ->).
    destruct (pool_take o arranged s2 s9 d ds pool nr w _ _ HArr1 HQ1 HF2 Hin Hk Hline Eq) as (H9 & T1 & T2).
    exists H9, 0%N, 1%N. split; [|split; [|split]].
    - cbn [app]. rewrite app_nil_r. eapply te_failed; [exact Ed|exact T1].
    - apply (hrel_ext o (set_queue m s2)); [reflexivity|reflexivity|reflexivity|reflexivity|reflexivity|exact T2].
    - cbn [set_stats set_queue s_stats]. unfold stat. cbn [set_queue s_stats]. change (s_stats s2) with (s_stats s). rewrite HS, set_failed.
      assert (sm_find STATS_FAILED_JOBS (stats_list ev fa idle busy queue n) = Some fa) as -> by reflexivity. f_equal; lia.
    - auto. }
  apply Hfin in H; [|exact HQ|exact Hin]. destruct H as (-> & ->).
  exists (Hall ds pool nr), 0%N, 0%N. split; [eapply te_status; [exact Ed|simpl; intuition congruence]|auto].
Qed.

(* ---- registrations ---- *)
Lemma init_general i hw frames s outs s' h rest : process_worker_init o i ("init" :: hw :: frames) s = (outs, inr (tt, s')) ->
  parse_init_headers frames [] = (h, rest) ->
  match find_worker_by_identity i (s_reg s) with Some c => headers_equal c h | None => false end = false ->
  exists w0 desc cur next x m, make_worker (s_next_w s) (o_addr o (s_next_w s)) i hw h = Val w0 /\
    parse_init_extra rest "" None (s_next_r s) = (desc, cur, next) /\
    let w := set_description desc w0 in
    outs = (match find_worker_by_identity i (s_reg s) with
            | Some c => [Msg "status_notifier" "" ["type"; "error"; "message"; "Received two different INIT messages from the same worker (" ++ get_description c ++ ")"]] | None => [] end)%string ++
           match x with Some r => [Msg "workers" (w_identity w) (r_frames r)] | None => [] end /\
    q_add_worker o w cur (s_queue s) = Val (x, m) /\
    s' = set_timers (pm_emplace w 0%Z (s_timers s)) (set_queue m (set_reg (s_reg s ++ [w]) (set_next_r next (set_next_w (S (s_next_w s)) s)))).
Proof.
  intros H Ep HN. unfold process_worker_init in H. cbn [length Nat.ltb Nat.leb skipn] in H.
  minv1 H. minv1 Hm. cbn [nth_error] in Ea. injection Ea as <-. rewrite Ep in Hk.
  minv1 Hk. minv1 Hm. set (register := bind _ _) in Hk0.
  assert (HR : forall oo se, register s = (oo, inr (tt, se)) -> exists w0 desc cur next x m, make_worker (s_next_w s) (o_addr o (s_next_w s)) i hw h = Val w0 /\
    parse_init_extra rest "" None (s_next_r s) = (desc, cur, next) /\
    let w := set_description desc w0 in oo = match x with Some r => [Msg "workers" (w_identity w) (r_frames r)] | None => [] end /\
    q_add_worker o w cur (s_queue s) = Val (x, m) /\
    se = set_timers (pm_emplace w 0%Z (s_timers s)) (set_queue m (set_reg (s_reg s ++ [w]) (set_next_r next (set_next_w (S (s_next_w s)) s))))).
  { intros oo se HH. unfold register in HH. clear register Hk0. minv1 HH. minv1 Hm. minv1 Hk. minv1 Hm.
    destruct (parse_init_extra rest "" None (s_next_r s)) as ((desc, cur), next) eqn:Ex.
    minv1 Hk0. minv1 Hm. minv1 Hk. minv1 Hm. minv1 Hk0. minv1 Hm. cbn [set_reg set_next_r set_next_w s_queue] in Eq.
    minv1 Hk. apply send_if_inv in Hm. destruct Hm as (-> & ->). minv1 Hk0.
    eexists _, desc, cur, next, _, _. split; [exact El|]. split; [reflexivity|]. cbv zeta. rewrite ?app_nil_r. split; [reflexivity|]. split; [exact Eq|reflexivity]. }
  clearbody register. destruct (find_worker_by_identity i (s_reg s)) as [c|].
  - rewrite HN in Hk0. unfold notify_error in Hk0. apply bind_inv in Hk0. destruct Hk0 as (o8 & a & s1 & o9 & Hm1 & Hk1 & ->). minv1 Hm1.
    destruct (HR _ _ Hk1) as (w0 & desc & cur & next & x & m & R1 & R2 & R3 & R4 & R5). exists w0, desc, cur, next, x, m. cbv zeta. rewrite R3. auto.
  - destruct (HR _ _ Hk0) as (w0 & desc & cur & next & x & m & R1 & R2 & R3 & R4 & R5). exists w0, desc, cur, next, x, m. auto.
Qed.

Lemma init_pool i hw frames hdrs s0 outs s' ds pool nr : arranging o arranged (s_queue s0) -> inv s0 [] -> ping_inv s0 -> hrel o s0 (Hall ds pool nr) -> init_block frames hdrs ->
  process_worker_init o i ("init" :: hw :: frames) s0 = (outs, inr (tt, s')) ->
  match find_worker_by_identity i (s_reg s0) with Some c => headers_equal c (fst (parse_init_headers frames [])) | None => false end = false ->
  exists os H', opens arranged (Desk (s_next_w s0) (Guest i hw hdrs (fallback (last_extra "description" ("init" :: hw :: frames))) 0 0)
             (match last_extra "current_job" ("init" :: hw :: frames) with Some j => Some (Task j false [] [] 0) | None => None end) []) (Hall ds pool nr) os H' /\ hrel o s' H' /\
  outs = match find_worker_by_identity i (s_reg s0) with
         | Some c => [Msg "status_notifier" "" ["type"; "error"; "message"; ("Received two different INIT messages from the same worker (" ++ get_description c ++ ")")%string]] | None => [] end ++ os /\
  s_next_w s' = S (s_next_w s0) /\ s_frozen s' = s_frozen s0 /\ s_stats s' = s_stats s0.
Proof.
  intros HArr HI HPI HF HBl H HN. destruct HF as [(q & Eq & HP & HCl & HPl) HD]. cbn [h_desks h_pool h_read] in *.
  destruct (init_block_headers _ _ HBl) as (EB & NB).
  destruct (parse_init_headers frames []) as (h, rest) eqn:Ep. cbn [fst] in *.
  destruct (init_general _ _ _ _ _ _ _ _ H Ep HN) as (w0 & desc & cur & next & x & m & Ew & Ex & Eo & Ea & ->).
  set (w := set_description desc w0) in *. cbv zeta in Eo, Ea.
  destruct (make_worker_fields _ _ _ _ _ _ Ew) as (W1 & W2 & W3 & W4 & W5 & W6). pose proof (make_worker_made _ _ _ _ _ _ Ew) as (M1 & M2 & M3).
  assert (Hid : w_id w = s_next_w s0) by exact W1. pose proof (inv_q _ _ HI) as HQ.
  assert (Hni : ~ In (w_id w) (ids (s_reg s0))).
  { intros Hc. apply in_ids_inv in Hc. destruct Hc as (u & Hu & E). pose proof (inv_w _ _ HI u Hu). lia. }
  destruct (parse_init_extra_spec _ _ _ _ _ _ _ Ex) as (_ & Hcur & _).
  assert (Hinc : forall r, cur = Some r -> r_complete r = false /\ r_frames r = [] /\ s_next_r s0 <= r_id r).
  { intros r Er. destruct (Hcur r Er) as [|(Ei & Hb)]; [discriminate|]. split; [rewrite Ei; reflexivity|]. split; [rewrite Ei; reflexivity|lia]. }
  (* the worker is added with its current request *)
  set (q1 := mkSingle (sq_jobs q) (pm_set w cur (sq_worker_jobs q)) (sq_workers q ++ [w]) (sq_clock q) (sq_sorts q)).
  set (t := set_timers (pm_emplace w 0%Z (s_timers s0)) (set_queue (QSingle q1) (set_reg (s_reg s0 ++ [w]) (set_next_r next (set_next_w (S (s_next_w s0)) s0))))).
  assert (HCu : forall u, current_of (QSingle q1) u = upd (current_of (s_queue s0)) w cur u).
  { intros u. rewrite Eq. unfold current_of, upd. cbn [current_map q1 sq_worker_jobs]. rewrite pm_find_set.
    destruct (Nat.eqb (w_id w) (w_id u)); [destruct cur; reflexivity|reflexivity]. }
  destruct (proj2 HPI w) as (PL & PT); [lia|].
  assert (HT : forall u, ping_timer t u = if Nat.eqb (w_id w) (w_id u) then Some 0%Z else ping_timer s0 u).
  { intros u. unfold ping_timer. cbn [t set_timers s_timers]. rewrite pm_find_emplaced. destruct (Nat.eqb_spec (w_id w) (w_id u)) as [E|E].
    - unfold ping_timer in PT. assert (pm_find u (s_timers s0) = None) as ->; [|reflexivity]. rewrite <- PT. symmetry. apply pm_find_id. exact E.
    - destruct (pm_find u (s_timers s0)); reflexivity. }
  set (d0 := Desk _ _ _ _).
  assert (HG0 : rel t (d_guest d0) w).
  { constructor; cbn [d0 d_guest g_name g_group g_frames g_note g_chances g_waited].
    - exact W3.
    - rewrite <- EB. split; [exact M1|]. split; [exact M2|exact M3].
    - exact NB.
    - cbn [w set_description w_description]. pose proof (extra_description _ _ _ _ _ _ _ Ex) as HE. unfold fallback, last_extra. cbn [skipn].
      destruct (parse_init_headers_rest _ _ _ _ Ep) as [(Er1 & Er2)|Er1]; rewrite Er1 in HE; [rewrite Er2; simpl in HE |- *; congruence|].
      cbn [fold_left] in HE. rewrite fold_last in HE. simpl in HE. match goal with |- _ = match ?x with _ => _ end => destruct x end; congruence.
    - exact PL.
    - specialize (HT w). rewrite Nat.eqb_refl in HT. exact HT. }
  assert (HN0 : may_be (krel (s_fails t)) (d_now d0) cur).
  { pose proof (announced_spec _ _ _ _ _ _ _ _ _ Ep Ex) as HAn. cbn [d0 d_now]. unfold last_extra. cbn [skipn]. rewrite <- HAn.
    destruct cur as [r|]; cbn [option_map]; constructor. destruct (Hinc r eq_refl) as (I1 & I2 & I3). constructor; cbn [k_name k_whole k_need k_text k_strikes]; try congruence.
    apply (inv_f _ _ HI). exact I3. }
  assert (HL : forall u, In u (s_reg s0) -> w_id w <> w_id u) by (intros u Hu E; apply Hni; rewrite E; apply in_map; exact Hu).
  assert (HDt : Forall2 (drel t) (ds ++ [d0]) (s_reg t)).
  { apply Forall2_app.
    - assert (HG : forall es us, incl us (s_reg s0) -> Forall2 (drel s0) es us -> Forall2 (drel t) es us).
      { intros es us Hi HH. induction HH as [|e u es us Hr _ IH]; constructor.
        - assert (Hu : In u (s_reg s0)) by (apply Hi; left; reflexivity). specialize (HL u Hu). destruct Hr as [H1 H2 H3 H4]. constructor.
          + exact H1.
          + apply (rel_pings s0); [reflexivity| |exact H2]. rewrite HT, (proj2 (Nat.eqb_neq _ _) HL). reflexivity.
          + cbn [t set_timers set_queue set_reg set_next_r set_next_w s_queue s_fails]. rewrite HCu. unfold upd. rewrite (proj2 (Nat.eqb_neq _ _) HL). exact H3.
          + rewrite Eq in H4. exact H4.
        - apply IH. intros v Hv. apply Hi. right. exact Hv. }
      apply HG; [apply incl_refl|exact HD].
    - constructor; [|constructor]. constructor.
      + symmetry. exact Hid.
      + exact HG0.
      + cbn [t set_timers set_queue s_queue]. rewrite HCu. unfold upd. rewrite Nat.eqb_refl. exact HN0.
      + constructor. }
  assert (HFt : hrel o t (Hall (ds ++ [d0]) pool nr)).
  { constructor; [|exact HDt]. exists q1. split; [reflexivity|]. split; [exact HP|]. split; [exact HCl|]. cbn [q1 sq_worker_jobs]. rewrite pm_set_new.
    - apply placed_insert; [exact HPl|]. cbn [w set_description w_addr w_id]. congruence.
    - rewrite Eq in HQ. destruct (qi_impl _ _ HQ) as [S1 S2 S3 S4]. intros Hc. apply Hni. eapply Permutation_in; [apply ids_perm; exact S2|exact Hc]. }
  pose proof Ea as Ea'. rewrite Eq in Ea. cbn [q_add_worker] in Ea. unfold lift_single, single_add_worker in Ea. fold q1 in Ea.
  destruct cur as [r|].
  - cbn in Ea. injection Ea as <- <-. destruct (Hinc r eq_refl) as (I1 & I2 & I3).
    exists [Msg "workers" i []], (Hall (ds ++ [d0]) pool nr). split; [|split; [exact HFt|split; [|auto]]].
    + inversion HN0 as [|k r' HK E1 E2]. exact (op_busy arranged d0 ds pool nr k (eq_sym E1)).
    + rewrite Eo, I2, <- W3. reflexivity.
  - destruct (single_assign o w q1) as [(y, q2)|f] eqn:Es; cbn in Ea; [|discriminate]. injection Ea as <- <-.
    assert (Hd0 : d_now d0 = None) by (inversion HN0; symmetry; assumption).
    assert (HQ1 : qinv (QSingle q1) (s_reg s0 ++ [w])).
    { pose proof (qi_nodup _ _ HQ) as Hnd. constructor; [exact (nodup_snoc _ _ Hnd Hni)| |].
      - intros u r Hu Ec Hc. rewrite HCu in Ec. unfold upd in Ec. destruct (Nat.eqb_spec (w_id w) (w_id u)) as [Ei|Ei]; [discriminate|].
        apply in_app_iff in Hu. destruct Hu as [Hu|[->|[]]]; [|congruence]. exact (qi_current _ _ HQ u r Hu Ec Hc).
      - rewrite Eq in HQ. destruct (qi_impl _ _ HQ) as [S1 S2 S3 S4]. constructor; cbn [q1 sq_jobs sq_workers sq_worker_jobs].
        + rewrite S1. reflexivity.
        + rewrite (pm_set_new w); [rewrite keys_insert_perm, S2; apply Permutation_cons_append|].
          intros Hc. apply Hni. eapply Permutation_in; [apply ids_perm; exact S2|exact Hc].
        + exact S3.
        + intros e He. destruct (S4 e He) as (u & Hu & Hc). exists u. rewrite in_app_iff. auto. }
    assert (Hsame : change (w_id w) (has None) (ds ++ [d0]) = ds ++ [d0]).
    { unfold change. rewrite map_app. cbn [map]. f_equal.
      - assert (HX : forall es us, incl us (s_reg s0) -> Forall2 (drel s0) es us -> map (fun d => if Nat.eqb (d_key d) (w_id w) then has None d else d) es = es).
        { intros es us Hi HH. induction HH as [|e u es us Hr _ IH]; [reflexivity|]. cbn [map]. rewrite IH by (intros v Hv; apply Hi; right; exact Hv).
          rewrite (dr_key _ _ _ Hr). destruct (Nat.eqb_spec (w_id u) (w_id w)) as [E|E]; [|reflexivity].
          exfalso. apply (HL u); [apply Hi; left; reflexivity|congruence]. }
        exact (HX _ _ (incl_refl _) HD).
      - cbn [d0 d_key]. rewrite <- Hid, Nat.eqb_refl. unfold has. rewrite <- Hd0. reflexivity. }
    assert (HFc : hrel o t (Hall (change (w_id w) (has None) (ds ++ [d0])) pool nr)) by (rewrite Hsame; exact HFt).
    assert (Hin : In w (s_reg t)) by (cbn; apply in_or_app; right; left; reflexivity).
    assert (Eas : q_assign_request o w (s_queue t) = Val (y, QSingle q2)) by (cbn [q_assign_request t set_timers set_queue s_queue]; unfold lift_single; rewrite Es; reflexivity).
    assert (HArr1 : arranging o arranged (s_queue t)).
    { apply (arranging_ext o _ (s_queue s0)); [|exact HArr]. intros q' E'. injection E' as <-. exists q. split; [exact Eq|]. split; reflexivity. }
    destruct (pool_take o arranged t t d0 (ds ++ [d0]) pool nr w _ _ HArr1 HQ1 HFc Hin (eq_sym Hid) HG0 Eas) as (H' & T1 & T2).
    exists (match y with Some r => [Msg "workers" (w_identity w) (r_frames r)] | None => [] end), H'. split; [|split; [|split; [exact Eo|auto]]].
    + apply op_free; [exact Hd0|exact T1].
    + apply (hrel_ext o (set_queue (QSingle q2) t)); [reflexivity|reflexivity|reflexivity|reflexivity|reflexivity|exact T2].
Qed.
End WithConfig.
