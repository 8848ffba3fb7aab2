(* Every run of the broker with one queue for all workers is a run of the hall (C73). *)
From Coq Require Import Permutation Lia.
From Verif Require Import Base Bytes Containers Worker Multi Single Queue Handler SpecText Spec SpecRun SpecMsg SpecQueue SpecPings SpecOutcome SpecJoin SpecTick SpecFront SpecBook SpecFatal SpecLedger SpecPool SpecOracle
  Facts TextFacts QueueInv Atoms HandlerSim Keeps Conserve Provenance Members HeaderFacts OrderFacts Messages Pings Blind Outcome Joining Front OwnQueue Stats TickOutcome Book Fatal LedgerFun LedgerFloor LedgerTick Ledger LedgerRun PoolFloor PoolTick Pool PoolFun.
Local Open Scope string_scope.
Local Open Scope list_scope.

Record rrel (o : oracle) (s : state) (R : roll) : Prop := mkRrel {
  rr_hall : hrel o s (p_hall R);
  rr_next : p_next R = s_next_w s;
  rr_frozen : p_frozen R = s_frozen s;
  rr_stats : s_stats s = stats_of (as_ledger R) }.

Section WithConfig.
Context (o : oracle) (cfg : config).

Lemma eval_pool i rest s outs s' F : inv s [] -> hrel o s F -> process_client_eval o i ("eval" :: rest) s = (outs, inr (tt, s')) ->
  exists job frames, rest = job :: frames /\ s_next_w s' = s_next_w s /\ s_frozen s' = s_frozen s /\ s_stats s' = s_stats s /\
  ((frames <> [] /\ ~ In "" frames /\ outs = [Msg "clients" i ["ack"]] /\ hrel o s' F) \/
   exists need payload, header_block frames need payload /\
   ((s_frozen s = true /\ outs = [Msg "clients" i ["ack"]; Msg "clients" i ["reject"; "The broker is frozen."]] /\ hrel o s' F) \/
    (s_frozen s = false /\ exists F' os, join (o_addr o) (o_clock o) F (Task job true need ("eval" :: job :: payload) 0) true os F' /\
       outs = Msg "clients" i ["ack"] :: os ++ [Msg "clients" i ["accept"]] /\ hrel o s' F') \/
    (s_frozen s = false /\ exists F' os text, join (o_addr o) (o_clock o) F (Task job true need ("eval" :: job :: payload) 0) false os F' /\ enumerates need text /\
       outs = [Msg "clients" i ["ack"]; Msg "clients" i ["reject"; ("No worker available for given headers: " ++ text)%string]; tell job "FAILED"] /\ hrel o s' F))).
Proof.
  intros HI HF H. unfold process_client_eval in H. minv1 H. minv1 Hm. minv1 Hk. minv1 Hm. minv1 Hk0. minv1 Hm.
  destruct rest as [|job frames]; [discriminate|]. cbn [nth_error skipn] in *. injection Ea as <-. exists job, frames. split; [reflexivity|].
  destruct (block_dec frames) as [(need & payload & HBl)|HN].
  2:{ assert (NE : frames <> []) by (intros ->; discriminate). rewrite (parse_eval_no_block frames [] [] NE HN) in El. injection El as <-. minv1 Hk.
      split; [reflexivity|]. split; [reflexivity|]. split; [reflexivity|]. left. auto. }
  rewrite (parse_eval_block _ _ _ _ _ HBl) in El. pose proof (store_headers_in need [] []) as HS. pose proof (enumerates_store need) as HE.
  destruct (store need [] []) as (h, md). cbn [fst] in HS, HE. injection El as <-.
  minv1 Hk. minv1 Hm. destruct (s_frozen s) eqn:Ef.
  { minv1 Hk0. split; [reflexivity|]. split; [exact Ef|]. split; [reflexivity|]. right. exists need, payload. split; [exact HBl|]. left. auto. }
  minv1 Hk0. minv1 Hm. minv1 Hk. minv1 Hm.
  match type of Eq with q_enqueue_request _ ?q _ = _ => set (r := q) in * end.
  set (s1 := set_next_r (S (s_next_r s)) s) in *.
  assert (HF1 : hrel o s1 F) by (apply (hrel_ext o s); [reflexivity|reflexivity|reflexivity|reflexivity|reflexivity|exact HF]).
  assert (HK : krel (s_fails s1) (Task job true need ("eval" :: job :: payload) 0) r).
  { constructor; cbn [k_name k_whole k_need k_text k_strikes]; try reflexivity.
    - exact (inv_f _ _ HI _ (le_n _)).
    - intros _ k v. cbn [r complete_request r_headers]. rewrite HS. simpl. tauto. }
  destruct (join_sim o s1 F r _ _ _ (inv_q _ _ HI) HF1 HK eq_refl Eq) as (F' & HP & HF').
  destruct (q_enqueue_spec o (s_queue s1) (s_reg s) r _ _ (inv_q _ _ HI) eq_refl Eq) as (_ & HEn).
  destruct x as [y b]. cbn [enqueued assigned_to] in *.
  assert (E1 : s_next_w s1 = s_next_w s /\ s_frozen s1 = s_frozen s /\ s_stats s1 = s_stats s) by auto. destruct E1 as (E1 & E2 & E3).
  clearbody s1 r. destruct b.
  - assert (E4 : s' = set_queue m s1 /\ o2 = match y with Some w => [Msg "workers" (w_identity w) (r_frames r)] | None => [] end ++ [Msg "clients" i ["accept"]]).
    { clear - Hk0. destruct y; unfold send_request in Hk0; minv; auto. }
    destruct E4 as (-> & ->). split; [exact E1|]. split; [cbn [set_queue s_frozen]; congruence|]. split; [exact E3|].
    right. exists need, payload. split; [exact HBl|]. right. left. split; [reflexivity|]. eexists _, _. split; [exact HP|]. split; [reflexivity|exact HF'].
  - destruct y as [w|]; [destruct HEn|]. destruct HEn as (-> & _). rewrite set_queue_id in *. unfold notify_monitor in Hk0. minv1 Hk0. minv1 Hm. minv1 Hk.
    split; [exact E1|]. split; [congruence|]. split; [exact E3|]. right. exists need, payload. split; [exact HBl|]. right. right. split; [reflexivity|].
    eexists _, _, _. split; [exact HP|]. split; [exact HE|]. split; [rewrite reject_text_concat; reflexivity|exact HF1].
Qed.

Lemma refresh_roll i s R : inv s [] -> rrel o s R ->
  rrel o (refresh cfg i s) (Roll (Hall (attend (c_max_liveness cfg) i (h_desks (p_hall R))) (h_pool (p_hall R)) (h_read (p_hall R))) (p_next R) (p_frozen R) (p_done R) (p_failed R) (p_seen R)).
Proof.
  intros HI [[H1 H2] H4 H5 H6]. constructor; cbn [p_hall p_next p_frozen].
  - constructor; cbn [h_desks h_pool h_read]; rewrite ?refresh_queue, ?refresh_fails; auto. rewrite refresh_reg. apply (frel_hear _ _ s); [apply refresh_queue|apply refresh_fails| |exact H2|].
    + exact (qi_nodup _ _ (inv_q _ _ HI)).
    + intros w _. rewrite <- sender_find. exact (refresh_pings cfg i s w HI).
  - rewrite refresh_next_w. exact H4.
  - rewrite refresh_frozen. exact H5.
  - rewrite refresh_stats. exact H6.
Qed.

Lemma step_pool arranged m s outs s' L : arranging o arranged (s_queue s) -> inv s [] -> ping_inv s -> rrel o s L -> on_request o cfg m s = (outs, inr (tt, s')) ->
  exists L', respond (o_addr o) (o_clock o) arranged cfg L m outs L' /\ rrel o s' L'.
Proof.
  intros HArr HI HP HL H. rewrite on_request_eq in H. unfold on_request_cases in H.
  destruct m as (key, i, data). cbn [m_key m_ident m_data] in *.
  destruct L as ((ds, pool, nr), next, f, dn, fl, seen).
  destruct (String.eqb_spec key "workers") as [->|Ek].
  { pose proof (refresh_roll i s _ HI HL) as HL0. cbn [p_hall h_desks h_pool h_read p_next p_frozen p_done p_failed p_seen] in HL0.
    assert (HI0 : inv (refresh cfg i s) []) by (eapply (atom_inv o cfg); [exact HI|apply a_tau; apply refresh_core]).
    pose proof (refresh_ping_inv cfg i s HI HP) as HP0.
    assert (Er : s_reg (refresh cfg i s) = s_reg s) by apply refresh_reg.
    assert (Eqs : s_queue (refresh cfg i s) = s_queue s) by apply refresh_queue. assert (Efs : s_fails (refresh cfg i s) = s_fails s) by apply refresh_fails.
    set (s0 := refresh cfg i s) in *. clearbody s0. rewrite <- Eqs in HArr.
    pose proof (named_find s i ds (s_reg s) (hr_desks _ _ _ (rr_hall _ _ _ HL))) as HFd.
    destruct data as [|c rest]; [discriminate|]. unfold call_function, worker_commands in H. cbn [sm_find] in H.
    destruct (String.eqb_spec "init" c) as [<-|N1].
    { destruct rest as [|hw frames].
      { unfold process_worker_init in H. cbn [length Nat.ltb Nat.leb] in H. minv1 H. eexists. split; [apply rp_short_init|exact HL0]. }
      destruct (init_block_ex frames) as (hdrs & HBl). destruct (init_block_headers _ _ HBl) as (EB & NB).
      destruct (match find_worker_by_identity i (s_reg s) with Some c => headers_equal c (fst (parse_init_headers frames [])) | None => false end) eqn:Eq.
      - destruct (find_worker_by_identity i (s_reg s)) as [w|] eqn:Ef; [|discriminate]. destruct (desk_named i ds) as [d|] eqn:Ed; [|contradiction].
        pose proof (dr_guest _ _ _ HFd) as Hr.
        assert (HE : outs = [] /\ s' = s0).
        { unfold process_worker_init in H. cbn [length Nat.ltb Nat.leb skipn] in H. minv1 H. minv1 Hm.
          destruct (parse_init_headers frames []) as (h, rest'). cbn [fst] in Eq. minv1 Hk. minv1 Hm. rewrite Er, Ef, Eq in Hk0. minv1 Hk0. auto. }
        destruct HE as (-> & ->). eexists. split; [|exact HL0]. eapply rp_again; [exact HBl|exact Ed|]. apply same_headers_iff; [apply Hr|exact NB|].
        unfold headers_equal in Eq. rewrite (proj1 (proj2 (rl_made _ _ _ Hr))), EB in Eq. exact Eq.
      - rewrite <- Er in Eq. destruct (init_pool o arranged i hw frames hdrs s0 outs s' _ _ _ HArr HI0 HP0 (rr_hall _ _ _ HL0) HBl H Eq) as (os & H' & I0 & I1 & I2 & I3 & I4 & I5).
        eexists. split; [|constructor; cbn [p_hall p_next p_frozen]].
        + assert (Eo : outs = match desk_named i ds with Some d => [complaint (d_guest d)] | None => [] end ++ os).
          { rewrite I2, Er. destruct (desk_named i ds) as [d|]; destruct (find_worker_by_identity i (s_reg s)) as [w|]; try contradiction; [|reflexivity].
            unfold complaint. rewrite (shown_description _ _ _ HFd). reflexivity. }
          rewrite Eo. rewrite <- (rr_next _ _ _ HL0 : next = s_next_w s0) in I0. eapply rp_new; [exact HBl| |exact I0].
          intros d Ed Hs. rewrite Ed in HFd. rewrite Er in Eq. destruct (find_worker_by_identity i (s_reg s)) as [w|]; [|contradiction].
          pose proof (dr_guest _ _ _ HFd) as Hr. apply (same_headers_iff _ _ (rl_block _ _ _ Hr) NB) in Hs.
          unfold headers_equal in Eq. rewrite (proj1 (proj2 (rl_made _ _ _ Hr))), EB in Eq. congruence.
        + exact I1.
        + rewrite I3. exact (f_equal S (rr_next _ _ _ HL0)).
        + rewrite I4. exact (rr_frozen _ _ _ HL0).
        + rewrite I5. exact (rr_stats _ _ _ HL0). }
    destruct (String.eqb_spec "done" c) as [<-|N2].
    { destruct (desk_named i ds) as [d|] eqn:Ed; destruct (find_worker_by_identity i (s_reg s)) as [w|] eqn:Ef; try contradiction.
      - assert (HST : exists idle busy queue n, s_stats s0 = stats_list dn fl idle busy queue n /\ forall a b, stats_list a b idle busy queue n = stats_of (Ledger (Floor [] []) next f a b seen)).
        { pose proof (rr_stats _ _ _ HL0) as E. unfold stats_of in *. cbn [as_ledger p_seen p_done p_failed l_seen l_done l_failed] in *. destruct seen as [((x1, x2), x3)|]; do 4 eexists; (split; [exact E|reflexivity]). }
        destruct HST as (idle & busy & queue & n & E1 & E2). rewrite <- Er in Ef.
        assert (Hnow : may_be (krel (s_fails s0)) (d_now d) (current_of (s_queue s0) w)) by (rewrite Efs, Eqs; apply HFd).
        destruct (done_pool o cfg arranged i rest s0 outs s' _ _ _ w d s _ _ _ _ _ _ HArr HI0 (rr_hall _ _ _ HL0) H Ef (dr_key _ _ _ HFd) (drel_name _ _ _ HFd) Hnow (dr_guest _ _ _ HFd) E1)
          as (F' & a & b & R1 & R2 & R3 & R4 & R5).
        eexists. split; [eapply rp_report; [exact Ed|exact R1]|]. constructor; cbn [p_hall p_next p_frozen].
        + exact R2.
        + rewrite R5. exact (rr_next _ _ _ HL0).
        + rewrite R4. exact (rr_frozen _ _ _ HL0).
        + rewrite R3, E2. reflexivity.
      - unfold process_worker_done in H. minv1 H. minv1 Hm. rewrite Er, Ef in Hk. minv1 Hk.
        eexists. split; [apply rp_stranger; exact Ed|]. rewrite (attend_none _ _ _ Ed) in HL0. exact HL0. }
    destruct (String.eqb_spec "ping" c) as [<-|N3].
    { unfold process_worker_ping in H. minv1 H. minv1 Hm. rewrite Er in Hk. eexists. split; [|].
      - pose proof (rp_ping (o_addr o) (o_clock o) arranged cfg ds pool nr next f dn fl seen i rest) as V.
        destruct (desk_named i ds); destruct (find_worker_by_identity i (s_reg s)); try contradiction; minv1 Hk; exact V.
      - destruct (find_worker_by_identity i (s_reg s)); minv1 Hk; exact HL0. }
    destruct (String.eqb_spec "progress" c) as [<-|N4].
    { unfold process_worker_progress in H. minv1 H. eexists. split; [apply rp_progress|exact HL0]. }
    minv1 H. eexists. split; [apply rp_word; simpl; intuition congruence|exact HL0]. }
  destruct (String.eqb_spec key "clients") as [->|Ec].
  { destruct data as [|c rest]; [discriminate|]. unfold call_function, client_commands in H. cbn [sm_find] in H.
    destruct (String.eqb_spec "eval" c) as [<-|N1].
    { destruct (eval_pool i rest s outs s' (Hall ds pool nr) HI (rr_hall _ _ _ HL) H) as (job & frames & -> & E1 & E2 & E3 & HC).
      assert (HLL : forall F', hrel o s' F' -> rrel o s' (Roll F' next f dn fl seen)).
      { intros F' HF'. constructor; cbn [p_hall p_next p_frozen]; [exact HF'|rewrite E1; exact (rr_next _ _ _ HL)|rewrite E2; exact (rr_frozen _ _ _ HL)|rewrite E3; exact (rr_stats _ _ _ HL)]. }
      assert (Hf : f = s_frozen s) by exact (rr_frozen _ _ _ HL).
      destruct HC as [(C0 & C1 & -> & C3)|(need & payload & HBl & [(C1 & -> & C3)|[(C1 & F' & os & C2 & -> & C3)|(C1 & F' & os & text & C2 & C4 & -> & C3)]])].
      - eexists. split; [apply rp_endless; assumption|apply HLL; exact C3].
      - rewrite C1 in Hf. subst f. eexists. split; [eapply rp_frozen; exact HBl|apply HLL; exact C3].
      - rewrite C1 in Hf. subst f. eexists. split; [eapply rp_accept; eassumption|apply HLL; exact C3].
      - rewrite C1 in Hf. subst f. eexists. split; [eapply rp_refuse; eassumption|apply HLL; exact C3]. }
    destruct (String.eqb_spec "get-runtime-stats" c) as [<-|N2].
    { unfold process_client_get_runtime_stats in H. minv1 H. minv1 Hm. minv1 Hk. eexists. split; [|exact HL].
      rewrite <- (numbers_of _ (as_ledger (Roll (Hall ds pool nr) next f dn fl seen)) (rr_frozen _ _ _ HL) (rr_stats _ _ _ HL)). apply rp_numbers. }
    destruct (String.eqb_spec "freeze" c) as [<-|N3].
    { unfold process_client_freeze in H. minv1 H. minv1 Hm. minv1 Hk. destruct HL as [L1 L2 L3 L4]. eexists. split; [apply rp_freeze|]. constructor; cbn [p_hall p_next p_frozen]; [|exact L2|reflexivity|exact L4].
      apply (hrel_ext o s); [reflexivity|reflexivity|reflexivity|reflexivity|reflexivity|exact L1]. }
    destruct (String.eqb_spec "unfreeze" c) as [<-|N4].
    { unfold process_client_unfreeze in H. minv1 H. minv1 Hm. minv1 Hk. destruct HL as [L1 L2 L3 L4]. eexists. split; [apply rp_unfreeze|]. constructor; cbn [p_hall p_next p_frozen]; [|exact L2|reflexivity|exact L4].
      apply (hrel_ext o s); [reflexivity|reflexivity|reflexivity|reflexivity|reflexivity|exact L1]. }
    minv1 H. eexists. split; [apply rp_client; simpl; intuition congruence|exact HL]. }
  destruct (String.eqb_spec key "timer") as [->|Et].
  - destruct (timer_pool o cfg _ _ _ _ ds pool nr HI (rr_hall _ _ _ HL) H) as (t & rest & z & F' & Ed & Hz & HC & HF' & HI').
    cbn [m_data] in Ed. subst data. eexists. split; [eapply rp_tick; [exact Hz|exact HC]|].
    assert (HST : exists idle busy queue n, s_stats s = stats_list dn fl idle busy queue n).
    { pose proof (rr_stats _ _ _ HL) as E. unfold stats_of in E. cbn [as_ledger p_seen p_done p_failed l_seen l_done l_failed] in E. destruct seen as [((x1, x2), x3)|]; eauto. }
    destruct HST as (idle & busy & queue & n & E1).
    constructor; cbn [p_hall p_next p_frozen]; [exact HF'| | |].
    + destruct (process_timer_effect _ _ _ _ _ _ HI H) as (? & ? & ? & _ & _ & _ & _ & _ & ->). exact (rr_next _ _ _ HL).
    + rewrite (process_timer_frozen _ _ _ _ _ _ _ H). exact (rr_frozen _ _ _ HL).
    + rewrite (timer_stats _ _ _ _ _ _ _ _ _ _ _ _ HI H E1). unfold stats_of. cbn [as_ledger p_seen p_done p_failed l_seen l_done l_failed]. rewrite (pool_round o _ _ HI' HF').
      f_equal. f_equal. pose proof (busy_idle _ _ (inv_q _ _ HI')). lia.
  - minv1 H. eexists. split; [apply rp_other; simpl; intuition congruence|exact HL].
Qed.

Theorem run_roll tr s : run o cfg KSingle tr s -> exists R, responded (o_addr o) (o_clock o) in_time cfg (map ev_in tr) (map ev_out tr) R /\ rrel o s R.
Proof.
  induction 1 as [|tr s m outs s' HR (R & H1 & H2) Hs].
  - exists (Roll (Hall [] [] 0) 0 false 0 0 None). split; [constructor|]. constructor; try reflexivity.
    constructor; cbn; [eexists; split; [reflexivity|split; [constructor|split; [reflexivity|split; constructor]]]|constructor].
  - destruct (step_pool in_time _ _ _ _ _ (arranging_in_time o _) (run_inv _ _ _ _ _ HR) (run_ping_inv _ _ _ _ _ HR) H2 Hs) as (R' & B1 & B2).
    exists R'. split; [|exact B2]. rewrite !map_app. cbn [map ev_in ev_out]. eapply ro_snoc; [exact H1| |exact B1].
    intros x f Hd. apply (doomed_desks o cfg _ _ _ (as_ledger R) _ _ _ HR (hr_desks _ _ _ (rr_hall _ _ _ H2)) (rr_frozen _ _ _ H2)) in Hd. unfold crashes in Hd. congruence.
Qed.

Theorem run_roll_is tr s : run o cfg KSingle tr s -> exists R, responded (o_addr o) (o_clock o) in_time cfg (map ev_in tr) (map ev_out tr) R /\
  p_frozen R = s_frozen s /\ Forall2 (desk_is s) (h_desks (p_hall R)) (s_reg s) /\
  (exists q, s_queue s = QSingle q /\ Forall2 (waits_as s) (h_pool (p_hall R)) (sq_jobs q)) /\
  forall m outs f, crashes o cfg s m outs f <-> doomed (as_ledger R) m outs f.
Proof.
  intros HR. destruct (run_roll _ _ HR) as (R & H1 & [[(q & Eq & HP & _) H2] _ H4 _]). exists R. split; [exact H1|]. split; [exact H4|]. split; [|split].
  - eapply Forall2_impl; [|exact H2]. intros d w. apply drel_is.
  - exists q. split; [exact Eq|]. eapply Forall2_impl; [|exact HP]. intros x e ([K1 K2 K3 K4 K5] & E). split; [|exact E].
    split; [exact K1|split; [exact K2|split; [exact K3|auto]]].
  - intros m outs f. exact (doomed_desks o cfg _ _ _ (as_ledger R) _ _ _ HR H2 H4).
Qed.

Theorem crash_pool tr s R m outs f : no_ties o -> run o cfg KSingle tr s -> responded (o_addr o) (o_clock o) in_time cfg (map ev_in tr) (map ev_out tr) R ->
  (crashes o cfg s m outs f <-> doomed (as_ledger R) m outs f).
Proof.
  intros HT HR HL. destruct (run_roll _ _ HR) as (R1 & H1 & H2). destruct (responded_fun _ _ HT _ _ _ _ HL _ _ H1) as (_ & ->).
  exact (doomed_desks o cfg _ _ _ (as_ledger R1) _ _ _ HR (hr_desks _ _ _ (rr_hall _ _ _ H2)) (rr_frozen _ _ _ H2)).
Qed.

Theorem pool_runs ms outss R : no_ties o -> responded (o_addr o) (o_clock o) in_time cfg ms outss R ->
  exists tr s, run o cfg KSingle tr s /\ map ev_in tr = ms /\ map ev_out tr = outss.
Proof.
  intros HT. induction 1 as [|ms outss L m outs L' HL (tr & s & HR & <- & <-) Hd Hr]; [eexists _, _; split; [apply run_nil|split; reflexivity]|].
  destruct (on_request o cfg m s) as (os, [f|([], s')]) eqn:E.
  - exfalso. apply (Hd os f). apply (crash_pool _ _ _ _ _ _ HT HR HL). exact E.
  - destruct (run_roll _ _ HR) as (L1 & H1 & H2). destruct (responded_fun _ _ HT _ _ _ _ HL _ _ H1) as (_ & <-).
    destruct (step_pool in_time _ _ _ _ _ (arranging_in_time o _) (run_inv _ _ _ _ _ HR) (run_ping_inv _ _ _ _ _ HR) H2 E) as (L2 & B1 & _).
    pose proof (responded_tidy _ _ _ in_time_perm _ _ _ _ HL) as HY.
    destruct (respond_fun _ _ _ _ _ _ _ _ Hr HY (in_time_one _ _ _ HT HY) _ _ B1) as (-> & _).
    exists (tr ++ [mkEvent s m os s']), s'. split; [apply run_snoc; assumption|]. rewrite !map_app. split; reflexivity.
Qed.
End WithConfig.
