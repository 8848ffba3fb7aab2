(* Every run of the broker with one queue per worker is a run of the ledger (C71). *)
From Coq Require Import Permutation Lia.
From Verif Require Import Base Bytes Containers Worker Multi Single Queue Handler SpecText Spec SpecRun SpecMsg SpecQueue SpecPings SpecOutcome SpecJoin SpecTick SpecFront SpecBook SpecFatal SpecLedger
  Facts TextFacts QueueInv Atoms HandlerSim Keeps Conserve Provenance Members HeaderFacts OrderFacts Messages Pings Blind Outcome Joining Front OwnQueue Stats TickOutcome Book Fatal LedgerFun LedgerFloor LedgerTick Ledger.
Local Open Scope string_scope.
Local Open Scope list_scope.

Definition stats_of (L : ledger) : smap N :=
  match l_seen L with
  | Some (waiting, desks, idle) => stats_list (l_done L) (l_failed L) idle (Some (desks - idle)%N) waiting desks
  | None => stats_list (l_done L) (l_failed L) 0 None 0 0
  end.

Record lrel (s : state) (L : ledger) : Prop := mkLrel {
  lr_floor : frel s (l_floor L);
  lr_next : l_next L = s_next_w s;
  lr_frozen : l_frozen L = s_frozen s;
  lr_stats : s_stats s = stats_of L }.

Lemma numbers_of s L : l_frozen L = s_frozen s -> s_stats s = stats_of L ->
  numbers L = flat_map (fun p => [fst p; to_string_N (snd p)]) (s_stats s) ++ ["is-frozen"; if s_frozen s then "1" else "0"].
Proof.
  intros H1 H2. rewrite H2, <- H1. unfold numbers, stats_of. destruct (l_seen L) as [((waiting, desks), idle)|]; reflexivity.
Qed.

Section WithConfig.
Context (o : oracle) (cfg : config).

Lemma eval_ledger i rest s outs s' F : inv s [] -> frel s F -> process_client_eval o i ("eval" :: rest) s = (outs, inr (tt, s')) ->
  exists job frames, rest = job :: frames /\ s_next_w s' = s_next_w s /\ s_frozen s' = s_frozen s /\ s_stats s' = s_stats s /\
  ((frames <> [] /\ ~ In "" frames /\ outs = [Msg "clients" i ["ack"]] /\ frel s' F) \/
   exists need payload, header_block frames need payload /\
   ((s_frozen s = true /\ outs = [Msg "clients" i ["ack"]; Msg "clients" i ["reject"; "The broker is frozen."]] /\ frel s' F) \/
    (s_frozen s = false /\ exists F' os, place F (Task job true need ("eval" :: job :: payload) 0) true os F' /\
       outs = Msg "clients" i ["ack"] :: os ++ [Msg "clients" i ["accept"]] /\ frel s' F') \/
    (s_frozen s = false /\ exists F' os text, place F (Task job true need ("eval" :: job :: payload) 0) false os F' /\ enumerates need text /\
       outs = [Msg "clients" i ["ack"]; Msg "clients" i ["reject"; ("No worker available for given headers: " ++ text)%string]; tell job "FAILED"] /\ frel s' F))).
Proof.
  intros HI HF H. unfold process_client_eval in H. minv1 H. minv1 Hm. minv1 Hk. minv1 Hm. minv1 Hk0. minv1 Hm.
  destruct rest as [|job frames]; [discriminate|]. cbn [nth_error skipn] in *. injection Ea as <-. exists job, frames. split; [reflexivity|].
  destruct (block_dec frames) as [(need & payload & HBl)|HN].
  2:{ assert (NE : frames <> []) by (intros ->; discriminate). rewrite (parse_eval_no_block frames [] [] NE HN) in El. injection El as <-. minv1 Hk.
      split; [reflexivity|]. split; [reflexivity|]. split; [reflexivity|]. left. auto. }
  rewrite (parse_eval_block _ _ _ _ _ HBl) in El. pose proof (store_headers_in need [] []) as HS. pose proof (enumerates_store need) as HE.
  destruct (store need [] []) as (h, md). cbn [fst] in HS, HE. injection El as <-.
  minv1 Hk. minv1 Hm. destruct (s_frozen s) eqn:Ef.
  { minv1 Hk0. split; [reflexivity|]. split; [exact Ef|]. split; [reflexivity|]. right. exists need, payload. split; [exact HBl|]. left. auto. }
  minv1 Hk0. minv1 Hm. minv1 Hk. minv1 Hm.
  match type of Eq with q_enqueue_request _ ?q _ = _ => set (r := q) in * end.
  set (s1 := set_next_r (S (s_next_r s)) s) in *.
  assert (HF1 : frel s1 F) by (apply (frel_ext s); [reflexivity|reflexivity|reflexivity|reflexivity|reflexivity|exact HF]).
  assert (HK : krel (s_fails s1) (Task job true need ("eval" :: job :: payload) 0) r).
  { constructor; cbn [k_name k_whole k_need k_text k_strikes]; try reflexivity.
    - exact (inv_f _ _ HI _ (le_n _)).
    - intros _ k v. cbn [r complete_request r_headers]. rewrite HS. simpl. tauto. }
  destruct (place_sim o s1 F r _ _ _ (inv_q _ _ HI) HF1 HK eq_refl Eq) as (F' & HP & HF').
  destruct (q_enqueue_spec o (s_queue s1) (s_reg s) r _ _ (inv_q _ _ HI) eq_refl Eq) as (_ & HEn).
  destruct x as [y b]. cbn [enqueued assigned_to] in *.
  assert (E1 : s_next_w s1 = s_next_w s /\ s_frozen s1 = s_frozen s /\ s_stats s1 = s_stats s) by auto. destruct E1 as (E1 & E2 & E3).
  clearbody s1 r. destruct b.
  - assert (E4 : s' = set_queue m s1 /\ o2 = match y with Some w => [Msg "workers" (w_identity w) (r_frames r)] | None => [] end ++ [Msg "clients" i ["accept"]]).
    { clear - Hk0. destruct y; unfold send_request in Hk0; minv; auto. }
    destruct E4 as (-> & ->). split; [exact E1|]. split; [cbn [set_queue s_frozen]; congruence|]. split; [exact E3|].
    right. exists need, payload. split; [exact HBl|]. right. left. split; [reflexivity|]. eexists _, _. split; [exact HP|]. split; [reflexivity|exact HF'].
  - destruct y as [w|]; [destruct HEn|]. destruct HEn as (-> & _). rewrite set_queue_id in *. unfold notify_monitor in Hk0. minv1 Hk0. minv1 Hm. minv1 Hk.
    split; [exact E1|]. split; [congruence|]. split; [exact E3|]. right. exists need, payload. split; [exact HBl|]. right. right. split; [reflexivity|].
    eexists _, _, _. split; [exact HP|]. split; [exact HE|]. split; [rewrite reject_text_concat; reflexivity|exact HF1].
Qed.

Lemma refresh_ledger i s L : inv s [] -> lrel s L ->
  lrel (refresh cfg i s) (Ledger (Floor (attend (c_max_liveness cfg) i (f_desks (l_floor L))) (f_rota (l_floor L))) (l_next L) (l_frozen L) (l_done L) (l_failed L) (l_seen L)).
Proof.
  intros HI [[H1 H2 H3] H4 H5 H6]. constructor; cbn [l_floor l_next l_frozen].
  - constructor; cbn [f_desks f_rota]; rewrite ?refresh_queue; auto. rewrite refresh_reg. apply (frel_hear _ _ s); [apply refresh_queue|apply refresh_fails| |exact H2|].
    + exact (qi_nodup _ _ (inv_q _ _ HI)).
    + intros w _. rewrite <- sender_find. exact (refresh_pings cfg i s w HI).
  - rewrite refresh_next_w. exact H4.
  - rewrite refresh_frozen. exact H5.
  - rewrite refresh_stats. exact H6.
Qed.

Lemma refresh_ping_inv i s : inv s [] -> ping_inv s -> ping_inv (refresh cfg i s).
Proof.
  intros HI (H1 & H2). split.
  - intros w. rewrite refresh_reg. intros Hw. pose proof (refresh_pings cfg i s w HI) as HR. destruct (sender i s) as [w0|].
    + destruct (Nat.eqb (w_id w0) (w_id w)); [eexists; apply HR|]. rewrite (proj2 HR). apply H1. exact Hw.
    + rewrite (proj2 HR). apply H1. exact Hw.
  - intros w. rewrite refresh_next_w. intros Hw. pose proof (refresh_pings cfg i s w HI) as HR. destruct (sender i s) as [w0|] eqn:Es.
    + rewrite sender_find in Es. apply find_by_identity_in in Es. pose proof (inv_w _ _ HI w0 (proj1 Es)).
      destruct (Nat.eqb_spec (w_id w0) (w_id w)); [lia|]. rewrite (proj1 HR), (proj2 HR). apply H2. exact Hw.
    + rewrite (proj1 HR), (proj2 HR). apply H2. exact Hw.
Qed.

Lemma step_ledger m s outs s' L : inv s [] -> ping_inv s -> lrel s L -> on_request o cfg m s = (outs, inr (tt, s')) ->
  exists L', react cfg L m outs L' /\ lrel s' L'.
Proof.
  intros HI HP HL H. rewrite on_request_eq in H. unfold on_request_cases in H.
  destruct m as (key, i, data). cbn [m_key m_ident m_data] in *.
  destruct L as ((ds, rota), next, f, dn, fl, seen).
  destruct (String.eqb_spec key "workers") as [->|Ek].
  { pose proof (refresh_ledger i s _ HI HL) as HL0. cbn [l_floor f_desks f_rota l_next l_frozen l_done l_failed l_seen] in HL0.
    assert (HI0 : inv (refresh cfg i s) []) by (eapply (atom_inv o cfg); [exact HI|apply a_tau; apply refresh_core]).
    pose proof (refresh_ping_inv i s HI HP) as HP0.
    assert (Er : s_reg (refresh cfg i s) = s_reg s) by apply refresh_reg.
    assert (Eqs : s_queue (refresh cfg i s) = s_queue s) by apply refresh_queue. assert (Efs : s_fails (refresh cfg i s) = s_fails s) by apply refresh_fails.
    set (s0 := refresh cfg i s) in *. clearbody s0.
    pose proof (named_find s i ds (s_reg s) (fr_desks _ _ (lr_floor _ _ HL))) as HFd.
    destruct data as [|c rest]; [discriminate|]. unfold call_function, worker_commands in H. cbn [sm_find] in H.
    destruct (String.eqb_spec "init" c) as [<-|N1].
    { destruct rest as [|hw frames].
      { unfold process_worker_init in H. cbn [length Nat.ltb Nat.leb] in H. minv1 H. eexists. split; [apply rc_short_init|exact HL0]. }
      destruct (init_block_ex frames) as (hdrs & HBl). destruct (init_block_headers _ _ HBl) as (EB & NB).
      destruct (match find_worker_by_identity i (s_reg s) with Some c => headers_equal c (fst (parse_init_headers frames [])) | None => false end) eqn:Eq.
      - destruct (find_worker_by_identity i (s_reg s)) as [w|] eqn:Ef; [|discriminate]. destruct (desk_named i ds) as [d|] eqn:Ed; [|contradiction].
        pose proof (dr_guest _ _ _ HFd) as Hr.
        assert (HE : outs = [] /\ s' = s0).
        { unfold process_worker_init in H. cbn [length Nat.ltb Nat.leb skipn] in H. minv1 H. minv1 Hm.
          destruct (parse_init_headers frames []) as (h, rest'). cbn [fst] in Eq. minv1 Hk. minv1 Hm. rewrite Er, Ef, Eq in Hk0. minv1 Hk0. auto. }
        destruct HE as (-> & ->). eexists. split; [|exact HL0]. eapply rc_again; [exact HBl|exact Ed|]. apply same_headers_iff; [apply Hr|exact NB|].
        unfold headers_equal in Eq. rewrite (proj1 (proj2 (rl_made _ _ _ Hr))), EB in Eq. exact Eq.
      - rewrite <- Er in Eq. destruct (init_ledger o i hw frames hdrs s0 outs s' _ _ HI0 HP0 (lr_floor _ _ HL0) HBl H Eq) as (I1 & I2 & I3 & I4 & I5).
        eexists. split; [|constructor; cbn [l_floor l_next l_frozen]].
        + assert (Eo : outs = match desk_named i ds with Some d => [complaint (d_guest d)] | None => [] end).
          { rewrite I2, Er. destruct (desk_named i ds) as [d|]; destruct (find_worker_by_identity i (s_reg s)) as [w|]; try contradiction; [|reflexivity].
            unfold complaint. rewrite (shown_description _ _ _ HFd). reflexivity. }
          rewrite Eo. apply rc_new; [exact HBl|]. intros d Ed Hs. rewrite Ed in HFd. rewrite Er in Eq. destruct (find_worker_by_identity i (s_reg s)) as [w|]; [|contradiction].
          pose proof (dr_guest _ _ _ HFd) as Hr. apply (same_headers_iff _ _ (rl_block _ _ _ Hr) NB) in Hs.
          unfold headers_equal in Eq. rewrite (proj1 (proj2 (rl_made _ _ _ Hr))), EB in Eq. congruence.
        + rewrite (lr_next _ _ HL0 : next = s_next_w s0). exact I1.
        + rewrite I3. exact (f_equal S (lr_next _ _ HL0)).
        + rewrite I4. exact (lr_frozen _ _ HL0).
        + rewrite I5. exact (lr_stats _ _ HL0). }
    destruct (String.eqb_spec "done" c) as [<-|N2].
    { destruct (desk_named i ds) as [d|] eqn:Ed; destruct (find_worker_by_identity i (s_reg s)) as [w|] eqn:Ef; try contradiction.
      - assert (HST : exists idle busy queue n, s_stats s0 = stats_list dn fl idle busy queue n /\ forall a b, stats_list a b idle busy queue n = stats_of (Ledger (Floor ds rota) next f a b seen)).
        { pose proof (lr_stats _ _ HL0) as E. unfold stats_of in *. cbn [l_seen l_done l_failed] in *. destruct seen as [((x1, x2), x3)|]; do 4 eexists; (split; [exact E|reflexivity]). }
        destruct HST as (idle & busy & queue & n & E1 & E2). rewrite <- Er in Ef.
        assert (Hnow : may_be (krel (s_fails s0)) (d_now d) (current_of (s_queue s0) w)) by (rewrite Efs, Eqs; apply HFd).
        assert (Hline : Forall2 (krel (s_fails s0)) (d_line d) (own_queue (s_queue s0) w)) by (rewrite Efs, Eqs; apply HFd).
        destruct (done_ledger o cfg i rest s0 outs s' _ _ w d _ _ _ _ _ _ HI0 (lr_floor _ _ HL0) H Ef (dr_key _ _ _ HFd) (drel_name _ _ _ HFd) Hnow Hline E1)
          as (F' & a & b & R1 & R2 & R3 & R4 & R5).
        eexists. split; [eapply rc_report; [exact Ed|exact R1]|]. constructor; cbn [l_floor l_next l_frozen].
        + exact R2.
        + rewrite R5. exact (lr_next _ _ HL0).
        + rewrite R4. exact (lr_frozen _ _ HL0).
        + rewrite R3, E2. reflexivity.
      - unfold process_worker_done in H. minv1 H. minv1 Hm. rewrite Er, Ef in Hk. minv1 Hk.
        eexists. split; [apply rc_stranger; exact Ed|]. rewrite (attend_none _ _ _ Ed) in HL0. exact HL0. }
    destruct (String.eqb_spec "ping" c) as [<-|N3].
    { unfold process_worker_ping in H. minv1 H. minv1 Hm. rewrite Er in Hk. eexists. split; [|].
      - pose proof (rc_ping cfg ds rota next f dn fl seen i rest) as V.
        destruct (desk_named i ds); destruct (find_worker_by_identity i (s_reg s)); try contradiction; minv1 Hk; exact V.
      - destruct (find_worker_by_identity i (s_reg s)); minv1 Hk; exact HL0. }
    destruct (String.eqb_spec "progress" c) as [<-|N4].
    { unfold process_worker_progress in H. minv1 H. eexists. split; [apply rc_progress|exact HL0]. }
    minv1 H. eexists. split; [apply rc_word; simpl; intuition congruence|exact HL0]. }
  destruct (String.eqb_spec key "clients") as [->|Ec].
  { destruct data as [|c rest]; [discriminate|]. unfold call_function, client_commands in H. cbn [sm_find] in H.
    destruct (String.eqb_spec "eval" c) as [<-|N1].
    { destruct (eval_ledger i rest s outs s' (Floor ds rota) HI (lr_floor _ _ HL) H) as (job & frames & -> & E1 & E2 & E3 & HC).
      assert (HLL : forall F', frel s' F' -> lrel s' (Ledger F' next f dn fl seen)).
      { intros F' HF'. constructor; cbn [l_floor l_next l_frozen]; [exact HF'|rewrite E1; exact (lr_next _ _ HL)|rewrite E2; exact (lr_frozen _ _ HL)|rewrite E3; exact (lr_stats _ _ HL)]. }
      assert (Hf : f = s_frozen s) by exact (lr_frozen _ _ HL).
      destruct HC as [(C0 & C1 & -> & C3)|(need & payload & HBl & [(C1 & -> & C3)|[(C1 & F' & os & C2 & -> & C3)|(C1 & F' & os & text & C2 & C4 & -> & C3)]])].
      - eexists. split; [apply rc_endless; assumption|apply HLL; exact C3].
      - rewrite C1 in Hf. subst f. eexists. split; [eapply rc_frozen; exact HBl|apply HLL; exact C3].
      - rewrite C1 in Hf. subst f. eexists. split; [eapply rc_accept; eassumption|apply HLL; exact C3].
      - rewrite C1 in Hf. subst f. eexists. split; [eapply rc_refuse; eassumption|apply HLL; exact C3]. }
    destruct (String.eqb_spec "get-runtime-stats" c) as [<-|N2].
    { unfold process_client_get_runtime_stats in H. minv1 H. minv1 Hm. minv1 Hk. eexists. split; [|exact HL].
      rewrite <- (numbers_of _ _ (lr_frozen _ _ HL) (lr_stats _ _ HL)). apply rc_numbers. }
    destruct (String.eqb_spec "freeze" c) as [<-|N3].
    { unfold process_client_freeze in H. minv1 H. minv1 Hm. minv1 Hk. destruct HL as [L1 L2 L3 L4]. eexists. split; [apply rc_freeze|]. constructor; cbn [l_floor l_next l_frozen]; [|exact L2|reflexivity|exact L4].
      apply (frel_ext s); [reflexivity|reflexivity|reflexivity|reflexivity|reflexivity|exact L1]. }
    destruct (String.eqb_spec "unfreeze" c) as [<-|N4].
    { unfold process_client_unfreeze in H. minv1 H. minv1 Hm. minv1 Hk. destruct HL as [L1 L2 L3 L4]. eexists. split; [apply rc_unfreeze|]. constructor; cbn [l_floor l_next l_frozen]; [|exact L2|reflexivity|exact L4].
      apply (frel_ext s); [reflexivity|reflexivity|reflexivity|reflexivity|reflexivity|exact L1]. }
    minv1 H. eexists. split; [apply rc_client; simpl; intuition congruence|exact HL]. }
  destruct (String.eqb_spec key "timer") as [->|Et].
  - destruct (timer_ledger o cfg _ _ _ _ ds rota HI (lr_floor _ _ HL) H) as (t & rest & z & F' & Ed & Hz & HC & HF' & HI').
    cbn [m_data] in Ed. subst data. eexists. split; [eapply rc_tick; [exact Hz|exact HC]|].
    assert (HST : exists idle busy queue n, s_stats s = stats_list dn fl idle busy queue n).
    { pose proof (lr_stats _ _ HL) as E. unfold stats_of in E. cbn [l_seen l_done l_failed] in E. destruct seen as [((x1, x2), x3)|]; eauto. }
    destruct HST as (idle & busy & queue & n & E1).
    constructor; cbn [l_floor l_next l_frozen]; [exact HF'| | |].
    + destruct (process_timer_effect _ _ _ _ _ _ HI H) as (? & ? & ? & _ & _ & _ & _ & _ & ->). exact (lr_next _ _ HL).
    + rewrite (process_timer_frozen _ _ _ _ _ _ _ H). exact (lr_frozen _ _ HL).
    + rewrite (timer_stats _ _ _ _ _ _ _ _ _ _ _ _ HI H E1). unfold stats_of. cbn [l_seen l_done l_failed]. rewrite (round_sim _ _ HI' HF').
      f_equal. f_equal. pose proof (busy_idle _ _ (inv_q _ _ HI')). lia.
  - minv1 H. eexists. split; [apply rc_other; simpl; intuition congruence|exact HL].
Qed.

(* ---- fatal messages ---- *)
Lemma desk_of_worker s ds ws w : Forall2 (drel s) ds ws -> In w ws -> exists d, In d ds /\ drel s d w.
Proof. induction 1 as [|d w' ds ws H _ IH]; [intros []|]. intros [->|Hw]; [exists d; split; [left; reflexivity|exact H]|]. destruct (IH Hw) as (e & ? & ?). exists e. split; [right; assumption|assumption]. Qed.
Lemma worker_of_desk s ds ws d : Forall2 (drel s) ds ws -> In d ds -> exists w, In w ws /\ drel s d w.
Proof. induction 1 as [|d' w ds ws H _ IH]; [intros []|]. intros [->|Hd]; [exists w; split; [left; reflexivity|exact H]|]. destruct (IH Hd) as (e & ? & ?). exists e. split; [right; assumption|assumption]. Qed.

Lemma named_sender s L i : Forall2 (drel s) (f_desks (l_floor L)) (s_reg s) ->
  match desk_named i (f_desks (l_floor L)), sender i s with Some d, Some w => drel s d w | None, None => True | _, _ => False end.
Proof. intros HL. rewrite sender_find. exact (named_find s i _ (s_reg s) HL). Qed.

Lemma rel_declares s g w : rel s g w -> declares (fst (parse_init_headers (g_frames g) [])) (g_frames g).
Proof. intros Hr k v. rewrite (parse_init_in (g_frames g) [] k v (rl_block _ _ _ Hr)). simpl. tauto. Qed.

Lemma doomed_desks k tr s L m outs f : run o cfg k tr s -> Forall2 (drel s) (f_desks (l_floor L)) (s_reg s) -> l_frozen L = s_frozen s ->
  (crashes o cfg s m outs f <-> doomed L m outs f).
Proof.
  intros HR HD HZ. rewrite (crash_iff o cfg _ _ _ _ _ _ HR). destruct (run_carried _ _ _ _ _ HR) as (Cw & _).
  split.
  - destruct 1 as [i|i|i|i|i j|i j frames need payload before f w reg hw hdrs Hz HB HF Hw Hin HJ HX
                  |i hw frames hdrs before f Hs HB HF|i hw frames hdrs before f w reg hw0 hdrs0 Hs Hin HJ HB HE HF
                  |i w j st rest Hs Hc|i t rest f Hb|i t rest z w old Hr Hw Ho Hi].
    + constructor.
    + constructor.
    + constructor.
    + constructor.
    + constructor.
    + destruct (desk_of_worker _ _ _ _ HD Hw) as (d & Hd & Hr). pose proof (dr_guest _ _ _ Hr) as Hg.
      assert (E : check_headers w (fst (store need [] [])) = Fail f) by (apply (worker_bad o cfg _ _ _ _ _ _ _ _ _ _ HR eq_refl Hin HJ); eauto).
      apply (made_bad _ _ _ _ _ _ _ eq_refl (rl_made _ _ _ Hg) (rel_declares _ _ _ Hg)) in E. destruct E as (b & E1 & E2).
      eapply dm_eval_threads; [rewrite HZ; exact Hz|exact HB|exact E1|exact Hd|exact E2].
    + pose proof (named_sender s L i HD) as HN. rewrite Hs in HN. eapply dm_init_new; [|exact HB|exact HF]. destruct (desk_named _ _); [contradiction|reflexivity].
    + pose proof (named_sender s L i HD) as HN. rewrite Hs in HN. destruct (desk_named _ _) as [d|] eqn:Ed; [|contradiction].
      pose proof (dr_guest _ _ _ HN) as Hg. rewrite (shown_description _ _ _ HN).
      eapply (dm_init_changed L i hw frames hdrs before f d); [exact Ed|exact HB| |exact HF].
      intros HE'. apply HE. destruct (joined_made o cfg _ _ _ _ _ _ _ HR Hin HJ) as ((_ & HC & _) & _ & N0). destruct (init_block_headers _ _ HB) as (_ & NB).
      apply (same_headers_iff _ _ N0 NB). apply (same_headers_iff _ _ (rl_block _ _ _ Hg) NB) in HE'.
      rewrite <- HC, (proj1 (proj2 (rl_made _ _ _ Hg))). exact HE'.
    + pose proof (named_sender s L i HD) as HN. rewrite Hs in HN. destruct (desk_named _ _) as [d|] eqn:Ed; [|contradiction].
      eapply dm_done_idle; [exact Ed|]. pose proof (dr_now _ _ _ HN) as Hn. rewrite Hc in Hn. inversion Hn. reflexivity.
    + apply dm_tick_text. exact Hb.
    + destruct (desk_of_worker _ _ _ _ HD Hw) as (d & Hd & Hg). eapply dm_tick_overflow; [exact Hr|exact Hd|].
      pose proof (rl_timer _ _ _ (dr_guest _ _ _ Hg)) as Ht. rewrite Ht in Ho. injection Ho as ->. exact Hi.
  - destruct 1 as [i|i|i|i|i j|i j frames need payload before f d Hz HB HF Hd HX|i hw frames hdrs before f Hs HB HF|i hw frames hdrs before f d Hs HB HE HF
                  |i d j st rest Hs Hc|i t rest f Hb|i t rest z d Hr Hd Hi].
    + constructor.
    + constructor.
    + constructor.
    + constructor.
    + constructor.
    + destruct (worker_of_desk _ _ _ _ HD Hd) as (w & Hw & Hr). pose proof (dr_guest _ _ _ Hr) as Hg.
      assert (E : check_headers w (fst (store need [] [])) = Fail f)
        by (apply (made_bad _ _ _ _ _ _ _ eq_refl (rl_made _ _ _ Hg) (rel_declares _ _ _ Hg)); eauto).
      destruct (Cw w Hw) as (reg & hw & hdrs & Hin & HJ & _).
      apply (worker_bad o cfg _ _ _ _ _ _ _ _ _ _ HR eq_refl Hin HJ) in E. destruct E as (b & E1 & E2).
      rewrite HZ in Hz. eapply di_eval_threads; eauto.
    + pose proof (named_sender s L i HD) as HN. rewrite Hs in HN. eapply di_init_new; [|exact HB|exact HF]. destruct (sender i s); [contradiction|reflexivity].
    + pose proof (named_sender s L i HD) as HN. rewrite Hs in HN. destruct (sender i s) as [w|] eqn:Es; [|contradiction].
      pose proof (dr_guest _ _ _ HN) as Hg. unfold complaint. rewrite <- (shown_description _ _ _ HN).
      destruct (find_by_identity_in _ _ _ (eq_trans (eq_sym (sender_find i s)) Es)) as (Hw & _). destruct (Cw w Hw) as (reg & hw0 & hdrs0 & Hin & HJ & _).
      eapply (di_init_changed tr s i hw frames hdrs before f w); [exact Es|exact Hin|exact HJ|exact HB| |exact HF].
      intros HE'. apply HE. destruct (joined_made o cfg _ _ _ _ _ _ _ HR Hin HJ) as ((_ & HC & _) & _ & N0). destruct (init_block_headers _ _ HB) as (_ & NB).
      apply (same_headers_iff _ _ (rl_block _ _ _ Hg) NB). apply (same_headers_iff _ _ N0 NB) in HE'.
      rewrite <- (proj1 (proj2 (rl_made _ _ _ Hg))), HC. exact HE'.
    + pose proof (named_sender s L i HD) as HN. rewrite Hs in HN. destruct (sender i s) as [w|] eqn:Es; [|contradiction].
      eapply di_done_idle; [exact Es|]. pose proof (dr_now _ _ _ HN) as Hn. rewrite Hc in Hn. inversion Hn. reflexivity.
    + apply di_tick_text. exact Hb.
    + destruct (worker_of_desk _ _ _ _ HD Hd) as (w & Hw & Hg). eapply di_tick_overflow; [exact Hr|exact Hw| |exact Hi].
      exact (rl_timer _ _ _ (dr_guest _ _ _ Hg)).
Qed.

Theorem doomed_iff tr s L m outs f : run o cfg KMulti tr s -> lrel s L -> (crashes o cfg s m outs f <-> doomed L m outs f).
Proof. intros HR HL. exact (doomed_desks _ _ _ _ _ _ _ HR (fr_desks _ _ (lr_floor _ _ HL)) (lr_frozen _ _ HL)). Qed.

Theorem run_ledger tr s : run o cfg KMulti tr s -> exists L, reacted cfg (map ev_in tr) (map ev_out tr) L /\ lrel s L.
Proof.
  induction 1 as [|tr s m outs s' HR (L & H1 & H2) Hs].
  - exists (Ledger (Floor [] []) 0 false 0 0 None). split; [constructor|]. constructor; try reflexivity.
    constructor; cbn; [eexists; reflexivity|constructor|reflexivity].
  - destruct (step_ledger _ _ _ _ _ (run_inv _ _ _ _ _ HR) (run_ping_inv _ _ _ _ _ HR) H2 Hs) as (L' & B1 & B2).
    exists L'. split; [|exact B2]. rewrite !map_app. cbn [map ev_in ev_out]. eapply rd_snoc; [exact H1| |exact B1].
    intros x f Hd. apply (doomed_iff _ _ _ _ _ _ HR H2) in Hd. unfold crashes in Hd. congruence.
Qed.

Lemma drel_is s d w : drel s d w -> desk_is s d w.
Proof.
  intros [H1 H2 H3 H4]. assert (HK : forall k r, krel (s_fails s) k r -> task_is s k r) by (intros k r [K1 K2 K3 K4 K5]; split; [exact K1|split; [exact K2|split; [exact K3|auto]]]).
  split; [exact H1|]. split; [apply rel_stands; exact H2|]. split.
  - destruct H3; constructor. apply HK. assumption.
  - eapply Forall2_impl; [exact HK|exact H4].
Qed.

Theorem run_ledger_is tr s : run o cfg KMulti tr s -> exists L, reacted cfg (map ev_in tr) (map ev_out tr) L /\
  l_frozen L = s_frozen s /\ Forall2 (desk_is s) (f_desks (l_floor L)) (s_reg s) /\ f_rota (l_floor L) = map w_id (manager_workers (s_queue s)).
Proof.
  intros HR. destruct (run_ledger _ _ HR) as (L & H1 & [[_ H2 H3] _ H4 _]). exists L. split; [exact H1|]. split; [exact H4|]. split; [|exact H3].
  eapply Forall2_impl; [|exact H2]. intros d w. apply drel_is.
Qed.

Theorem crash_ledger tr s L m outs f : run o cfg KMulti tr s -> reacted cfg (map ev_in tr) (map ev_out tr) L ->
  (crashes o cfg s m outs f <-> doomed L m outs f).
Proof.
  intros HR HL. destruct (run_ledger _ _ HR) as (L' & H1 & H2). destruct (reacted_fun _ _ _ _ HL _ _ H1) as (_ & ->).
  exact (doomed_iff _ _ _ _ _ _ HR H2).
Qed.

Theorem ledger_runs ms outss L : reacted cfg ms outss L -> exists tr s, run o cfg KMulti tr s /\ map ev_in tr = ms /\ map ev_out tr = outss.
Proof.
  induction 1 as [|ms outss L m outs L' HL (tr & s & HR & <- & <-) Hd Hr]; [eexists _, _; split; [apply run_nil|split; reflexivity]|].
  destruct (on_request o cfg m s) as (os, [f|([], s')]) eqn:E.
  - exfalso. apply (Hd os f). apply (crash_ledger _ _ _ _ _ _ HR HL). exact E.
  - destruct (run_ledger _ _ HR) as (L1 & H1 & H2). destruct (reacted_fun _ _ _ _ HL _ _ H1) as (_ & <-).
    destruct (step_ledger _ _ _ _ _ (run_inv _ _ _ _ _ HR) (run_ping_inv _ _ _ _ _ HR) H2 E) as (L2 & B1 & _).
    destruct (react_fun _ _ _ _ _ Hr _ _ B1) as (-> & _).
    exists (tr ++ [mkEvent s m os s']), s'. split; [apply run_snoc; assumption|]. rewrite !map_app. split; reflexivity.
Qed.
End WithConfig.
