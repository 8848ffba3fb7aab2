(* The ticks of the broker with one queue per worker are those of SpecLedger (C71). *)
From Coq Require Import Permutation Lia.
From Verif Require Import Base Bytes Containers Worker Multi Single Queue Handler SpecText Spec SpecRun SpecMsg SpecQueue SpecPings SpecOutcome SpecJoin SpecTick SpecFront SpecBook SpecLedger
  Facts TextFacts QueueInv Atoms HandlerSim Keeps Conserve Provenance Members HeaderFacts OrderFacts Messages Pings Blind Outcome Joining Front OwnQueue Stats TickOutcome Book LedgerFloor.
Local Open Scope string_scope.
Local Open Scope list_scope.

Lemma frel_ext s s' F : s_reg s' = s_reg s -> s_queue s' = s_queue s -> s_fails s' = s_fails s -> s_live s' = s_live s -> s_timers s' = s_timers s ->
  frel s F -> frel s' F.
Proof.
  intros E1 E2 E3 E4 E5 [H1 H2 H3]. constructor; rewrite ?E1, ?E2; auto.
  eapply Forall2_impl; [|exact H2]. intros d w. apply drel_fields; congruence.
Qed.

Lemma Forall2_len {A B} (R : A -> B -> Prop) l l' : Forall2 R l l' -> length l = length l'.
Proof. induction 1; cbn [length]; congruence. Qed.

Section WithConfig.
Context (o : oracle) (cfg : config).

Lemma rehome_sim rs : forall s F ks h outs un s', inv s (rs ++ h) -> frel s F -> Forall2 (krel (s_fails s)) ks rs ->
  expire_requests o cfg rs s = (outs, inr (un, s')) ->
  exists left F', rehome cfg F ks outs left F' /\ frel s' F' /\ map k_name left = map r_job un.
Proof.
  induction rs as [|r rs IH]; cbn [expire_requests]; intros s F ks h outs un s' HI HF HK H.
  - inversion HK; subst. minv. exists [], F. split; [constructor|]. auto.
  - inversion HK as [|k ? ks' ? Hk Hks]; subst. destruct (r_complete r) eqn:Hc; cbn [negb] in H.
    + minv1 H. destruct (check_failure_count_sim o cfg _ _ _ (rs ++ h) _ _ _ Hm) as (-> & Hb & ls1 & A1 & O1 & F1).
      unfold check_failure_count, job_failed, notify_monitor in Hm. minv1 Hm. minv1 Hm0. clear ls1 A1 O1 F1.
      destruct x; cbn [negb] in Hk0.
      * destruct Hb as (Eo & Hlt). destruct (N.leb_spec (c_max_failures cfg) (failures r s)); [lia|]. minv1 Hk1. cbn [app].
        minv1 Hk0. pose proof Hm as HA. destruct (reassign_sim o cfg r s (rs ++ h) _ _ _ HI Hc (or_introl Hlt) Hm) as (ls2 & A2 & _ & _).
        pose proof (atoms_inv _ _ _ _ _ _ _ A2 HI) as HI2.
        unfold reassign_request in HA. minv1 HA. minv1 Hm0. 
        destruct (place_sim o s F r k x0 m (inv_q _ _ HI) HF Hk Hc Eq) as (F1 & HP & HF1).
        pose proof (q_enqueue_spec o _ _ _ _ _ (inv_q _ _ HI) Hc Eq) as (_ & HE).
        assert (Hlt' : (k_strikes k < c_max_failures cfg)%N) by (rewrite <- (kr_strikes _ _ _ Hk); exact Hlt).
        assert (Hw : k_whole k = true) by (rewrite <- (kr_whole _ _ _ Hk); exact Hc).
        assert (Hks' : Forall2 (krel (s_fails (set_queue m s))) ks' rs) by exact Hks.
        rename Hk1 into HT. rename Hk0 into HR. clear Hm H1 H2 H Eo.
        destruct (enqueued x0) eqn:Een; cbn [negb] in HR.
        -- assert (Ex : x = true /\ s0 = set_queue m s /\ o3 = match assigned_to x0 with Some w => [Msg "workers" (w_identity w) (r_frames r)] | None => [] end).
           { clear - HR. destruct (assigned_to x0); unfold send_request in HR; minv; auto. }
           destruct Ex as (-> & -> & ->). clear HR. cbn [negb] in HT. unfold notify_monitor in HT. minv1 HT. minv1 Hm.
           destruct (IH _ _ _ _ _ _ _ HI2 HF1 Hks' Hk0) as (left & F' & B1 & B2 & B3). exists left, F'. split; [|auto].
           cbn [app]. rewrite (kr_name _ _ _ Hk). eapply rh_placed; eassumption.
        -- destruct (assigned_to x0) eqn:Eas. { exfalso. destruct x0 as [? ?]. cbn in *. subst. exact HE. }
           unfold notify_monitor in HR. minv1 HR. minv1 Hm. minv1 Hk0. cbn [negb] in HT. minv1 HT.
           assert (HI3 : inv (set_queue m s) (rs ++ r :: h)).
           { eapply (atom_inv o cfg); [exact HI2|]. apply a_perm. apply Permutation_middle. }
           destruct (IH _ _ _ _ _ _ _ HI3 HF1 Hks' Hm) as (left & F' & B1 & B2 & B3). minv1 Hk0.
           exists (k :: left), F'. split; [|split; [exact B2|cbn [map]; rewrite B3, (kr_name _ _ _ Hk); reflexivity]].
           rewrite !app_nil_r. cbn [app]. rewrite ?app_nil_r, (kr_name _ _ _ Hk). exact (rh_left cfg F k ks' [] F1 _ left F' Hw Hlt' HP B1).
      * destruct Hb as (dd & _ & Hle). destruct (N.leb_spec (c_max_failures cfg) (failures r s)); [|lia]. minv1 Hk1. minv1 Hm. minv1 Hk2. minv1 Hm. minv1 Hk1.
        assert (HI1 : inv s (rs ++ h)) by (eapply (atom_inv o cfg); [exact HI|eapply a_report; exact (report_rejected (r_job r) "")]).
        destruct (IH _ _ _ _ _ _ _ HI1 HF Hks Hk0) as (left & F' & B1 & B2 & B3). exists left, F'. split; [|auto].
        cbn [app]. change (failures r s) with (tbl_get (r_id r) (s_fails s)) in *. rewrite (kr_strikes _ _ _ Hk), (kr_name _ _ _ Hk) in *.
        eapply rh_worn; [rewrite <- (kr_whole _ _ _ Hk); exact Hc|lia|exact B1].
    + unfold rejected_job, notify_monitor in H. minv1 H. minv1 Hm. minv1 Hk0. minv1 Hm.
      assert (HI1 : inv s (rs ++ h)) by (eapply (atom_inv o cfg); [exact HI|eapply a_report; exact (report_rejected (r_job r) "")]).
      destruct (IH _ _ _ _ _ _ _ HI1 HF Hks Hk1) as (left & F' & B1 & B2 & B3). exists left, F'. split; [|auto].
      cbn [app]. rewrite (kr_name _ _ _ Hk). eapply rh_announced; [rewrite <- (kr_whole _ _ _ Hk); exact Hc|exact B1].
Qed.

Lemma reject_all_outs d rs : forall s outs s', reject_all d rs s = (outs, inr (tt, s')) -> outs = map (fun j => failed_report j d) (map r_job rs) /\ s' = s.
Proof.
  induction rs as [|r rs IH]; cbn [reject_all]; intros s outs s' H; [minv; auto|].
  unfold rejected_job in H. minv1 H. minv1 Hm. destruct (IH _ _ _ Hk) as (-> & ->). auto.
Qed.

Lemma shown_description s d w : drel s d w -> get_description w = shown_as (d_guest d).
Proof.
  intros H. unfold get_description, shown_as. rewrite (rl_name _ _ _ (dr_guest _ _ _ H)), (rl_note _ _ _ (dr_guest _ _ _ H)).
  destruct (String.eqb _ _); [|reflexivity]. symmetry. apply append_nil_r.
Qed.

(* ---- a worker goes ---- *)
Lemma drel_filter s s' x ds ws : Forall2 (drel s) ds ws -> NoDup (ids ws) -> (forall d w, drel s d w -> w_id w <> x -> drel s' d w) ->
  Forall2 (drel s') (filter (fun e => negb (Nat.eqb (d_key e) x)) ds) (filter (fun u => negb (Nat.eqb (w_id u) x)) ws).
Proof.
  intros H _ HD. induction H as [|d w ds ws Hr _ IH]; [constructor|]. cbn [filter]. rewrite (dr_key _ _ _ Hr).
  destruct (Nat.eqb_spec (w_id w) x); cbn [negb]; [exact IH|]. constructor; [apply HD; assumption|exact IH].
Qed.

Lemma reg_remove_filter w ws : NoDup (ids ws) -> reg_remove w ws = filter (fun u => negb (Nat.eqb (w_id u) (w_id w))) ws.
Proof.
  induction ws as [|u ws IH]; intros Hnd; [reflexivity|]. inversion Hnd as [|? ? Hni Hnd']; subst.
  cbn [reg_remove filter]. unfold same_worker. destruct (Nat.eqb_spec (w_id u) (w_id w)) as [E|E]; cbn [negb].
  - symmetry. clear - Hni E. induction ws as [|v ws IH]; [reflexivity|]. cbn [filter]. cbn [ids map] in Hni.
    destruct (Nat.eqb_spec (w_id v) (w_id w)) as [E'|E']; [exfalso; apply Hni; left; congruence|]. cbn [negb].
    rewrite IH; [reflexivity|]. intros Hc. apply Hni. right. exact Hc.
  - rewrite (IH Hnd'). reflexivity.
Qed.

Lemma gone_sim s ds rota w rs m : inv s [] -> frel s (Floor ds rota) -> In w (s_reg s) -> q_worker_terminated w (s_queue s) = Val (rs, m) ->
  let s1 := set_queue m (incr_opt (current_of (s_queue s) w) (set_reg (reg_remove w (s_reg s)) s)) in
  exists d, desk_at (w_id w) ds = Some d /\ drel s d w /\
    frel s1 (Floor (filter (fun e => negb (Nat.eqb (d_key e) (w_id w))) ds) (filter (fun y => negb (Nat.eqb y (w_id w))) rota)) /\
    Forall2 (krel (s_fails s1)) (match d_now d with Some k => [struck k] | None => [] end ++ d_line d) rs.
Proof.
  intros HI HF Hin E s1. pose proof (inv_q _ _ HI) as HQ. pose proof (qi_nodup _ _ HQ) as Hnd.
  assert (HI1 : inv s1 (rs ++ [])) by (eapply (atom_inv o cfg); [exact HI|apply a_expire; assumption]). rewrite app_nil_r in HI1.
  destruct (q_terminated_spec _ _ _ _ _ HQ Hin E) as (gone & Ers & HQ' & HC & _ & HG).
  destruct HF as [(q & Eq) HD HR]. cbn [f_desks f_rota] in *.
  destruct (desk_at_of _ _ _ _ HD Hnd Hin) as (d & Ed & Hd). exists d. split; [exact Ed|]. split; [exact Hd|].
  set (s2 := set_queue m (set_reg (reg_remove w (s_reg s)) s)).
  assert (Eown : (forall w', w_id w' <> w_id w -> own_queue m w' = own_queue (s_queue s) w') /\ gone = own_queue (s_queue s) w /\
      (exists q', m = QMulti q' /\ mq_order q' = list_remove w (mq_order q))).
  { rewrite Eq in *. destruct (own_terminated _ _ _ _ _ HQ Hin E) as (O1 & _). split; [exact O1|]. cbn [q_worker_terminated] in E. unfold lift_multi, multi_worker_terminated in E.
    destruct (qi_impl _ _ HQ) as [S1 S2 S3 S4].
    destruct (index_known None _ w _ Hnd S3 Hin) as (cur & Ef & Ei). destruct (index_known [] _ w _ Hnd S2 Hin) as (l & Efl & Eil).
    rewrite Ei, Eil in E. injection E as <- <-. split; [|eexists; split; [reflexivity|reflexivity]].
    unfold current_of in Ers. cbn [current_map own_queue] in *. rewrite Ef in Ers. rewrite Efl.
    destruct cur; cbn [olist app] in Ers; [injection Ers as <-|subst]; reflexivity. }
  destruct Eown as (EO & Eg & q' & Eqm & Eord).
  assert (HF2 : frel s2 (Floor (filter (fun e => negb (Nat.eqb (d_key e) (w_id w))) ds) (filter (fun y => negb (Nat.eqb y (w_id w))) rota))).
  { constructor; cbn [s2 set_queue set_reg s_queue s_reg f_desks f_rota]; [eauto| |].
    - unfold s2. cbn [set_queue set_reg s_reg]. rewrite (reg_remove_filter _ _ Hnd). eapply drel_filter; [exact HD|exact Hnd|].
      intros e u He Hu. apply (drel_fields s); [reflexivity|reflexivity|reflexivity| | |exact He]; cbn [set_queue set_reg s_queue]; [apply HC; exact Hu|apply EO; exact Hu].
    - rewrite HR, Eq, Eqm. cbn [manager_workers]. rewrite Eord. unfold list_remove, same_worker. unfold ids.
      generalize (mq_order q). clear. intros l. induction l as [|u l IH]; [reflexivity|]. cbn [map filter]. destruct (Nat.eqb (w_id u) (w_id w)); cbn [negb map]; rewrite IH; reflexivity. }
  pose proof (dr_now _ _ _ Hd) as Hnow. pose proof (dr_line _ _ _ Hd) as Hline.
  unfold s1 in *. destruct (current_of (s_queue s) w) as [r|] eqn:Ec.
  - cbn [olist app] in Ers. subst rs gone. destruct (d_now d) as [k|]; [|inversion Hnow]. assert (HK : krel (s_fails s) k r) by (inversion Hnow; assumption). cbn [incr_opt] in *.
    change (set_queue m (incr_fails r (set_reg (reg_remove w (s_reg s)) s))) with (incr_fails r s2) in *. split.
    + eapply incr_sim; [exact (inv_q _ _ HI1)|exact (inv_nodup _ _ HI1)|exact HF2].
    + constructor; [apply krel_struck; exact HK|]. cbn [app].
      pose proof (inv_nodup _ _ HI1) as HND. rewrite map_app in HND. cbn [map] in HND. apply NoDup_remove_2 in HND. rewrite in_app_iff in HND.
      assert (HL : forall r', In r' (own_queue (s_queue s) w) -> r_id r' <> r_id r).
      { intros r' Hr' Er. apply HND. right. rewrite <- Er. apply in_map. exact Hr'. }
      change (s_fails s2) with (s_fails s). clear - Hline HL. induction Hline as [|k' r' ks rs HK _ IH]; constructor.
      * apply (krel_incr s2); [apply HL; left; reflexivity|exact HK].
      * apply IH. intros r'' Hr''. apply HL. right. exact Hr''.
  - cbn [olist app] in Ers. subst rs gone. destruct (d_now d) as [k|]; [inversion Hnow|]. cbn [incr_opt app] in *. split; [exact HF2|exact Hline].
Qed.

Lemma close_sim ws : forall s F outs s', inv s [] -> NoDup (ids ws) -> incl ws (s_reg s) -> frel s F ->
  expire_workers o cfg ws s = (outs, inr (tt, s')) -> exists F', close cfg F (ids ws) outs F' /\ frel s' F'.
Proof.
  induction ws as [|w ws IH]; cbn [expire_workers]; intros s F outs s' HI Hnd Hincl HF H.
  - minv. exists F. split; [constructor|exact HF].
  - assert (Hin : In w (s_reg s)) by (apply Hincl; left; reflexivity).
    minv1 H. minv1 Hm. minv1 Hk. minv1 Hm. cbn [set_reg s_queue] in Eq.
    rewrite (q_get_current_spec _ _ _ (inv_q _ _ HI) Hin) in Eq. injection Eq as <- <-.
    minv1 Hk0. minv1 Hk. minv1 Hm0.
    assert (Es : s0 = incr_opt (current_of (s_queue s) w) (set_reg (reg_remove w (s_reg s)) s) /\ o0 = []).
    { destruct (current_of (s_queue s) w); unfold failures_incr in Hm; minv; auto. }
    clear Hm. destruct Es as (-> & ->).
    assert (Eq' : q_worker_terminated w (s_queue s) = Val (x0, m)) by (destruct (current_of (s_queue s) w); exact Eq).
    clear Eq. destruct F as (ds, rota).
    destruct (gone_sim _ _ _ _ _ _ HI HF Hin Eq') as (d & Ed & Hd & HF1 & HK).
    assert (A1 : atom o cfg s [] (LExpire w x0) (set_queue m (incr_opt (current_of (s_queue s) w) (set_reg (reg_remove w (s_reg s)) s))) (x0 ++ [])) by (apply a_expire; assumption).
    pose proof (atom_inv _ _ _ _ _ _ _ HI A1) as HI1.
    minv1 Hk0. destruct (rehome_sim _ _ _ _ _ _ _ _ HI1 HF1 HK Hm) as (left & F2 & R1 & R2 & R3).
    destruct (expire_requests_sim _ _ _ _ _ _ _ _ HI1 Hm) as (ls2 & A2 & O2 & F2').
    pose proof (atoms_inv _ _ _ _ _ _ _ A2 HI1) as HI2.
    minv1 Hk. destruct x2. destruct (reject_all_sim o cfg _ _ _ [] _ _ Hm0) as (_ & ls3 & A3 & _ & F3).
    pose proof (atoms_inv _ _ _ _ _ _ _ A3 HI2) as HI3. destruct (reject_all_outs _ _ _ _ _ Hm0) as (-> & ->).
    inversion Hnd as [|? ? Hni Hnd']; subst.
    assert (Hreg : s_reg s0 = reg_remove w (s_reg s)).
    { rewrite (redo_reg _ _ _ _ _ _ _ A2 F2'). destruct (current_of (s_queue s) w); reflexivity. }
    assert (Hi : incl ws (s_reg s0)).
    { intros w' Hw'. rewrite Hreg. apply reg_remove_in; [apply (qi_nodup _ _ (inv_q _ _ HI))|exact Hin|].
      split; [apply Hincl; right; exact Hw'|]. intros ->. apply Hni. apply in_ids. exact Hw'. }
    destruct (IH s0 F2 _ s' HI3 Hnd' Hi R2 Hk0) as (F' & C1 & C2).
    exists F'. split; [|exact C2]. cbn [app ids map]. rewrite (shown_description _ _ _ Hd), <- R3, map_map.
    eapply cl_next; eassumption.
Qed.

(* ---- time passes ---- *)
Lemma scan_sim z s outs rm s' ds rota : inv s [] -> frel s (Floor ds rota) -> timer_scan cfg z (s_reg s) s = (outs, inr (rm, s')) ->
  outs = [] /\ ids rm = map d_key (filter (lost cfg z) ds) /\ frel s' (Floor (map (pass cfg z) ds) rota).
Proof.
  intros HI HF H. pose proof (qi_nodup _ _ (inv_q _ _ HI)) as Hnd.
  destruct (timer_scan_exact _ _ _ _ _ _ _ Hnd H) as (-> & S1 & _ & S3). split; [reflexivity|].
  destruct (timer_scan_core _ _ _ _ _ _ _ H) as (_ & HC & _ & _). unfold core in HC. injection HC as C1 C2 C3 C4 C5.
  destruct HF as [(q & Eq) HD HR]. cbn [f_desks f_rota] in *.
  assert (HP : forall d w, In w (s_reg s) -> drel s d w -> (In w rm <-> lost cfg z d = true) /\ drel s' (pass cfg z d) w).
  { intros d w Hw [H1 H2 H3 H4]. specialize (S1 w Hw). destruct H2 as [G1 G2 G3 G4 G5 G6]. unfold scanned, old_timer in S1. unfold ping_timer in G6. rewrite G6, G5 in S1.
    unfold lost, pass, late. destruct S1 as (_ & S1). rewrite one_less_pred.
    destruct (Z.ltb (c_ping_interval cfg) (g_waited (d_guest d) + z)); destruct S1 as (E1 & E2 & E3).
    - split; [rewrite E3, E1; cbn [andb]; rewrite N.eqb_eq; tauto|]. constructor; cbn [with_guest d_key d_guest d_now d_line]; [exact H1| |rewrite <- C2, <- C3; exact H3|rewrite <- C2, <- C3; exact H4].
      constructor; cbn [renew g_name g_group g_frames g_note g_chances g_waited]; assumption.
    - split; [split; [tauto|discriminate]|]. constructor; cbn [with_guest d_key d_guest d_now d_line]; [exact H1| |rewrite <- C2, <- C3; exact H3|rewrite <- C2, <- C3; exact H4].
      constructor; cbn [g_name g_group g_frames g_note g_chances g_waited]; assumption. }
  split.
  - pose proof (timer_scan_sub _ _ _ _ _ _ _ H) as HS. clear - HD HS HP Hnd.
    revert rm HS HP. induction HD as [|d w ds ws Hr _ IH]; intros rm HS HP.
    + inversion HS; reflexivity.
    + inversion Hnd as [|? ? Hni Hnd']; subst. cbn [filter map].
      destruct (HP d w (or_introl eq_refl) Hr) as (HL & _).
      assert (HPt : forall rm', (forall u, In u ws -> In u rm' <-> In u rm) -> forall e u, In u ws -> drel s e u -> (In u rm' <-> lost cfg z e = true) /\ drel s' (pass cfg z e) u).
      { intros rm' Hrm e u Hu He. rewrite (Hrm u Hu). apply HP; [right; exact Hu|exact He]. }
      inversion HS as [l El|a l1 l2 HS' Ea|a l1 l2 HS' Ea]; subst.
      * destruct (lost cfg z d); [destruct (proj2 HL eq_refl)|]. apply (IH Hnd' []); [constructor|apply HPt; tauto].
      * rewrite (proj1 HL (or_introl eq_refl)). cbn [ids map]. f_equal; [symmetry; apply Hr|]. apply (IH Hnd' l1 HS'). apply HPt.
        intros u Hu. split; [right; assumption|]. intros [<-|Hi]; [|exact Hi]. exfalso. apply Hni. apply in_map. exact Hu.
      * destruct (lost cfg z d).
        -- exfalso. apply Hni. apply in_map. destruct (subseq_ids _ _ HS' Hnd') as (_ & Hi). apply Hi. apply HL. reflexivity.
        -- apply (IH Hnd' rm HS'). apply HPt. tauto.
  - constructor; cbn [f_desks f_rota]; [exists q; congruence| |congruence]. rewrite <- C1. clear - HD HP.
    assert (HG : forall ds ws, incl ws (s_reg s) -> Forall2 (drel s) ds ws -> Forall2 (drel s') (map (pass cfg z) ds) ws).
    { intros ds' ws Hi HH. induction HH as [|d w ds' ws Hr _ IH]; constructor.
      - apply HP; [apply Hi; left; reflexivity|exact Hr].
      - apply IH. intros u Hu. apply Hi. right. exact Hu. }
    apply HG; [apply incl_refl|exact HD].
Qed.

(* the numbers at the end of a tick *)
Lemma round_sim s F : inv s [] -> frel s F ->
  look_round (f_desks F) = (N.of_nat (length (queued (s_queue s))), N.of_nat (length (s_reg s)), N.of_nat (list_count (is_idle (s_queue s)) (s_reg s))).
Proof.
  intros HI [(q & Eq) HD HR]. unfold look_round. pose proof (inv_q _ _ HI) as HQ. pose proof (qi_nodup _ _ HQ) as Hnd.
  assert (E1 : length (f_desks F) = length (s_reg s)) by (eapply Forall2_len; exact HD). rewrite E1. f_equal; [f_equal|]; f_equal.
  - assert (EF : forall ds ws, Forall2 (drel s) ds ws -> length (flat_map d_line ds) = length (flat_map (own_queue (s_queue s)) ws)).
    { intros ds ws HH. induction HH as [|d w ds ws Hr _ IH]; [reflexivity|]. cbn [flat_map]. rewrite !app_length, IH, (Forall2_len _ _ _ (dr_line _ _ _ Hr)). reflexivity. }
    rewrite (EF _ _ HD). rewrite Eq in *. cbn [queued]. destruct (qi_impl _ _ HQ) as [S1 S2 S3 S4].
    rewrite <- (Permutation_length (flat_map_perm (own_queue (QMulti q)) _ _ S2)).
    assert (Hk : NoDup (ids (keys (mq_queues q)))) by (eapply Permutation_NoDup; [symmetry; apply ids_perm; exact S2|exact Hnd]).
    change (own_queue (QMulti q)) with (fun w => match pm_find w (mq_queues q) with Some l => l | None => [] end). revert Hk. generalize (mq_queues q). clear. intros l.
    assert (HG : forall pre, (forall w, In (w_id w) (ids (keys l)) -> pm_find w (pre ++ l) = pm_find w l) -> NoDup (ids (keys l)) ->
       length (flat_map (fun w => match pm_find w (pre ++ l) with Some l0 => l0 | None => [] end) (keys l)) = length (concat (map snd l))).
    { induction l as [|(w, a) l IH]; intros pre Hp Hn; [reflexivity|]. cbn [keys map fst snd flat_map concat]. cbn [keys ids map fst] in Hn. inversion Hn as [|? ? Hni Hn']; subst.
      rewrite !app_length. f_equal.
      - rewrite Hp by (left; reflexivity). cbn [pm_find]. rewrite same_worker_refl. reflexivity.
      - assert (Ep : pre ++ (w, a) :: l = (pre ++ [(w, a)]) ++ l) by (rewrite <- app_assoc; reflexivity). rewrite Ep in *. apply IH; [|exact Hn'].
        intros u Hu. rewrite Hp by (right; exact Hu). cbn [pm_find]. unfold same_worker. destruct (Nat.eqb_spec (w_id w) (w_id u)) as [E|E]; [|reflexivity].
        exfalso. apply Hni. rewrite E. exact Hu. }
    intros Hk. apply (HG []); [reflexivity|exact Hk].
  - clear - HD. induction HD as [|d w ds ws Hr _ IH]; [reflexivity|]. rewrite list_count_cons. cbn [filter].
    assert (E : unoccupied d = is_idle (s_queue s) w) by (unfold unoccupied, is_idle; destruct (dr_now _ _ _ Hr); reflexivity).
    rewrite E, <- IH. destruct (is_idle (s_queue s) w); reflexivity.
Qed.
End WithConfig.
