(* A job is sent out again only after a failure (C61). *)
From Coq Require Import Permutation Lia.
From Verif Require Import Base Bytes Containers Worker Multi Single Queue Handler SpecText Spec SpecRun SpecMsg SpecQueue SpecPings SpecOutcome SpecJoin SpecTick SpecAgain
  Facts QueueInv Atoms HandlerSim OwnQueue Conserve Provenance Budget OneJob Tick Pings TickOutcome System.
Local Open Scope string_scope.
Local Open Scope list_scope.

Section WithConfig.
Context (o : oracle) (cfg : config) (j : string).
Local Notation atoms := (atoms o cfg).
Local Notation atom := (atom o cfg).
Local Notation mine := (mine j).

(* requests for j that wait to be sent *)
Definition to_send (s : state) (h : list request) : nat := list_count mine (queued (s_queue s)) + list_count mine h.

Definition fails_of (l : label) : list request := match l with LCancel _ r => [r] | _ => [] end.
Definition fails (ls : list label) : list request := flat_map fails_of ls.

Definition shaped (s : state) (h : list request) : Prop := forall r, In r (held (s_queue s) ++ h) -> well_formed r.

Lemma count_nil {A} (p : A -> bool) : list_count p [] = 0.
Proof. reflexivity. Qed.

Lemma take_sends w x q q' : Permutation q (olist x ++ q') -> (forall r, In r q -> well_formed r) ->
  list_count (is_dispatch j) (match x with Some r => [dispatch_msg w r] | None => [] end) + list_count mine q' = list_count mine q.
Proof.
  intros P H. rewrite (list_count_perm _ _ _ P), list_count_app. destruct x as [r|]; [|reflexivity].
  assert (Hin : In r q) by (eapply Permutation_in; [symmetry; exact P|simpl; auto]).
  simpl olist. rewrite !list_count_cons, dispatch_mine, !count_nil by auto. lia.
Qed.

Lemma atom_sends s h l s' h' : inv s h -> shaped s h -> atom s h l s' h' -> (match l with LExpire _ _ => False | _ => True end) ->
  list_count (is_dispatch j) (outs_of l) + to_send s' h' <= to_send s h + list_count mine (created_of l) + list_count mine (fails_of l) /\
  shaped s' h'.
Proof.
  intros HI HB Ha Hl. pose proof (atom_inv _ _ _ _ _ _ _ HI Ha) as HI'.
  pose proof (atom_conserve _ _ _ _ _ _ _ HI Ha) as HC.
  assert (W' : (forall r, In r (created_of l) -> well_formed r) -> shaped s' h').
  { intros Hcr r Hr. pose proof (conserve_in _ _ _ _ HC r Hr) as Hi. rewrite in_app_iff in Hi. destruct Hi; auto. }
  assert (HWq : forall r, In r (queued (s_queue s)) -> well_formed r).
  { intros r Hi. apply HB. rewrite in_app_iff. left. apply queued_held. exact Hi. }
  destruct HI as [Hq Hw Hnd0 Hr Hf]. unfold to_send. destruct Ha.
  - split; [|apply W'; intros r []]. unfold core in H. injection H as _ E2 _ _ _. rewrite <- E2. simpl. rewrite ?count_nil. lia.
  - split; [|apply W'; intros r []]. rewrite (list_count_perm _ _ _ H). simpl. rewrite ?count_nil. lia.
  - split; [|apply W'; intros r []]. destruct H as (_ & H & _). cbn [outs_of]. rewrite list_count_cons, H, ?count_nil. lia.
  - split; [|apply W'; intros r' [<-|[]]; unfold well_formed; rewrite H0; eexists; exact H1].
    cbn [outs_of created_of fails_of s_queue set_next_r]. rewrite !list_count_cons, ?count_nil. lia.
  - split; [|apply W'; intros r' []]. cbn [outs_of created_of fails_of]. rewrite !list_count_cons, ?count_nil. lia.
  - unfold core in H4. injection H4 as E1 E2 E3 E4 E5. rewrite E2.
    assert (Hni : ~ In (w_id w) (ids (s_reg s))).
    { intros Hc. apply in_ids_inv in Hc. destruct Hc as (w' & Hi & E). specialize (Hw w' Hi). lia. }
    assert (HA : add_post (s_queue s) (s_reg s) w cur x m').
    { eapply q_add_spec; eauto. intros r Hc. apply (H2 r Hc). }
    destruct HA as (HQ' & HA). destruct cur as [r|].
    + destruct HA as (Hu & Eq & Ex). destruct (H2 r eq_refl) as (Hc & _ & Hfr). rewrite Eq.
      assert (Hd : list_count (is_dispatch j) (outs_of (LRegister w (Some r) x)) = 0).
      { rewrite Ex. destruct (s_queue s); [|reflexivity]. cbn [outs_of]. rewrite list_count_cons, count_nil.
        unfold is_dispatch, dispatch_msg. cbn [m_key m_data]. rewrite Hfr. reflexivity. }
      split; [rewrite Hd; lia|]. apply W'. intros r' [<-|[]]. unfold well_formed. rewrite Hc. exact Hfr.
    + destruct HA as (Hu & P0 & _). pose proof (take_sends w x _ _ P0 HWq) as HT. split; [|apply W'; intros r' []].
      cbn [outs_of created_of fails_of] in *. rewrite ?count_nil. destruct x; lia.
  - destruct (q_cancelled_spec _ _ w Hq H) as (m1 & E & Q1 & Eq1 & Hu). rewrite E in H2. injection H2 as _ <-.
    split; [|apply W'; intros r' []].
    assert (Esq : s_queue s' = m1) by (destruct H3; subst; reflexivity). rewrite Esq, Eq1. cbn [outs_of created_of fails_of].
    rewrite list_count_cons, ?count_nil. assert (is_dispatch j m = false) as -> by (unfold is_dispatch; destruct H1 as (-> & _); reflexivity). lia.
  - destruct (q_cancelled_spec _ _ w Hq H) as (m1 & E & Q1 & Eq1 & Hu). rewrite E in H1. injection H1 as _ <-.
    split; [|apply W'; intros r' []]. unfold incr_fails. cbn [s_queue set_queue set_fails outs_of created_of fails_of]. rewrite Eq1, !list_count_cons, ?count_nil. lia.
  - destruct (q_assign_spec o _ _ _ _ _ Hq H H0 H1) as (Q1 & Hu & P0 & _). pose proof (take_sends w x _ _ P0 HWq) as HT.
    split; [|apply W'; intros r' []]. cbn [s_queue set_queue outs_of created_of fails_of] in *. rewrite ?count_nil. destruct x; lia.
  - destruct (q_enqueue_spec o _ _ _ _ _ Hq H H1) as (Q1 & HE). split; [|apply W'; intros r' []].
    cbn [s_queue set_queue outs_of created_of fails_of]. destruct x as [w|].
    + destruct HE as (_ & _ & _ & _ & ->). rewrite !list_count_cons, ?count_nil, dispatch_mine by (apply HB; rewrite in_app_iff; simpl; auto). lia.
    + destruct HE as (_ & _ & P0). rewrite (list_count_perm _ _ _ P0), !list_count_cons, ?count_nil. lia.
  - split; [|apply W'; intros r' []]. cbn [outs_of created_of fails_of]. rewrite !list_count_cons, ?count_nil.
    assert (is_dispatch j m = false) as -> by (unfold is_dispatch; destruct H as (-> & _); reflexivity). lia.
  - contradiction.
Qed.

Definition no_expiry (l : label) : Prop := match l with LExpire _ _ => False | _ => True end.

Lemma atoms_sends s h ls s' h' : atoms s h ls s' h' -> Forall no_expiry ls -> inv s h -> shaped s h ->
  list_count (is_dispatch j) (outs_all ls) + to_send s' h' <= to_send s h + list_count mine (created ls) + list_count mine (fails ls) /\
  shaped s' h'.
Proof.
  induction 1 as [s h|s h l s1 h1 ls s2 h2 Ha _ IH]; intros F HI HB.
  - split; [simpl; rewrite ?count_nil; lia|exact HB].
  - inversion F as [|? ? F1 F2]; subst. destruct (atom_sends _ _ _ _ _ HI HB Ha F1) as (H1 & HB1).
    destruct (IH F2 (atom_inv _ _ _ _ _ _ _ HI Ha) HB1) as (H2 & HB2). split; [|exact HB2].
    unfold outs_all, created, fails in *. cbn [flat_map]. rewrite !list_count_app. lia.
Qed.

(* the requests a tick deals with: sent or stored ones are told to be ABORTED *)
Lemma settled_sends ws att m rs outs un m' : settled cfg ws att m rs outs un m' -> (forall r, In r rs -> well_formed r) ->
  list_count (is_dispatch j) outs + list_count mine (queued m') <= list_count mine (queued m) + list_count (told j "ABORTED") outs.
Proof.
  assert (Hfd : forall j' d, is_dispatch j (failed_report j' d) = false) by reflexivity.
  assert (Htd : forall j' d, is_dispatch j (tell j' d) = false) by reflexivity.
  assert (Hta : forall r, well_formed r -> r_complete r = true -> told j "ABORTED" (tell (r_job r) "ABORTED") = mine r).
  { intros r _ Hc. change (tell (r_job r) "ABORTED") with (Msg KEY_MONITOR MONITOR_IDENTITY [r_job r; "ABORTED"]). rewrite told_monitor. change (String.eqb "ABORTED" "ABORTED") with true. unfold Budget.mine, job_is. rewrite Hc, andb_true_r. reflexivity. }
  induction 1; intros HW.
  - rewrite !count_nil. lia.
  - rewrite !list_count_cons, Hfd, Htd. specialize (IHsettled ltac:(intros; apply HW; simpl; auto)). lia.
  - rewrite !list_count_cons, Hfd, Htd. specialize (IHsettled ltac:(intros; apply HW; simpl; auto)). lia.
  - rewrite !list_count_cons, Htd. specialize (IHsettled ltac:(intros; apply HW; simpl; auto)). lia.
  - rewrite !list_count_cons, Htd, Hta by (auto; apply HW; simpl; auto).
    change (handover w r) with (dispatch_msg w r). rewrite dispatch_mine by (apply HW; simpl; auto).
    destruct H5 as (E & _). rewrite E in IHsettled. specialize (IHsettled ltac:(intros; apply HW; simpl; auto)). lia.
  - rewrite !list_count_cons, Htd, Hta by (auto; apply HW; simpl; auto).
    destruct H4 as (P & _). rewrite (list_count_perm _ _ _ P), list_count_cons in IHsettled.
    specialize (IHsettled ltac:(intros; apply HW; simpl; auto)). lia.
Qed.

Lemma settled_members ws att m rs outs un m' : settled cfg ws att m rs outs un m' ->
  forall r, In r (queued m') -> In r (queued m) \/ In r rs.
Proof.
  induction 1; intros r0 Hr; auto; try (destruct (IHsettled r0 Hr); simpl; auto; fail).
  - destruct H5 as (E & _). rewrite E in IHsettled. destruct (IHsettled r0 Hr); simpl; auto.
  - destruct H4 as (P & _). destruct (IHsettled r0 Hr) as [Hi|Hi]; [|simpl; auto].
    eapply Permutation_in in Hi; [|exact P]. destruct Hi as [<-|Hi]; simpl; auto.
Qed.

Lemma settled_currents ws att m rs outs un m' : settled cfg ws att m rs outs un m' ->
  forall w r, current_of m' w = Some r -> current_of m w = Some r \/ In r rs.
Proof.
  induction 1; intros w0 r0 Hr; auto; try (destruct (IHsettled w0 r0 Hr); simpl; auto; fail).
  - destruct (IHsettled w0 r0 Hr) as [Hi|Hi]; [|simpl; auto]. destruct H4 as (E1 & E2).
    destruct (Nat.eq_dec (w_id w0) (w_id w)) as [E|E].
    + rewrite (current_of_id _ _ _ E), E1 in Hi. injection Hi as <-. simpl. auto.
    + rewrite (E2 _ E) in Hi. auto.
  - destruct (IHsettled w0 r0 Hr) as [Hi|Hi]; [|simpl; auto]. rewrite H3 in Hi. auto.
Qed.

Definition formed (m : manager) : Prop :=
  (forall r, In r (queued m) -> well_formed r) /\ forall w r, current_of m w = Some r -> well_formed r.

Lemma removals_sends rm ws att m outs att' m' : removals cfg rm ws att m outs att' m' -> formed m ->
  list_count (is_dispatch j) outs + list_count mine (queued m') <= list_count mine (queued m) + list_count (told j "ABORTED") outs.
Proof.
  induction 1; intros (F1 & F2); [rewrite !count_nil; lia|].
  destruct H as (gone & -> & (N1 & N2) & (P & _) & _).
  assert (HW : forall r, In r (olist (current_of m w) ++ gone) -> well_formed r).
  { intros r Hr. apply in_app_iff in Hr. destruct Hr as [Hr|Hr].
    - destruct (current_of m w) as [c|] eqn:Ec; [|destruct Hr]. destruct Hr as [<-|[]]. eapply F2. exact Ec.
    - apply F1. eapply Permutation_in; [symmetry; exact P|]. rewrite in_app_iff. auto. }
  assert (G1 : formed m1).
  { split.
    - intros r Hr. apply F1. eapply Permutation_in; [symmetry; exact P|]. rewrite in_app_iff. auto.
    - intros w' r Hr. destruct (Nat.eq_dec (w_id w') (w_id w)) as [E|E].
      + rewrite (current_of_id _ _ _ E), N1 in Hr. discriminate.
      + rewrite (N2 _ E) in Hr. eapply F2. exact Hr. }
  pose proof (settled_sends _ _ _ _ _ _ _ H2 HW) as HS.
  assert (G2 : formed m2).
  { destruct G1 as (G1 & G1'). split.
    - intros r Hr. destruct (settled_members _ _ _ _ _ _ _ H2 r Hr); auto.
    - intros w' r Hr. destruct (settled_currents _ _ _ _ _ _ _ H2 w' r Hr); eauto. }
  specialize (IHremovals G2). rewrite !list_count_app.
  assert (Hun : list_count (is_dispatch j) (map (died_report w) un) = 0).
  { induction un as [|u un IHu]; [reflexivity|]. simpl map. rewrite list_count_cons. clear - un. induction un as [|v un IHv]; [reflexivity|]. exact IHv. }
  rewrite (list_count_perm _ _ _ P), list_count_app in *. lia.
Qed.

Lemma current_held m w r : current_of m w = Some r -> In r (held m).
Proof.
  unfold current_of. intros H. destruct (pm_find w (current_map m)) as [[c|]|] eqn:E; try discriminate. injection H as ->.
  apply pm_find_some_in in E. destruct E as (w' & Hi & _). unfold held. rewrite in_app_iff. left. unfold running.
  apply in_flat_map. exists (w', Some r). split; [exact Hi|]. simpl. auto.
Qed.

Lemma shaped_formed s : shaped s [] -> formed (s_queue s).
Proof.
  intros HS. split.
  - intros r Hr. apply HS. rewrite in_app_iff. left. apply queued_held. exact Hr.
  - intros w r Hr. apply HS. rewrite in_app_iff. left. eapply current_held; eassumption.
Qed.

Lemma tick_reads i d s outs s' : on_request o cfg (Msg "timer" i d) s = (outs, inr (tt, s')) -> exists t rest z, d = t :: rest /\ reads t z.
Proof.
  intros H. rewrite on_request_eq in H. unfold on_request_cases in H. cbn [m_key m_data] in H. simpl String.eqb in H. cbv iota in H.
  unfold process_timer in H. cbn [m_data] in H. destruct d as [|t rest]; [discriminate|].
  apply bind_inv in H. destruct H as (o1 & z1 & s1 & o2 & H1 & _ & _). apply lift_inv in H1. destruct H1 as (_ & E1 & _).
  exists t, rest, z1. split; [reflexivity|]. apply reads_stoll. exact E1.
Qed.

Lemma quiet_stays ls : Forall quiet ls -> Forall no_expiry ls /\ fails ls = [] /\ created ls = [].
Proof.
  induction 1 as [|l ls Hl _ (I1 & I2 & I3)]; [repeat split; constructor|]. unfold fails, created in *. cbn [flat_map]. rewrite I2, I3.
  destruct l; simpl in Hl; try contradiction; (split; [constructor; [exact I|exact I1]|split; reflexivity]).
Qed.

Lemma step_sends k tr s m outs s' : run o cfg k tr s -> on_request o cfg m s = (outs, inr (tt, s')) -> shaped s [] ->
  let e := mkEvent s m outs s' in
  list_count (is_dispatch j) outs + to_send s' [] <=
    to_send s [] + (if accepts j e then 1 else 0) + (if error_for j e then 1 else 0) + aborts_of j e.
Proof.
  intros HR Hstep HB e. pose proof (run_inv _ _ _ _ _ HR) as HI.
  destruct (on_request_sim _ _ _ _ _ _ HI Hstep) as (ls & HA & HO & HS).
  pose proof (shape_created o cfg j m s s' ls outs HI HA HO HS) as HC.
  destruct HS as [ls Hq Hne|ls Hk Ht|ls rest Hk Hd He|pre w' cur' x' next rest Hk Hd Hq Hr Hoe|ls rest Hk Hd Hds].
  - destruct (quiet_stays _ Hq) as (F & Ef & Ec). destruct (atoms_sends _ _ _ _ _ HA F HI HB) as (H1 & _).
    rewrite Ef, Ec, HO, !count_nil in H1. lia.
  - destruct m as [mk mi md]. cbn [m_key] in Hk. subst mk.
    destruct (tick_reads _ _ _ _ _ Hstep) as (t & rest & z & -> & Hz).
    destruct (tick_outcome o cfg k tr s mi t rest z outs s' HR Hz Hstep) as (rm & att' & _ & _ & _ & HRm & _).
    pose proof (removals_sends _ _ _ _ _ _ _ HRm (shaped_formed _ HB)) as H1.
    unfold to_send, aborts_of. cbn [ev_in ev_out m_key]. change (String.eqb "timer" "timer") with true. cbv iota.
    subst e. cbn [ev_in ev_out m_key]. change (String.eqb "timer" "timer") with true. cbv iota. rewrite !count_nil. lia.
  - assert (Had : adopts j e = false).
    { unfold adopts. subst e. cbn [ev_in]. rewrite Hk. reflexivity. }
    fold e in HC. rewrite Had in HC.
    destruct He as [Hp|r' Hs Hf|r' x Hs Hf|r' Hs Hf Hno].
    + assert (F : Forall no_expiry [LMsg (ack_msg (m_ident m))]) by (repeat constructor).
      destruct (atoms_sends _ _ _ _ _ HA F HI HB) as (H1 & _). rewrite HO in H1. cbn [created fails flat_map created_of fails_of app] in H1.
      rewrite !count_nil in H1. lia.
    + destruct (atoms_sends _ _ _ _ _ HA ltac:(repeat constructor) HI HB) as (H1 & _). rewrite HO in H1. cbn [created fails flat_map created_of fails_of app] in H1.
      rewrite !count_nil in H1. lia.
    + destruct (submits_block _ _ _ _ Hd Hs) as (_ & _ & _ & _ & _ & _ & Hc' & _).
      destruct (atoms_sends _ _ _ _ _ HA ltac:(repeat constructor) HI HB) as (H1 & _). rewrite HO in H1. cbn [created dropped fails flat_map created_of dropped_of fails_of app] in H1, HC.
      rewrite !list_count_cons, !count_nil in *. assert (mine r' = job_is j r') as Em by (unfold Budget.mine; rewrite Hc'; reflexivity).
      rewrite Em in H1. destruct (accepts j e), (job_is j r'); lia.
    + assert (E : s_queue s' = s_queue s /\ list_count (is_dispatch j) outs = 0).
      { rewrite <- HO. clear - HA Hk.
        destruct (atoms_cons_inv _ _ _ _ _ _ _ _ HA) as (s1 & h1 & A1 & HA1).
        destruct (atoms_cons_inv _ _ _ _ _ _ _ _ HA1) as (s2 & h2 & A2 & HA2).
        destruct (atoms_cons_inv _ _ _ _ _ _ _ _ HA2) as (s3 & h3 & A3 & HA3).
        destruct (atoms_cons_inv _ _ _ _ _ _ _ _ HA3) as (s4 & h4 & A4 & HA4).
        destruct (atoms_cons_inv _ _ _ _ _ _ _ _ HA4) as (s5 & h5 & A5 & HA5).
        destruct (atoms_nil_inv _ _ _ _ _ _ HA5) as (-> & _).
        inversion A1; subst. inversion A2; subst. inversion A3; subst. inversion A4; subst. inversion A5; subst.
        split; reflexivity. }
      destruct E as (E & ->). unfold to_send. rewrite E. lia.
  - destruct (quiet_stays _ Hq) as (F & Ef & Ec).
    assert (F' : Forall no_expiry (pre ++ [LRegister w' cur' x'])) by (apply Forall_app; split; [exact F|repeat constructor]).
    destruct (atoms_sends _ _ _ _ _ HA F' HI HB) as (H1 & _). rewrite HO in H1. unfold fails, created in *.
    rewrite !flat_map_app, Ef, Ec in H1. cbn [flat_map created_of fails_of app] in H1. rewrite ?app_nil_r, !count_nil in H1.
    assert (Hcur : list_count mine (match cur' with Some r => [r] | None => [] end) = 0).
    { destruct cur' as [c|]; [|reflexivity].
      destruct (atoms_app_inv _ _ _ _ _ _ _ _ HA) as (s1 & h1 & A1 & A2).
      destruct (atoms_cons_inv _ _ _ _ _ _ _ _ A2) as (s2 & h2 & A3 & A4).
      inversion A3; subst. match goal with HH : forall r0, Some c = Some r0 -> _ |- _ => destruct (HH c eq_refl) as (Hc & _ & Hfr) end.
      unfold list_count, Budget.mine. simpl. rewrite Hc. reflexivity. }
    destruct cur'; rewrite ?Hcur, ?count_nil in H1; lia.
  - change (created (LTau :: ls)) with (created ls) in *.
    destruct Hds as [?|w1 r1 m1 x1 st1 ? ? ? ? ?|w' r' ls H3 H4 H5 H6 H7 He].
    + destruct (atoms_sends _ _ _ _ _ HA ltac:(repeat constructor) HI HB) as (HX & _). rewrite HO in HX. cbn [created fails flat_map created_of fails_of app] in HX.
      rewrite !count_nil in HX. lia.
    + destruct (atoms_sends _ _ _ _ _ HA ltac:(repeat constructor) HI HB) as (HX & _). rewrite HO in HX. cbn [created fails flat_map created_of fails_of app] in HX.
      rewrite !count_nil in HX. lia.
    + assert (F : Forall no_expiry (LTau :: LCancel w' r' :: ls)) by (destruct He; repeat constructor).
      assert (Ec : created ls = [] /\ fails ls = []) by (destruct He; split; reflexivity). destruct Ec as (Ec & Ef).
      destruct (atoms_sends _ _ _ _ _ HA F HI HB) as (HX & _). rewrite HO in HX. unfold created, fails in *. cbn [flat_map created_of fails_of app] in HX.
      rewrite Ec, Ef, list_count_cons, !count_nil in HX.
      assert (Hm : mine r' = true -> error_for j e = true).
      { unfold Budget.mine, job_is. intros Hm. apply andb_true_iff in Hm. destruct Hm as (_ & Hm).
        unfold error_for, credited, own_report. subst e. cbn [ev_in ev_pre]. rewrite Hk, Hd in *.
        rewrite refresh_reg, <- find_named in H3. rewrite refresh_queue in H4.
        destruct rest as [|j1 [|st1 rest]]; [discriminate| |]; [discriminate|]. cbn in H5, H6, H7. injection H5 as ->. injection H6 as ->.
        change (String.eqb "workers" "workers") with true. rewrite String.eqb_refl. cbn [nth_error starts_with]. rewrite H3, H4. unfold job_is.
        rewrite String.eqb_refl, Hm. change (String.eqb "done" "done") with true. change (String.eqb "INTERNAL_ERROR" "INTERNAL_ERROR") with true.
        change (String.eqb "INTERNAL_ERROR" "OK") with false. injection H7 as H7. destruct rest as [|d [|d2 rest]]; try discriminate. reflexivity. }
      destruct (mine r'); [rewrite (Hm eq_refl)|]; lia.
Qed.

Theorem run_sends k tr s : run o cfg k tr s ->
  dispatches j tr + list_count mine (queued (s_queue s)) <= acceptances j tr + errors_for j tr + aborts j tr.
Proof.
  induction 1 as [|tr s m outs s' HR IH Hstep].
  - destruct k; reflexivity.
  - destruct (run_budget o cfg j k tr s HR) as (_ & _ & HB).
    pose proof (step_sends k tr s m outs s' HR Hstep HB) as H. cbv zeta in H. unfold to_send in H. rewrite !count_nil in H.
    unfold dispatches, acceptances, errors_for, aborts in *. rewrite !total_app, !list_count_app, !list_count_cons, !count_nil. simpl total. cbn [ev_out]. lia.
Qed.

End WithConfig.

Lemma no_aborts o cfg k j tr s : run o cfg k tr s -> (forall e, In e tr -> incl (s_reg (ev_pre e)) (s_reg (ev_post e))) -> aborts j tr = 0.
Proof.
  induction 1 as [|tr s m outs s' HR IH Hstep]; intros H; [reflexivity|].
  unfold aborts in *. rewrite total_app, IH by (intros e He; apply H; rewrite in_app_iff; auto). simpl total. unfold aborts_of. cbn [ev_in ev_out].
  specialize (H (mkEvent s m outs s') ltac:(rewrite in_app_iff; simpl; auto)). cbn [ev_pre ev_post] in H.
  destruct (String.eqb_spec (m_key m) "timer") as [Ek|_]; [|reflexivity]. destruct m as [mk mi md]. cbn [m_key] in Ek. subst mk.
  destruct (tick_reads o cfg _ _ _ _ _ Hstep) as (t & rest & z & -> & Hz).
  destruct (tick_outcome o cfg k tr s mi t rest z outs s' HR Hz Hstep) as (rm & att' & HS & _ & HI & HRm & _).
  assert (outs = []) as ->; [|reflexivity]. destruct rm as [|w rm]; [inversion HRm; reflexivity|]. exfalso.
  destruct (subseq_ids _ _ HS (qi_nodup _ _ (inv_q _ _ (run_inv _ _ _ _ _ HR)))) as (_ & Hi).
  assert (Hw : In w (s_reg s)) by (apply Hi; left; reflexivity). apply H, HI in Hw. apply (proj2 Hw). left. reflexivity.
Qed.

Theorem sent_again o cfg k tr s j : run o cfg k tr s ->
  dispatches j tr + list_count (job_is j) (queued (s_queue s)) <= acceptances j tr + errors_for j tr + aborts j tr.
Proof.
  intros HR. etransitivity; [|exact (run_sends o cfg j k tr s HR)]. apply Nat.add_le_mono_l.
  assert (H : forall r, In r (queued (s_queue s)) -> r_complete r = true).
  { intros r. exact (queued_complete _ _ r (inv_q _ _ (run_inv _ _ _ _ _ HR))). }
  induction (queued (s_queue s)) as [|r l IH]; [reflexivity|]. rewrite !list_count_cons.
  unfold mine at 1. rewrite (H r (or_introl eq_refl)). cbn [andb]. specialize (IH (fun r' Hr => H r' (or_intror Hr))). lia.
Qed.

Theorem sent_once o cfg k tr s j : run o cfg k tr s ->
  (forall e, In e tr -> error_for j e = false) -> (forall e, In e tr -> incl (s_reg (ev_pre e)) (s_reg (ev_post e))) ->
  dispatches j tr + list_count (job_is j) (queued (s_queue s)) <= acceptances j tr.
Proof.
  intros HR He Hw. pose proof (sent_again o cfg k tr s j HR) as H. rewrite (no_aborts _ _ _ _ _ _ HR Hw) in H.
  assert (E : errors_for j tr = 0); [|lia]. unfold errors_for. clear - He. induction tr as [|e tr IH]; [reflexivity|].
  rewrite list_count_cons, (He e (or_introl eq_refl)), IH by (intros e' H; apply He; right; exact H). reflexivity.
Qed.
