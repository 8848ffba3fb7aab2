(* How long a request waits at most (C49). *)
From Coq Require Import Permutation Sorted Lia.
From Verif Require Import Base Bytes Containers Worker Multi Single Queue Handler SpecText Spec SpecRun SpecMsg SpecQueue SpecOutcome SpecWait
  Facts QueueInv Atoms HandlerSim Conserve OwnQueue QueueContract QueueOrder Provenance OneJob Members Messages WorkConserving Outcome.
Local Open Scope string_scope.
Local Open Scope list_scope.

Section WithConfig.
Context (o : oracle) (cfg : config).
Local Notation atoms := (atoms o cfg).
Local Notation atom := (atom o cfg).

(* ---- a request that is taken from a queue is taken at the end of the event ---- *)

Fixpoint tidy (ls : list label) : Prop :=
  match ls with
  | [] => True
  | l :: t => match l with LAssign _ (Some _) | LRegister _ _ _ => Forall (eq LTau) t | _ => True end /\ tidy t
  end.
Lemma tidy_end l1 : forall l2, tidy (l1 ++ l2) -> tidy l2.
Proof. induction l1 as [|l l1 IH]; simpl; [auto|]. intros l2 (_ & H). auto. Qed.
Lemma tidy_none ls : Forall (fun l => match l with LAssign _ (Some _) | LRegister _ _ _ => False | _ => True end) ls -> tidy ls.
Proof. induction 1 as [|l ls H _ IH]; simpl; [exact I|]. split; [destruct l as [| | | | | | |? []| | | ]; tauto|exact IH]. Qed.

Lemma shape_tidy m s s' ls : shape o cfg m s s' ls -> tidy ls.
Proof.
  intros [l HF _|l _ HF|l rest _ _ HE|pre w0 cur x next rest _ _ HF _|l rest Hk Hd HD].
  - apply tidy_none. eapply Forall_impl; [|exact HF]. intros []; simpl; tauto.
  - apply tidy_none. eapply Forall_impl; [|exact HF]. intros []; simpl; tauto.
  - destruct HE; simpl; auto 20.
  - match goal with H : only_error _ |- _ => clear H end. induction HF as [|a pre Ha _ IH]; simpl; [auto|]. split; [destruct a; try contradiction; exact I|exact IH].
  - destruct HD as [_|w0 r0 m0 x0 st Hf Hc Hj Hst Hor|w0 r0 ls0 Hf Hc Hj Hst Hlen HE]; [simpl; auto| |].
    + simpl. destruct x0; auto 10.
    + destruct HE as [d Hcomp|d x0 Hcomp|x0 Hcomp]; simpl; try destruct x0; auto 10.
Qed.

(* the label by which w takes r *)
Definition takes (w : worker) (r : request) (l : label) : Prop := l = LAssign w (Some r) \/ l = LRegister w None (Some r).

Lemma taken s h l s' h' w r : inv s h -> atom s h l s' h' -> takes w r l ->
  In w (s_reg s') /\ capable w r /\ current_of (s_queue s') w = Some r /\ outs_of l = [handover w r].
Proof.
  intros HI Ha Ht. pose proof (inv_q _ _ HI) as HQ. destruct Ha as
    [s s' h Hc|s h h' HP|s h m Hn|s h r' Hid Hcomp Hfr|s h r'|s h w' cur x m' n s' Hid Hmk Hn Hcur E Hc
    |s h w' r' m m' s' Hin Hcw Hrep E Hs'|s h w' r' m' Hin Hcw E|s h w' x m' Hin Hcw E|s h r' x m' Hcomp Hf E|s h r' m Hrep
    |s h w' rs m' Hin E]; destruct Ht as [Ht|Ht]; try discriminate.
  - injection Ht as -> -> ->. unfold core in Hc. injection Hc as E1 E2 _ _ _. rewrite E1, E2.
    assert (Hni : ~ In (w_id w) (ids (s_reg s))).
    { intros Hcc. apply in_ids_inv in Hcc. destruct Hcc as (w1 & Hi & Ei). apply (inv_w _ _ HI) in Hi. lia. }
    destruct (q_add_spec o _ _ w None _ _ HQ Hni ltac:(discriminate) E) as (_ & Hu & _ & Hcap & _).
    split; [apply in_or_app; right; left; reflexivity|]. split; [exact Hcap|]. split; [|reflexivity]. rewrite Hu. apply upd_same. reflexivity.
  - injection Ht as -> ->. destruct (q_assign_spec o _ _ _ _ _ HQ Hin Hcw E) as (_ & Hu & _ & Hcap).
    split; [exact Hin|]. split; [apply Hcap; reflexivity|]. split; [|reflexivity]. simpl. rewrite Hu. apply upd_same. reflexivity.
Qed.

Lemma atoms_tau ls : forall s h s' h', atoms s h ls s' h' -> Forall (eq LTau) ls -> core s' = core s.
Proof.
  induction ls as [|l ls IH]; intros s h s' h' A HF; inversion A as [|? ? ? s1 h1 ? ? ? Ha Has]; subst; [reflexivity|].
  inversion HF as [|? ? <- HF']; subst. rewrite (IH _ _ _ _ Has HF'). inversion Ha; subst; congruence.
Qed.

Lemma taken_event m s s' ls w r : inv s [] -> atoms s [] ls s' [] -> shape o cfg m s s' ls -> Exists (takes w r) ls ->
  In w (s_reg s') /\ capable w r /\ current_of (s_queue s') w = Some r /\ In (handover w r) (outs_all ls).
Proof.
  intros HI A Hsh HE. apply Exists_exists in HE. destruct HE as (l & Hin & Ht). apply in_split in Hin. destruct Hin as (l1 & l2 & ->).
  apply shape_tidy in Hsh. apply tidy_end in Hsh. apply atoms_app_inv in A. destruct A as (s1 & h1 & A1 & A2).
  inversion A2 as [|? ? ? s2 h2 ? ? ? Ha Has]; subst. destruct (taken _ _ _ _ _ _ _ (atoms_inv _ _ _ _ _ _ _ A1 HI) Ha Ht) as (T1 & T2 & T3 & T4).
  assert (HT : Forall (eq LTau) l2) by (destruct Ht as [-> | ->]; exact (proj1 Hsh)).
  pose proof (atoms_tau _ _ _ _ _ Has HT) as HC. unfold core in HC. injection HC as E1 E2 _ _ _. rewrite E1, E2.
  repeat (split; [assumption|]). unfold outs_all. rewrite flat_map_app. apply in_or_app. right. simpl. rewrite T4. left. reflexivity.
Qed.

(* ---- reports ---- *)

Lemma credited_form st e : credited st e = true -> exists w r rest,
  sender (m_ident (ev_in e)) (ev_pre e) = Some w /\ current_of (s_queue (ev_pre e)) w = Some r /\
  ev_in e = Msg "workers" (m_ident (ev_in e)) ("done" :: r_job r :: st :: rest) /\ (st = "OK" \/ length rest = 1).
Proof.
  unfold credited, own_report, sender. intros H. apply andb_true_iff in H. destruct H as (H & H2).
  apply andb_true_iff in H. destruct H as (H & H3). apply andb_true_iff in H. destruct H as (H & H4).
  apply andb_true_iff in H. destruct H as (H & _). apply String.eqb_eq in H.
  destruct (ev_in e) as [key i data]. cbn [m_key m_ident m_data] in *. subst key.
  destruct data as [|c [|j [|st' rest]]]; try discriminate. apply andb_true_iff in H2. destruct H2 as (E & H2). apply String.eqb_eq in E. subst st'.
  apply starts_with_iff in H4. destruct H4 as (rest' & H4). injection H4 as -> _.
  destruct (find (named i) (s_reg (ev_pre e))) as [w|]; [|discriminate]. cbn [nth_error] in H3.
  destruct (current_of (s_queue (ev_pre e)) w) as [r|] eqn:Ec; [|discriminate]. exists w, r, rest. split; [reflexivity|]. split; [exact Ec|].
  unfold job_is in H3. apply String.eqb_eq in H3. subst j. split; [reflexivity|].
  apply orb_true_iff in H2. destruct H2 as [H2|H2]; [left; apply String.eqb_eq; exact H2|right; apply Nat.eqb_eq; exact H2].
Qed.

(* after a report the worker goes on with what waits for it *)
Lemma report_goes_on k tr s e w : run o cfg k (tr ++ [e]) s -> ends_job e = true -> by_whom e = Some w ->
  exists x, goes_on_with (s_queue (ev_pre e)) (s_queue (ev_post e)) w x /\ In w (s_reg (ev_post e)) /\
    forall r, x = Some r -> In (handover w r) (ev_out e).
Proof.
  intros HR HE HW. destruct (run_split _ _ _ _ _ _ _ HR) as (H1 & Hstep). unfold ends_job in HE. unfold by_whom in HW.
  assert (HX : exists x s' a, on_request o cfg (ev_in e) (ev_pre e) = (a :: map (handover w) (olist x), inr (tt, s')) /\
             goes_on_with (s_queue (ev_pre e)) (s_queue s') w x /\ s_reg s' = s_reg (ev_pre e)).
  { apply orb_true_iff in HE. destruct HE as [HE|HE]; apply credited_form in HE; destruct HE as (w' & r & rest & HS & HC & Hin & Hl);
      rewrite HW in HS; injection HS as <-.
    - destruct (done_ok o cfg k tr (ev_pre e) _ w r H1 HW HC rest) as (x & s' & E & HG & HO & _). rewrite Hin. exists x, s', (ok_report (r_job r)).
      split; [exact E|]. split; [exact HG|]. apply HO.
    - destruct Hl as [Hl|Hl]; [discriminate|]. destruct rest as [|text [|]]; try discriminate.
      destruct (done_failed o cfg k tr (ev_pre e) _ w r H1 HW HC text) as (x & s' & E & HG & HO & _). rewrite Hin. exists x, s', (failed_report (r_job r) text).
      split; [exact E|]. split; [exact HG|]. apply HO. }
  destruct HX as (x & s' & a & E & HG & HO). rewrite Hstep in E. injection E as Eo Es. rewrite Es in *. exists x. split; [exact HG|]. split.
  - rewrite HO. rewrite sender_find in HW. exact (proj1 (find_by_identity_in _ _ _ HW)).
  - intros r ->. rewrite Eo. right. left. reflexivity.
Qed.

(* ---- multi manager ---- *)

Lemma popped_takes s h ls s' h' w r : atoms s h ls s' h' -> inv s h -> In w (s_reg s) -> In w (s_reg s') -> In r (popped w ls) -> Exists (takes w r) ls.
Proof.
  induction 1 as [|s h l s1 h1 ls s2 h2 Ha Has IH]; intros HI Hw Hw' Hr; [destruct Hr|].
  pose proof (atom_inv _ _ _ _ _ _ _ HI Ha) as HI1.
  assert (Hlt : w_id w < s_next_w s1).
  { destruct (atom_next _ _ _ _ _ _ _ Ha) as (H & _). apply (inv_w _ _ HI) in Hw. lia. }
  pose proof (atoms_reg_later _ _ _ _ _ _ _ _ Has HI1 Hlt Hw') as Hw1.
  unfold popped in Hr. simpl in Hr. apply in_app_iff in Hr. destruct Hr as [Hr|Hr]; [left|right; exact (IH HI1 Hw1 Hw' Hr)].
  destruct l; try contradiction. simpl in Hr. destruct (Nat.eqb_spec (w_id w0) (w_id w)) as [Ei|]; [|contradiction].
  destruct x as [r0|]; [|contradiction]. destruct Hr as [->|[]]. inversion Ha; subst.
  assert (w0 = w) as -> by (eapply ids_inj; eauto; exact (qi_nodup _ _ (inv_q _ _ HI))). left. reflexivity.
Qed.

Theorem multi_wait w r tr2 : forall tr1 s1 s2 before after, run o cfg KMulti tr1 s1 -> run o cfg KMulti (tr1 ++ tr2) s2 -> In w (s_reg s1) ->
  (forall e, In e tr2 -> In w (s_reg (ev_post e))) ->
  own_queue (s_queue s1) w = before ++ r :: after ->
  length before < list_count (fun e => ends_job e && by_worker w e) tr2 ->
  exists e, In e tr2 /\ handed_to w r e.
Proof.
  induction tr2 as [|e tr2 IH]; intros tr1 s1 s2 before after H1 H2 Hw Hall HQ HL; [unfold list_count in HL; simpl in HL; lia|].
  pose proof (run_post _ _ _ _ _ _ _ H2) as H3. destruct (run_split _ _ _ _ _ _ _ H2) as (H1' & Hstep).
  rewrite <- (run_fun _ _ _ _ _ H1 _ H1') in *.
  assert (Hw1 : In w (s_reg (ev_post e))) by (apply Hall; left; reflexivity).
  assert (H2' : run o cfg KMulti ((tr1 ++ [e]) ++ tr2) s2) by (rewrite <- app_assoc; exact H2).
  assert (Hall' : forall e', In e' tr2 -> In w (s_reg (ev_post e'))) by (intros e' He'; apply Hall; right; exact He').
  pose proof (IH (tr1 ++ [e]) (ev_post e) s2) as IH'.
  assert (Hlater : (exists before' after', own_queue (s_queue (ev_post e)) w = before' ++ r :: after' /\
            length before' < list_count (fun e => ends_job e && by_worker w e) tr2) -> exists e', In e' (e :: tr2) /\ handed_to w r e').
  { intros (b & a & E & L). destruct (IH' b a H3 H2' Hw1 Hall' E L) as (e' & He' & HH). exists e'. split; [right; exact He'|exact HH]. }
  clear IH IH'. pose proof (run_kind _ _ _ _ _ H1) as HK. destruct (s_queue s1) as [q|q] eqn:Eq; [contradiction|].
  destruct (ends_job e && by_worker w e) eqn:Eb.
  - assert (Eb' := Eb). apply andb_true_iff in Eb. destruct Eb as (HE & HB). unfold by_worker in HB. destruct (by_whom e) as [w'|] eqn:Ew; [|discriminate].
    apply Nat.eqb_eq in HB. assert (w' = w) as ->.
    { pose proof (run_inv _ _ _ _ _ H1) as HI. eapply ids_inj; [exact (qi_nodup _ _ (inv_q _ _ HI))| |exact Hw|exact HB].
      unfold by_whom in Ew. rewrite sender_find in Ew. rewrite (run_fun _ _ _ _ _ H1 _ H1'). exact (proj1 (find_by_identity_in _ _ _ Ew)). }
    destruct (report_goes_on _ _ _ _ _ H3 HE Ew) as (x & HG & _ & HH). rewrite <- (run_fun _ _ _ _ _ H1 _ H1') in HG.
    destruct HG as (HN & HO & _ & HT). rewrite Eq in HT. simpl in HT. simpl in HQ. rewrite HQ in HT. destruct HT as (Hx & Ho & _).
    destruct before as [|b before]; simpl in Hx, Ho.
    + exists e. split; [left; reflexivity|]. split; [exact Hw1|]. split; [apply (proj2 HO); exact Hx|]. split; [apply HH; exact Hx|]. rewrite (proj1 HN). exact Hx.
    + apply Hlater. exists before, after. split; [exact Ho|]. unfold list_count in *. cbn [filter] in HL.
      rewrite Eb' in HL. cbn [length] in HL. lia.
  - assert (HL' : length before < list_count (fun e => ends_job e && by_worker w e) tr2).
    { unfold list_count in *. simpl in HL. rewrite Eb in HL. exact HL. }
    pose proof (run_inv _ _ _ _ _ H1) as HI. destruct (on_request_sim _ _ _ _ _ _ HI Hstep) as (ls & A & Eo & Hsh).
    destruct (atoms_fifo _ _ _ _ _ _ _ _ A HI Hw Hw1 (ex_intro _ q Eq)) as (added & EF). rewrite Eq in EF.
    destruct (shape_popped _ _ _ _ _ _ _ HI Hsh Hw) as [Ep|(r1 & Ep & _)]; rewrite Ep, HQ in EF; cbn [app] in EF.
    + apply Hlater. exists before, (after ++ added). rewrite <- EF, <- app_assoc. auto.
    + destruct before as [|b before]; simpl in EF; injection EF as E0 EF.
      * subst r1. exists e. split; [left; reflexivity|].
        destruct (taken_event _ _ _ _ w r HI A Hsh) as (T1 & T2 & T3 & T4).
        { eapply popped_takes; eauto. rewrite Ep. left. reflexivity. }
        split; [exact T1|]. split; [|split; [rewrite <- Eo; exact T4|exact T3]].
        destruct (used_inv o _ _ (run_used _ _ _ _ _ H3)) as (_ & HC). apply fits_capable; [apply HC; exact T1|exact T2].
      * apply Hlater. exists before, (after ++ added). split; [rewrite <- EF, <- app_assoc; reflexivity|]. simpl in HL'. lia.
Qed.

(* ---- single manager ---- *)

Definition clock_of (m : manager) : nat := match m with QSingle q => sq_clock q | QMulti _ => 0 end.

(* the entries of the queue after a call: those before it, but for x, and possibly a new one *)
Definition queue_step (m m' : manager) : Prop := clock_of m <= clock_of m' /\
  forall r t, waiting_since m' r t -> waiting_since m r t \/ exists n, clock_of m <= n < clock_of m' /\ t = o_clock o n.
Lemma queue_step_same m m' : clock_of m' = clock_of m -> (forall r t, waiting_since m' r t -> waiting_since m r t) -> queue_step m m'.
Proof. intros E H. split; [lia|]. intros r t Hw. left. auto. Qed.

Lemma assign_single w q x m' : q_assign_request o w (QSingle q) = Val (x, m') ->
  clock_of m' = sq_clock q /\ (forall r t, waiting_since m' r t -> waiting_since (QSingle q) r t) /\
  forall r t, waiting_since (QSingle q) r t -> x = Some r \/ waiting_since m' r t.
Proof.
  intros E. simpl in E. unfold lift_single in E. destruct (single_assign o w q) as [(y, q')|f] eqn:Es; simpl in E; [|discriminate].
  injection E as -> <-. assert (Ec : sq_clock q' = sq_clock q).
  { unfold single_assign in Es. destruct (take_first _ _) as [[(r, rest)|]|]; simpl in Es; try discriminate; injection Es as _ <-; reflexivity. }
  apply single_assign_oldest in Es. split; [exact Ec|]. simpl. destruct x as [r0|].
  - destruct Es as (t0 & HP & _). split; intros r t Hw.
    + eapply Permutation_in; [symmetry; exact HP|right; exact Hw].
    + eapply Permutation_in in Hw; [|exact HP]. destruct Hw as [[= -> ->]|Hw]; auto.
  - destruct Es as (HP & _). split; intros r t Hw; [eapply Permutation_in; [symmetry; exact HP|exact Hw]|].
    right. eapply Permutation_in; [exact HP|exact Hw].
Qed.

(* what an action does to the queue *)
Lemma atom_waits s h l s' h' q : inv s h -> atom s h l s' h' -> s_queue s = QSingle q -> queue_step (s_queue s) (s_queue s') /\
  forall r t, waiting_since (s_queue s) r t -> waiting_since (s_queue s') r t \/ (exists w, takes w r l) \/
    exists w rs, l = LExpire w rs /\ forall w', In w' (s_reg s') -> ~ capable w' r.
Proof.
  intros HI Ha Eq. pose proof (inv_q _ _ HI) as HQ. pose proof (qi_nodup _ _ HQ) as Hnd.
  assert (HS : forall m m' : manager, m' = m -> queue_step m m').
  { intros m m' ->. apply queue_step_same; auto. }
  assert (HC : forall w x m', q_worker_cancelled w (s_queue s) = Val (x, m') -> queue_step (s_queue s) m' /\
            forall r t, waiting_since (s_queue s) r t -> waiting_since m' r t).
  { rewrite Eq. simpl. unfold lift_single, single_worker_cancelled. intros w x m'. destruct (pm_index _ _ _); simpl; intros [= _ <-].
    split; [apply queue_step_same; auto|auto]. }
  destruct Ha as
    [s s' h Hc|s h h' HP|s h m Hn|s h r' Hid Hcomp Hfr|s h r'|s h w' cur x m' n s' Hid Hmk Hn Hcur E Hc
    |s h w' r' m m' s' Hin Hcw Hrep E Hs'|s h w' r' m' Hin Hcw E|s h w' x m' Hin Hcw E|s h r' x m' Hcomp Hf E|s h r' m Hrep
    |s h w' rs m' Hin E]; try (split; [apply HS; reflexivity|auto; fail]).
  - unfold core in Hc. injection Hc as _ <- _ _ _. split; [apply HS; reflexivity|auto].
  - unfold core in Hc. injection Hc as _ -> _ _ _. rewrite Eq in *. destruct cur as [r0|].
    + simpl in E. unfold lift_single, single_add_worker in E. simpl in E. injection E as _ <-. split; [apply queue_step_same; auto|auto].
    + destruct (assign_single w' (mkSingle (sq_jobs q) (pm_set w' None (sq_worker_jobs q)) (sq_workers q ++ [w']) (sq_clock q) (sq_sorts q)) x m' E) as (A1 & A2 & A3).
      split; [apply queue_step_same; [exact A1|exact A2]|]. intros r t Hw. destruct (A3 r t Hw) as [->|Hw']; [|auto].
      right. left. exists w'. right. reflexivity.
  - assert (Es : s_queue s' = m') by (destruct Hs'; subst; auto). rewrite Es. destruct (HC _ _ _ E) as (H1 & H2). split; [exact H1|auto].
  - simpl s_queue. destruct (HC _ _ _ E) as (H1 & H2). split; [exact H1|auto].
  - simpl s_queue. rewrite Eq in *. destruct (assign_single _ _ _ _ E) as (A1 & A2 & A3). split; [apply queue_step_same; assumption|].
    intros r t Hw. destruct (A3 r t Hw) as [->|Hw']; [|auto]. right. left. exists w'. left. reflexivity.
  - simpl s_queue. rewrite Eq in *. simpl in E. unfold lift_single, single_enqueue in E.
    destruct (select_idle r' (sq_worker_jobs q)) as [[w1|]|]; simpl in E; try discriminate.
    + injection E as _ <-. split; [apply queue_step_same; auto|auto].
    + destruct (assignable r' (sq_workers q)) as [[|]|]; simpl in E; try discriminate. injection E as _ <-. split.
      * split; [simpl; lia|]. intros r t Hw. simpl in Hw. apply in_app_iff in Hw. destruct Hw as [Hw|[[= <- <-]|[]]]; [left; exact Hw|].
        right. exists (sq_clock q). simpl. split; [lia|reflexivity].
      * intros r t Hw. left. simpl. apply in_or_app. left. exact Hw.
  - simpl s_queue. simpl s_reg. rewrite Eq in *.
    assert (Er : s_reg (incr_opt (current_of (QSingle q) w') (set_reg (reg_remove w' (s_reg s)) s)) = reg_remove w' (s_reg s))
      by (destruct (current_of (QSingle q) w'); reflexivity).
    simpl in E. unfold lift_single, single_worker_terminated in E. destruct (qi_impl _ _ HQ) as [S1 S2 S3 S4].
    destruct (pm_index None w' (sq_worker_jobs q)) as (c, wj).
    destruct (split_jobs (list_remove w' (sq_workers q)) (sq_jobs q)) as [(kept, gone)|f] eqn:Es; simpl in E; [|discriminate].
    injection E as <- <-. pose proof (split_jobs_entries _ _ _ _ Es) as HE. apply split_jobs_spec in Es. destruct Es as (_ & _ & Hg).
    rewrite S1, reg_remove_eq in Hg by exact Hnd. split.
    + apply queue_step_same; [reflexivity|]. intros r t Hw. apply HE. left. exact Hw.
    + intros r t Hw. apply HE in Hw. destruct Hw as [Hw|(_ & Hw)]; [left; exact Hw|]. right. right. exists w'. eexists. split; [reflexivity|].
      intros w1 Hw1 Hcap. rewrite Er in Hw1. destruct (Hg r Hw) as (_ & Hno). unfold capable in Hcap. rewrite (Hno w1 Hw1) in Hcap. discriminate.
Qed.

Lemma atoms_waits s h ls s' h' : atoms s h ls s' h' -> inv s h -> (exists q, s_queue s = QSingle q) -> queue_step (s_queue s) (s_queue s') /\
  forall r t, waiting_since (s_queue s) r t -> waiting_since (s_queue s') r t \/ (exists w, Exists (takes w r) ls) \/
    exists w rs, In (LExpire w rs) ls /\ (Forall timer_label ls -> forall w', In w' (s_reg s') -> ~ capable w' r).
Proof.
  induction 1 as [|s h l s1 h1 ls s2 h2 Ha Has IH]; intros HI (q & Eq).
  - split; [apply queue_step_same; auto|auto].
  - pose proof (atom_inv _ _ _ _ _ _ _ HI Ha) as HI1. destruct (atom_waits _ _ _ _ _ _ HI Ha Eq) as (A1 & A2).
    assert (Hk1 : exists q, s_queue s1 = QSingle q).
    { pose proof (atom_kind _ _ _ _ _ _ _ Ha) as HK. rewrite Eq in HK. destruct (s_queue s1); [eauto|contradiction]. }
    destruct (IH HI1 Hk1) as (B1 & B2). split.
    + destruct A1 as (A1 & A3), B1 as (B1 & B3). split; [lia|]. intros r t Hw. destruct (B3 r t Hw) as [Hw1|(n & Hn & ->)].
      * destruct (A3 r t Hw1) as [Hw0|(n & Hn & ->)]; [auto|]. right. exists n. split; [lia|reflexivity].
      * right. exists n. split; [lia|reflexivity].
    + intros r t Hw. destruct (A2 r t Hw) as [Hw1|[(w & Ht)|(w & rs & -> & Hno)]].
      * destruct (B2 r t Hw1) as [Hw2|[(w & Ht)|(w & rs & Hin & Hno)]]; [auto| |].
        -- right. left. exists w. right. exact Ht.
        -- right. right. exists w, rs. split; [right; exact Hin|]. intros HF. inversion HF; subst. auto.
      * right. left. exists w. left. exact Ht.
      * right. right. exists w, rs. split; [left; reflexivity|]. intros HF w' Hw' Hcap. inversion HF as [|? ? _ HF']; subst. apply (Hno w'); [|exact Hcap].
        clear - Has HF' Hw' HI1. revert HI1. induction Has as [|s h l s1 h1 ls s2 h2 Ha Has IH]; intros HI1; [exact Hw'|]. inversion HF' as [|? ? Hl HF'']; subst.
        specialize (IH Hw' HF'' (atom_inv _ _ _ _ _ _ _ HI1 Ha)). pose proof (qi_nodup _ _ (inv_q _ _ HI1)) as Hnd. destruct Ha; try contradiction; try exact IH.
        -- unfold core in H. injection H as E _ _ _ _. rewrite E. exact IH.
        -- simpl in IH. assert (Er : s_reg (incr_opt (current_of (s_queue s) w) (set_reg (reg_remove w (s_reg s)) s)) = reg_remove w (s_reg s))
             by (destruct (current_of (s_queue s) w); reflexivity). rewrite Er in IH.
           apply (reg_remove_in w w' _ Hnd H) in IH. exact (proj1 IH).
Qed.

(* a request that waits before an event waits after it, is handed out, or nobody is left that fits it *)
Lemma event_waits tr e s : run o cfg KSingle (tr ++ [e]) s -> queue_step (s_queue (ev_pre e)) (s_queue (ev_post e)) /\
  forall r t, waiting_since (s_queue (ev_pre e)) r t -> waiting_since (s_queue (ev_post e)) r t \/ (exists w, handed_to w r e) \/
    forall w, In w (s_reg (ev_post e)) -> ~ fits w r.
Proof.
  intros HR. pose proof (run_post _ _ _ _ _ _ _ HR) as H3. destruct (run_split _ _ _ _ _ _ _ HR) as (H1 & Hstep). pose proof (run_inv _ _ _ _ _ H1) as HI.
  destruct (on_request_sim _ _ _ _ _ _ HI Hstep) as (ls & A & Eo & Hsh). destruct (used_inv o _ _ (run_used _ _ _ _ _ H3)) as (_ & HC).
  assert (Hk : exists q, s_queue (ev_pre e) = QSingle q).
  { pose proof (run_kind _ _ _ _ _ H1) as HK. simpl in HK. destruct (s_queue (ev_pre e)); [eauto|contradiction]. }
  destruct (atoms_waits _ _ _ _ _ A HI Hk) as (B1 & B2). split; [exact B1|]. intros r t Hw.
  destruct (B2 r t Hw) as [Hw'|[(w & Ht)|(w & rs & Hin & Hno)]]; [auto| |]; right.
  - left. exists w. destruct (taken_event _ _ _ _ w r HI A Hsh Ht) as (T1 & T2 & T3 & T4).
    split; [exact T1|]. split; [apply fits_capable; [apply HC; exact T1|exact T2]|]. split; [rewrite <- Eo; exact T4|exact T3].
  - right. assert (HF : Forall timer_label ls).
    { destruct Hsh as [l HF _|l _ HF|l rest _ _ HE|pre w0 cur x next rest _ _ HF _|l rest Hk' Hd HD]; [| exact HF| | |]; exfalso.
      - rewrite Forall_forall in HF. destruct (HF _ Hin).
      - destruct HE; simpl in Hin; intuition discriminate.
      - apply in_app_iff in Hin. destruct Hin as [Hin|[Hin|[]]]; [|discriminate]. rewrite Forall_forall in HF. destruct (HF _ Hin).
      - destruct HD as [_|w0 r0 m0 x0 st Hf Hc Hj Hst Hor|w0 r0 ls0 Hf Hc Hj Hst Hlen HE]; [simpl in Hin; intuition discriminate|simpl in Hin; intuition discriminate|].
        destruct HE; simpl in Hin; intuition discriminate. }
    intros w' Hw' Hf. apply (Hno HF w' Hw'). apply fits_capable; [apply HC; exact Hw'|exact Hf].
Qed.

Lemma remove_covers (l : list request) r0 : In r0 l -> exists l', S (length l') = length l /\ forall r, In r l -> r <> r0 -> In r l'.
Proof.
  intros H. apply in_split in H. destruct H as (l1 & l2 & ->). exists (l1 ++ l2). split; [rewrite !app_length; simpl; lia|].
  intros r Hr Hne. apply in_app_iff in Hr. apply in_or_app. destruct Hr as [Hr|[Hr|Hr]]; [auto|congruence|auto].
Qed.

Theorem single_wait r t tr2 : forall tr1 s1 s2 older served, run o cfg KSingle tr1 s1 -> run o cfg KSingle (tr1 ++ tr2) s2 ->
  waiting_since (s_queue s1) r t ->
  (forall r' t', waiting_since (s_queue s1) r' t' -> (t' <= t)%Z -> In r' older) ->
  (forall e, In e tr2 -> (exists w, In w (s_reg (ev_post e)) /\ fits w r) /\
     forall r' t', waiting_since (s_queue (ev_post e)) r' t' -> waiting_since (s_queue (ev_pre e)) r' t' \/ (t < t')%Z) ->
  subseq served tr2 -> (forall e, In e served -> ends_job e = true /\ exists w, by_whom e = Some w /\ fits w r) ->
  length older <= length served ->
  exists e w, In e tr2 /\ handed_to w r e.
Proof.
  induction tr2 as [|e tr2 IH]; intros tr1 s1 s2 older served H1 H2 Hwait Hold Hall Hsub Hserved HL.
  - inversion Hsub; subst. destruct older; [destruct (Hold r t Hwait (Z.le_refl t))|simpl in HL; lia].
  - pose proof (run_post _ _ _ _ _ _ _ H2) as H3. destruct (run_split _ _ _ _ _ _ _ H2) as (H1' & Hstep).
    pose proof (run_fun _ _ _ _ _ H1 _ H1') as ->.
    assert (H2' : run o cfg KSingle ((tr1 ++ [e]) ++ tr2) s2) by (rewrite <- app_assoc; exact H2).
    destruct (Hall e (or_introl eq_refl)) as ((wf & Hwf & Hff) & Hnew).
    assert (Hall' : forall e', In e' tr2 -> (exists w, In w (s_reg (ev_post e')) /\ fits w r) /\
      forall r' t', waiting_since (s_queue (ev_post e')) r' t' -> waiting_since (s_queue (ev_pre e')) r' t' \/ (t < t')%Z)
      by (intros e' He'; apply Hall; right; exact He').
    destruct (event_waits _ _ _ H3) as (_ & HE). destruct (HE r t Hwait) as [Hpost|[(w & Hw)|Hno]];
      [|exists e, w; split; [left; reflexivity|exact Hw]|destruct (Hno wf Hwf Hff)].
    assert (Hlater : forall older' served', (forall r' t', waiting_since (s_queue (ev_post e)) r' t' -> (t' <= t)%Z -> In r' older') ->
      subseq served' tr2 -> (forall e', In e' served' -> ends_job e' = true /\ exists w, by_whom e' = Some w /\ fits w r) ->
      length older' <= length served' -> exists e' w, In e' (e :: tr2) /\ handed_to w r e').
    { intros older' served' A1 A2 A3 A4. destruct (IH _ _ _ older' served' H3 H2' Hpost A1 Hall' A2 A3 A4) as (e' & w & Hin & Hh).
      exists e', w. split; [right; exact Hin|exact Hh]. }
    assert (Hold' : forall r' t', waiting_since (s_queue (ev_post e)) r' t' -> (t' <= t)%Z -> In r' older).
    { intros r' t' Hw' Hle. destruct (Hnew r' t' Hw') as [Hw0|Hlt]; [exact (Hold r' t' Hw0 Hle)|lia]. }
    inversion Hsub as [? E1 E2|? served' ? Hsub' E1 E2|? ? ? Hsub' E1 E2]; subst.
    + apply (Hlater older []); [exact Hold'|constructor|intros ? []|exact HL].
    + destruct (Hserved e (or_introl eq_refl)) as (He & w & Hw & Hf). destruct (report_goes_on _ _ _ _ _ H3 He Hw) as (x & (HN & HO & HX & HT) & Hreg & Hout).
      pose proof (run_kind _ _ _ _ _ H1) as HK. simpl in HK. destruct (s_queue (ev_pre e)) as [q|q] eqn:Eq; [|contradiction]. simpl in HT.
      assert (Hqr : In r (queued (QSingle q))) by (simpl; apply in_map_iff; exists (mkEntry r t); auto).
      destruct x as [r0|]; [|exfalso; apply (HX eq_refl r); split; [exact Hqr|exact Hf]].
      destruct HT as (HT1 & HT2 & HT3). destruct (HT1 r0 eq_refl) as (t0 & Ht0 & Hmin). specialize (Hmin r t Hwait Hf).
      destruct (remove_covers older r0 (Hold r0 t0 Ht0 Hmin)) as (older' & Hlen & Hcov).
      apply (Hlater older' served'); [|exact Hsub'|intros e' He'; apply Hserved; right; exact He'|simpl in HL; lia].
      intros r' t' Hw' Hle. apply Hcov; [exact (Hold' r' t' Hw' Hle)|]. intros ->.
      pose proof (run_inv _ _ _ _ _ H1) as HI. pose proof (inv_nodup _ _ HI) as Hnd. rewrite app_nil_r, Eq in Hnd. unfold held in Hnd. rewrite map_app in Hnd.
      apply NoDup_app_r in Hnd. destruct HO as (HP & _). apply (Permutation_map r_id) in HP. apply (Permutation_NoDup HP) in Hnd. simpl in Hnd.
      inversion Hnd as [|? ? Hni _]; subst. apply Hni. apply in_map. destruct (s_queue (ev_post e)); [|contradiction]. simpl. apply in_map_iff. exists (mkEntry r0 t'). auto.
    + apply (Hlater older served); [exact Hold'|exact Hsub'|exact Hserved|exact HL].
Qed.

(* ---- a clock that never stands still keeps the queue sorted ---- *)

Definition earlier (a b : entry) : Prop := (e_arrived a < e_arrived b)%Z.
Definition in_order (m : manager) : Prop :=
  match m with QSingle q => StronglySorted earlier (sq_jobs q) /\ Forall (fun e => (e_arrived e < o_clock o (sq_clock q))%Z) (sq_jobs q) | QMulti _ => True end.

Lemma subseq_forall {A} (P : A -> Prop) l1 l2 : subseq l1 l2 -> Forall P l2 -> Forall P l1.
Proof. induction 1; intros HF; [constructor|inversion HF; subst; constructor; auto|inversion HF; subst; auto]. Qed.
Lemma subseq_sorted {A} (R : A -> A -> Prop) l1 l2 : subseq l1 l2 -> StronglySorted R l2 -> StronglySorted R l1.
Proof.
  induction 1 as [|a l1 l2 Hs IH|a l1 l2 Hs IH]; intros HS; [constructor| |]; inversion HS; subst; [|auto].
  constructor; [auto|]. eapply subseq_forall; eauto.
Qed.
Lemma subseq_refl {A} (l : list A) : subseq l l.
Proof. induction l; constructor; assumption. Qed.

Lemma sort_sorted_id tie l : StronglySorted earlier l -> sort_entries tie l = l.
Proof.
  induction l as [|e l IH]; intros HS; [reflexivity|]. inversion HS as [|? ? H1 H2]; subst. simpl. rewrite (IH H1).
  destruct l as [|x l]; [reflexivity|]. inversion H2; subst. simpl. unfold entry_le.
  match goal with H : earlier e x |- _ => unfold earlier in H; rewrite (proj2 (Z.ltb_lt _ _) H) end. reflexivity.
Qed.
Lemma take_first_sub w l : forall r rest, take_first w l = Val (Some (r, rest)) -> subseq rest l.
Proof.
  induction l as [|e l IH]; intros r rest H; simpl in H; [discriminate|]. destruct (check_headers w _) as [[|]|]; simpl in H; try discriminate.
  - injection H as _ <-. constructor. apply subseq_refl.
  - destruct (take_first w l) as [[(r1, rest1)|]|]; simpl in H; try discriminate. injection H as <- <-. constructor. eapply IH. reflexivity.
Qed.
Lemma split_jobs_kept ws l : forall kept gone, split_jobs ws l = Val (kept, gone) -> subseq kept l.
Proof.
  induction l as [|e l IH]; intros kept gone H; cbn [split_jobs] in H; [injection H as <- <-; constructor|].
  destruct (assignable (e_request e) ws) as [b|]; cbn in H; [|discriminate].
  destruct (split_jobs ws l) as [(kept1, gone1)|]; cbn in H; [|discriminate]. specialize (IH _ _ eq_refl). destruct b; injection H as <- <-; constructor; exact IH.
Qed.

Lemma in_order_sub q js wj ws n : in_order (QSingle q) -> subseq js (sq_jobs q) -> in_order (QSingle (mkSingle js wj ws (sq_clock q) n)).
Proof. intros (H1 & H2) Hs. split; simpl; [eapply subseq_sorted; eauto|eapply subseq_forall; eauto]. Qed.

Lemma assign_in_order w q x q' : in_order (QSingle q) -> single_assign o w q = Val (x, q') -> in_order (QSingle q').
Proof.
  intros HS E. unfold single_assign in E. rewrite (sort_sorted_id _ _ (proj1 HS)) in E.
  destruct (take_first w (sq_jobs q)) as [[(r, rest)|]|] eqn:Et; simpl in E; try discriminate; injection E as _ <-; apply (in_order_sub q); auto.
  - exact (take_first_sub _ _ _ _ Et).
  - apply subseq_refl.
Qed.

Lemma given_in_order log m ws : (forall n, (o_clock o n < o_clock o (S n))%Z) -> given o log m ws -> in_order m.
Proof.
  intros HT. induction 1 as [k|log m ws w cur x m' H IH Hc Hn Hr E|log m ws w x m' H IH Hw Hi E|log m ws w x m' H IH Hw E|log m ws r x m' w H IH Hr E Hw HP
    |log m ws r x m' H IH Hr E Ho|log m ws w x m' H IH Hw E|log m ws w x m' H IH Hw E|log m ws w x m' H IH Hw E].
  - destruct k; simpl; auto using SSorted_nil.
  - destruct m as [q|q]; simpl in E; unfold lift_single, lift_multi in E.
    + destruct (single_add_worker o w cur q) as [(y, q')|] eqn:Es; simpl in E; [|discriminate]. injection E as _ <-. unfold single_add_worker in Es. destruct cur.
      * injection Es as _ <-. apply (in_order_sub q); [exact IH|apply subseq_refl].
      * eapply assign_in_order; [|exact Es]. apply (in_order_sub q); [exact IH|apply subseq_refl].
    + destruct (multi_add_worker w cur q). injection E as _ <-. exact I.
  - destruct m as [q|q]; simpl in E; unfold lift_single, lift_multi in E.
    + destruct (single_assign o w q) as [(y, q')|] eqn:Es; simpl in E; [|discriminate]. injection E as _ <-. eapply assign_in_order; eauto.
    + destruct (multi_assign w q). injection E as _ <-. exact I.
  - destruct m as [q|q]; simpl in E; unfold lift_single, lift_multi in E.
    + unfold single_worker_terminated in E. destruct (pm_index None w _).
      destruct (split_jobs _ (sq_jobs q)) as [(kept, gone)|f] eqn:Es; simpl in E; [|discriminate]. injection E as _ <-.
      apply (in_order_sub q); [exact IH|exact (split_jobs_kept _ _ _ _ Es)].
    + destruct (multi_worker_terminated w q). injection E as _ <-. exact I.
  - revert E IH. clear - HT. intros E IH. destruct m as [q|q]; simpl in E; unfold lift_single, lift_multi in E.
    + unfold single_enqueue in E. destruct (select_idle r _) as [[w1|]|]; simpl in E; try discriminate.
      * injection E as _ <-. apply (in_order_sub q); [exact IH|apply subseq_refl].
      * destruct (assignable r _) as [[|]|]; simpl in E; try discriminate; injection E as _ <-; [|exact IH]. destruct IH as (I1 & I2). split; simpl.
        -- revert I1 I2. generalize (sq_jobs q) (o_clock o (sq_clock q)). induction l as [|e l IHl]; simpl; intros z I1 I2; [repeat constructor|].
           inversion I1; subst. inversion I2; subst. constructor; [auto|]. apply Forall_app. split; [assumption|]. constructor; [assumption|constructor].
        -- specialize (HT (sq_clock q)). apply Forall_app. split; [|constructor; [simpl; lia|constructor]]. eapply Forall_impl; [|exact I2]. simpl. intros; lia.
    + destruct (multi_enqueue r q) as [(y, q')|]; simpl in E; [|discriminate]. injection E as _ <-. exact I.
  - revert E IH. clear - HT. intros E IH. destruct m as [q|q]; simpl in E; unfold lift_single, lift_multi in E.
    + unfold single_enqueue in E. destruct (select_idle r _) as [[w1|]|]; simpl in E; try discriminate.
      * injection E as _ <-. apply (in_order_sub q); [exact IH|apply subseq_refl].
      * destruct (assignable r _) as [[|]|]; simpl in E; try discriminate; injection E as _ <-; [|exact IH]. destruct IH as (I1 & I2). split; simpl.
        -- revert I1 I2. generalize (sq_jobs q) (o_clock o (sq_clock q)). induction l as [|e l IHl]; simpl; intros z I1 I2; [repeat constructor|].
           inversion I1; subst. inversion I2; subst. constructor; [auto|]. apply Forall_app. split; [assumption|]. constructor; [assumption|constructor].
        -- specialize (HT (sq_clock q)). apply Forall_app. split; [|constructor; [simpl; lia|constructor]]. eapply Forall_impl; [|exact I2]. simpl. intros; lia.
    + destruct (multi_enqueue r q) as [(y, q')|]; simpl in E; [|discriminate]. injection E as _ <-. exact I.
  - destruct m as [q|q]; simpl in E; unfold lift_single, lift_multi, single_get_current, multi_get_current in E; destruct (pm_index _ _ _); injection E as _ <-; [|exact I].
    apply (in_order_sub q); [exact IH|apply subseq_refl].
  - destruct m as [q|q]; simpl in E; unfold lift_single, lift_multi, single_worker_finished in E.
    + destruct (single_assign o w _) as [(y, q')|] eqn:Es; simpl in E; [|discriminate]. injection E as _ <-. eapply assign_in_order; [|exact Es]. 
      first [exact IH | apply (in_order_sub q); [exact IH|apply subseq_refl]].
    + destruct (multi_worker_finished w q). injection E as _ <-. exact I.
  - destruct m as [q|q]; simpl in E; unfold lift_single, lift_multi, single_worker_cancelled, multi_worker_cancelled in E; destruct (pm_index _ _ _); injection E as _ <-; [|exact I].
    apply (in_order_sub q); [exact IH|apply subseq_refl].
Qed.

Lemma clock_later tr2 : forall tr1 s1 s2 e, run o cfg KSingle tr1 s1 -> run o cfg KSingle (tr1 ++ tr2) s2 -> In e tr2 ->
  clock_of (s_queue s1) <= clock_of (s_queue (ev_pre e)) /\ queue_step (s_queue (ev_pre e)) (s_queue (ev_post e)).
Proof.
  induction tr2 as [|e0 tr2 IH]; intros tr1 s1 s2 e H1 H2 Hin; [destruct Hin|].
  pose proof (run_post _ _ _ _ _ _ _ H2) as H3. destruct (run_split _ _ _ _ _ _ _ H2) as (H1' & _). pose proof (run_fun _ _ _ _ _ H1 _ H1') as ->.
  destruct (event_waits _ _ _ H3) as (HQ & _). destruct Hin as [->|Hin]; [split; [lia|exact HQ]|].
  destruct (IH (tr1 ++ [e0]) (ev_post e0) s2 e H3 ltac:(rewrite <- app_assoc; exact H2) Hin) as (H4 & H5). destruct HQ as (HQ & _). split; [lia|exact H5].
Qed.

Lemma clock_increasing : (forall n, (o_clock o n < o_clock o (S n))%Z) -> forall n m, n <= m -> (o_clock o n <= o_clock o m)%Z.
Proof. intros HT n m. induction 1 as [|m _ IH]; [lia|]. specialize (HT m). lia. Qed.

Theorem single_wait_clock r tr1 tr2 s1 s2 before after served : (forall n, (o_clock o n < o_clock o (S n))%Z) ->
  run o cfg KSingle tr1 s1 -> run o cfg KSingle (tr1 ++ tr2) s2 ->
  queued (s_queue s1) = before ++ r :: after ->
  (forall e, In e tr2 -> exists w, In w (s_reg (ev_post e)) /\ fits w r) ->
  subseq served tr2 -> (forall e, In e served -> ends_job e = true /\ exists w, by_whom e = Some w /\ fits w r) ->
  length before < length served ->
  exists e w, In e tr2 /\ handed_to w r e.
Proof.
  intros HT H1 H2 HQ Hall Hsub Hserved HL. destruct (run_used o cfg _ _ _ H1) as (log & HG). apply (given_in_order _ _ _ HT) in HG.
  pose proof (run_kind _ _ _ _ _ H1) as HK. simpl in HK. pose proof (clock_later tr2 tr1 s1 s2) as HC. destruct (s_queue s1) as [q|q] eqn:Eq; [|contradiction]. simpl in HQ.
  apply map_eq_app in HQ. destruct HQ as (b & a & Ej & Eb & Ea). destruct a as [|[r0 t] a]; [discriminate|]. simpl in Ea. injection Ea as -> Ea.
  destruct HG as (HS & HF). rewrite Ej in HS, HF.
  assert (Ht : (t < o_clock o (sq_clock q))%Z).
  { rewrite Forall_forall in HF. apply (HF (mkEntry r t)). apply in_or_app. right. left. reflexivity. }
  apply (single_wait r t tr2 tr1 s1 s2 (before ++ [r]) served H1 H2).
  - rewrite Eq. simpl. rewrite Ej. apply in_or_app. right. left. reflexivity.
  - intros r' t' Hw Hle. rewrite Eq in Hw. simpl in Hw. rewrite Ej in Hw. apply in_app_iff in Hw. apply in_or_app. destruct Hw as [Hw|[[= -> _]|Hw]].
    + left. rewrite <- Eb. apply in_map_iff. exists (mkEntry r' t'). auto.
    + right. left. reflexivity.
    + exfalso. clear - HS Hw Hle. induction b as [|e b IH]; simpl in HS; inversion HS as [|? ? H1 H2]; subst; [|auto].
      rewrite Forall_forall in H2. specialize (H2 _ Hw). unfold earlier in H2. simpl in H2. lia.
  - intros e He. split; [apply Hall; exact He|]. intros r' t' Hw. destruct (HC e H1 H2 He) as (Hle & _ & HN).
    destruct (HN r' t' Hw) as [Hw'|(n & Hn & ->)]; [auto|]. right. simpl in Hle. pose proof (clock_increasing HT (sq_clock q) n ltac:(lia)). lia.
  - exact Hsub.
  - exact Hserved.
  - rewrite app_length. simpl. lia.
Qed.

End WithConfig.
