(* Every processed message is a sequence of atoms. *)
From Verif Require Import Base Bytes Containers Worker Multi Single Queue Handler Spec Facts QueueInv Atoms.
Local Open Scope string_scope.
Local Open Scope list_scope.

(* ---- inversion of monadic code that returned normally ---- *)

Lemma bind_inv {A B} (m : M A) (k : A -> M B) s outs b s' :
  bind m k s = (outs, inr (b, s')) ->
  exists o1 a s1 o2, m s = (o1, inr (a, s1)) /\ k a s1 = (o2, inr (b, s')) /\ outs = o1 ++ o2.
Proof.
  unfold bind. destruct (m s) as (o1, [f|(a, s1)]); [discriminate|].
  destruct (k a s1) as (o2, r) eqn:E. intros [= <- ->]. eauto 10.
Qed.

Lemma ret_inv {A} (a : A) s outs b s' : ret a s = (outs, inr (b, s')) -> outs = [] /\ b = a /\ s' = s.
Proof. unfold ret. intros [= <- <- <-]. auto. Qed.
Lemma get_inv s outs b s' : get s = (outs, inr (b, s')) -> outs = [] /\ b = s /\ s' = s.
Proof. unfold get. intros [= <- <- <-]. auto. Qed.
Lemma modify_inv f s outs b s' : modify f s = (outs, inr (b, s')) -> outs = [] /\ b = tt /\ s' = f s.
Proof. unfold modify. intros [= <- <- <-]. auto. Qed.
Lemma respond_inv m s outs b s' : respond m s = (outs, inr (b, s')) -> outs = [m] /\ b = tt /\ s' = s.
Proof. unfold respond. intros [= <- <- <-]. auto. Qed.
Lemma fail_inv {A} f s outs (b : A) s' : fail f s = (outs, inr (b, s')) -> False.
Proof. discriminate. Qed.
Lemma lift_inv {A} (x : res A) s outs b s' : lift x s = (outs, inr (b, s')) -> outs = [] /\ x = Val b /\ s' = s.
Proof. destruct x; simpl; [|discriminate]. unfold ret. intros [= <- <- <-]. auto. Qed.
Lemma at_inv v i s outs b s' : at_ v i s = (outs, inr (b, s')) -> outs = [] /\ nth_error v i = Some b /\ s' = s.
Proof. unfold at_. destruct (nth_error v i); [|discriminate]. unfold ret. intros [= <- <- <-]. auto. Qed.
Lemma queue_call_inv {A} (f : manager -> res (A * manager)) s outs b s' :
  queue_call f s = (outs, inr (b, s')) ->
  exists m, outs = [] /\ f (s_queue s) = Val (b, m) /\ s' = set_queue m s.
Proof.
  unfold queue_call. destruct (f (s_queue s)) as [(a, m)|e]; [|discriminate].
  intros [= <- <- <-]. eauto.
Qed.

Ltac minv1 H :=
  match type of H with
  | bind _ _ _ = (_, inr _) =>
      let o1 := fresh "o" in let a := fresh "x" in let s1 := fresh "s" in let o2 := fresh "o" in
      let H1 := fresh "Hm" in let H2 := fresh "Hk" in let E := fresh "Eo" in
      apply bind_inv in H; destruct H as (o1 & a & s1 & o2 & H1 & H2 & E); subst
  | ret _ _ = _ => apply ret_inv in H; destruct H as (? & ? & ?); subst
  | get _ = _ => apply get_inv in H; destruct H as (? & ? & ?); subst
  | modify _ _ = _ => apply modify_inv in H; destruct H as (? & ? & ?); subst
  | respond _ _ = _ => apply respond_inv in H; destruct H as (? & ? & ?); subst
  | fail _ _ = _ => destruct (fail_inv _ _ _ _ _ H)
  | lift _ _ = _ => let E := fresh "El" in apply lift_inv in H; destruct H as (? & E & ?); subst
  | at_ _ _ _ = _ => let E := fresh "Ea" in apply at_inv in H; destruct H as (? & E & ?); subst
  | queue_call _ _ = _ =>
      let m := fresh "m" in let E := fresh "Eq" in
      apply queue_call_inv in H; destruct H as (m & ? & E & ?); subst
  end.
Ltac minv :=
  repeat match goal with
  | H : bind _ _ _ = (_, inr _) |- _ => minv1 H; cbv beta zeta in *
  | H : ret _ _ = (_, inr _) |- _ => minv1 H
  | H : get _ = (_, inr _) |- _ => minv1 H
  | H : modify _ _ = (_, inr _) |- _ => minv1 H
  | H : respond _ _ = (_, inr _) |- _ => minv1 H
  | H : fail _ _ = (_, inr _) |- _ => minv1 H
  | H : lift _ _ = (_, inr _) |- _ => minv1 H
  | H : at_ _ _ _ = (_, inr _) |- _ => minv1 H
  | H : queue_call _ _ = (_, inr _) |- _ => minv1 H
  end.

Ltac units := repeat match goal with u : unit |- _ => destruct u end.

Lemma set_queue_id s : set_queue (s_queue s) s = s.
Proof. destruct s; reflexivity. Qed.
Lemma set_queue_queue m s : s_queue (set_queue m s) = m.
Proof. reflexivity. Qed.

(* ---- messages ---- *)

Lemma list_string_eqb_eq a b : list_string_eqb a b = true <-> a = b.
Proof.
  unfold list_string_eqb. revert b. induction a as [|x a IH]; intros [|y b]; simpl; split; intros H;
    try discriminate; try reflexivity.
  - apply andb_true_iff in H. destruct H as (H1 & H2). apply andb_true_iff in H2. destruct H2 as (H2 & H3).
    apply String.eqb_eq in H2. subst y. f_equal. apply IH. rewrite H1. exact H3.
  - injection H as <- <-. rewrite String.eqb_refl. specialize (proj2 (IH a) eq_refl). intros HH.
    apply andb_true_iff in HH. destruct HH as (H1 & H2). rewrite H1. simpl. exact H2.
Qed.

Lemma starts_with_iff pre l : starts_with pre l = true <-> exists rest, l = pre ++ rest.
Proof.
  unfold starts_with. rewrite list_string_eqb_eq. split.
  - intros E. exists (skipn (length pre) l). rewrite <- E at 1. symmetry. apply firstn_skipn.
  - intros (rest & ->). rewrite firstn_app, firstn_all, Nat.sub_diag. simpl. apply app_nil_r.
Qed.

Lemma neutral_key k i d : k <> "status_notifier" -> k <> "workers" -> neutral (Msg k i d).
Proof.
  intros H1 H2. unfold neutral, is_report, is_dispatch. simpl.
  rewrite (proj2 (String.eqb_neq _ _) H1), (proj2 (String.eqb_neq _ _) H2). simpl.
  split; [auto|]. split; [auto|]. intros ->. congruence.
Qed.

Lemma neutral_worker i c : c <> "eval" -> neutral (Msg "workers" i [c]).
Proof.
  intros H. unfold neutral, is_report, is_dispatch. simpl. split; [auto|]. split; [|split; [discriminate|congruence]].
  intros j. destruct (starts_with ["eval"; j] [c]) eqn:E; [|reflexivity].
  apply starts_with_iff in E. destruct E as (rest & E). simpl in E. discriminate.
Qed.

Lemma neutral_error d : neutral (Msg "status_notifier" "" ["type"; "error"; "message"; d]).
Proof.
  unfold neutral, is_report, is_dispatch. simpl. split; [auto|]. split; [auto|discriminate].
Qed.

Ltac outs_tac :=
  unfold outs_all in *; subst; repeat (rewrite ?flat_map_app; simpl); rewrite ?app_nil_r, <- ?app_assoc; simpl;
  first [reflexivity | congruence].

Definition timer_label (l : label) : Prop :=
  match l with
  | LTau | LEnqueue _ _ | LReport _ _ | LExpire _ _ => True
  | LMsg m => String.eqb (m_key m) "workers" = false
  | _ => False
  end.

Definition redo_label (l : label) : Prop :=
  match l with
  | LTau | LEnqueue _ _ | LReport _ _ => True
  | LMsg m => String.eqb (m_key m) "workers" = false
  | _ => False
  end.
Lemma redo_timer l : redo_label l -> timer_label l.
Proof. destruct l; simpl; tauto. Qed.

Section WithConfig.
Context (o : oracle) (cfg : config).

Local Notation atoms := (atoms o cfg).
Local Notation atom := (atom o cfg).

Lemma report_rejected j d : report_for j (Msg KEY_STATUS_NOTIFIER ""
    ["type"; "job-status"; "id"; j; "status"; "FAILED"; "message"; d]).
Proof. split; [reflexivity|]. split; [reflexivity|]. eexists. reflexivity. Qed.
Lemma report_done j : report_for j (Msg KEY_STATUS_NOTIFIER "" ["type"; "job-status"; "id"; j; "status"; "OK"]).
Proof. split; [reflexivity|]. split; [reflexivity|]. eexists. reflexivity. Qed.
Lemma neutral_monitor d : neutral (Msg KEY_MONITOR MONITOR_IDENTITY d).
Proof. apply neutral_key; discriminate. Qed.

(* ---- reassign_request and check_failure_count with the request in hand ---- *)

Lemma check_failure_count_sim r text s h outs b s' :
  check_failure_count cfg r text s = (outs, inr (b, s')) ->
  s' = s /\
  (if b then outs = [] /\ (failures r s < c_max_failures cfg)%N
   else exists d, outs = [Msg KEY_STATUS_NOTIFIER "" ["type"; "job-status"; "id"; r_job r; "status"; "FAILED"; "message"; d];
                          Msg KEY_MONITOR MONITOR_IDENTITY [r_job r; "FAILED"]] /\
        (c_max_failures cfg <= failures r s)%N) /\
  exists ls, atoms s (r :: h) ls s (if b then r :: h else h) /\ outs_all ls = outs /\ Forall redo_label ls.
Proof.
  unfold check_failure_count, job_failed, notify_monitor. intros H. minv1 H. minv1 Hm.
  destruct (N.leb_spec (c_max_failures cfg) (failures r s)) as [Hle|Hlt]; minv; simpl.
  - split; [reflexivity|]. split; [eexists; split; [reflexivity|exact Hle]|].
    exists [LReport r (Msg KEY_STATUS_NOTIFIER "" ["type"; "job-status"; "id"; r_job r; "status"; "FAILED"; "message";
       "Job was reassigned too many (" ++ to_string_N (size_pred (failures r s)) ++
      ") times. Last failure message was: " ++ text])%string;
       LMsg (Msg KEY_MONITOR MONITOR_IDENTITY [r_job r; "FAILED"])].
    split; [|split; [reflexivity|repeat constructor]].
    econstructor; [apply a_report; apply report_rejected|]. apply atoms_one. apply a_msg. apply neutral_monitor.
  - split; [reflexivity|]. split; [auto|]. exists []. split; [constructor|split; [reflexivity|constructor]].
Qed.

Lemma reassign_sim r s h outs b s' :
  inv s (r :: h) -> r_complete r = true ->
  (failures r s < c_max_failures cfg)%N \/ failures r s = 0%N ->
  reassign_request o r s = (outs, inr (b, s')) ->
  exists ls, atoms s (r :: h) ls s' (if b then h else r :: h) /\ outs_all ls = outs /\ Forall redo_label ls.
Proof.
  intros HI Hc Hf H. unfold reassign_request in H. minv1 H. minv1 Hm.
  destruct x as [x b0]. pose proof (q_enqueue_spec o _ _ _ _ _ (inv_q _ _ HI) Hc Eq) as (_ & HE).
  destruct b0; simpl in Hk.
  - destruct x as [w|]; unfold send_request in Hk; minv.
    + exists [LEnqueue r (Some w)]. split; [|split; [reflexivity|repeat constructor]].
      apply atoms_one. apply a_enqueue; assumption.
    + exists [LEnqueue r None]. split; [|split; [reflexivity|repeat constructor]].
      apply atoms_one. apply a_enqueue; assumption.
  - destruct x as [w|]; [destruct HE|]. destruct HE as (-> & _). unfold notify_monitor in Hk. minv.
    rewrite set_queue_id. exists [LMsg (Msg KEY_MONITOR MONITOR_IDENTITY [r_job r; "FAILED"])].
    split; [|split; [reflexivity|repeat constructor]]. apply atoms_one. apply a_msg. apply neutral_monitor.
Qed.

Lemma expire_requests_sim rs : forall s h outs un s',
  inv s (rs ++ h) ->
  expire_requests o cfg rs s = (outs, inr (un, s')) ->
  exists ls, atoms s (rs ++ h) ls s' (un ++ h) /\ outs_all ls = outs /\ Forall redo_label ls.
Proof.
  induction rs as [|r rs IH]; simpl; intros s h outs un s' HI H.
  - minv. exists []. split; [constructor|split; [reflexivity|constructor]].
  - destruct (r_complete r) eqn:Hc; simpl in H.
    + minv1 H. destruct (check_failure_count_sim _ _ _ (rs ++ h) _ _ _ Hm) as (-> & Hb & ls1 & A1 & O1 & F1).
      pose proof (atoms_inv _ _ _ _ _ _ _ A1 HI) as HI1.
      destruct x; simpl in Hk.
      * destruct Hb as (_ & Hlt). minv1 Hk.
        destruct (reassign_sim r s (rs ++ h) _ _ _ HI1 Hc (or_introl Hlt) Hm0) as (ls2 & A2 & O2 & F2).
        pose proof (atoms_inv _ _ _ _ _ _ _ A2 HI1) as HI2.
        destruct x; simpl in Hk0.
        -- unfold notify_monitor in Hk0. minv1 Hk0. minv1 Hm1.
           destruct (IH _ _ _ _ _ HI2 Hk) as (ls3 & A3 & O3 & F3).
           exists (ls1 ++ ls2 ++ [LMsg (Msg KEY_MONITOR MONITOR_IDENTITY [r_job r; "ABORTED"])] ++ ls3).
           split; [|split].
           ++ eapply atoms_app; [exact A1|]. eapply atoms_app; [exact A2|]. eapply atoms_app; [|exact A3].
              apply atoms_one. apply a_msg. apply neutral_monitor.
           ++ outs_tac.
           ++ rewrite !Forall_app. repeat split; auto; repeat constructor.
        -- minv1 Hk0.
           assert (Pr : Permutation (r :: rs ++ h) (rs ++ r :: h)) by apply Permutation_middle.
           assert (HI3 : inv s0 (rs ++ r :: h)).
           { eapply (atom_inv o cfg); [exact HI2|]. apply a_perm. exact Pr. }
           destruct (IH _ _ _ _ _ HI3 Hm1) as (ls3 & A3 & O3 & F3). minv.
           exists (ls1 ++ ls2 ++ [LTau] ++ ls3 ++ [LTau]).
           split; [|split].
           ++ eapply atoms_app; [exact A1|]. eapply atoms_app; [exact A2|].
              eapply atoms_app; [apply atoms_one; apply a_perm; exact Pr|].
              eapply atoms_app; [exact A3|]. apply atoms_one. apply a_perm. simpl. symmetry. apply Permutation_middle.
           ++ outs_tac.
           ++ rewrite !Forall_app. repeat split; auto; repeat constructor.
      * destruct (IH _ _ _ _ _ HI1 Hk) as (ls3 & A3 & O3 & F3).
        exists (ls1 ++ ls3). split; [|split].
        -- eapply atoms_app; eauto.
        -- outs_tac.
        -- rewrite Forall_app. auto.
    + unfold rejected_job, notify_monitor in H. minv1 H. minv1 Hm. minv1 Hk. minv1 Hm.
      assert (A1 : atoms s (r :: rs ++ h) [LReport r (Msg KEY_STATUS_NOTIFIER "" ["type"; "job-status"; "id"; r_job r;
                "status"; "FAILED"; "message"; failure_msg]); LMsg (Msg KEY_MONITOR MONITOR_IDENTITY [r_job r; "FAILED"])] s (rs ++ h)).
      { econstructor; [apply a_report; apply report_rejected|]. apply atoms_one. apply a_msg. apply neutral_monitor. }
      pose proof (atoms_inv _ _ _ _ _ _ _ A1 HI) as HI1.
      destruct (IH _ _ _ _ _ HI1 Hk0) as (ls3 & A3 & O3 & F3).
      eexists. split; [eapply atoms_app; [exact A1|exact A3]|]. split.
      * outs_tac.
      * repeat constructor. exact F3.
Qed.

Lemma reject_all_sim d rs : forall s h outs s',
  reject_all d rs s = (outs, inr (tt, s')) ->
  s' = s /\ exists ls, atoms s (rs ++ h) ls s h /\ outs_all ls = outs /\ Forall redo_label ls.
Proof.
  induction rs as [|r rs IH]; simpl; intros s h outs s' H.
  - minv. split; [reflexivity|]. exists []. split; [constructor|split; [reflexivity|constructor]].
  - unfold rejected_job in H. minv1 H. minv1 Hm. destruct (IH _ h _ _ Hk) as (-> & ls & A & O & F).
    split; [reflexivity|].
    exists (LReport r (Msg KEY_STATUS_NOTIFIER "" ["type"; "job-status"; "id"; r_job r; "status"; "FAILED"; "message"; d]) :: ls).
    split; [|split].
    + econstructor; [apply a_report; apply report_rejected|exact A].
    + outs_tac.
    + constructor; [exact I|exact F].
Qed.

Lemma redo_reg s h ls s' h' : atoms s h ls s' h' -> Forall redo_label ls -> s_reg s' = s_reg s.
Proof.
  induction 1 as [|s h l s1 h1 ls s2 h2 Ha Has IHa]; intros F; [reflexivity|].
  inversion F; subst. rewrite IHa; auto. destruct Ha; simpl in *; auto; try tauto.
  unfold core in H. injection H as <- _ _ _ _. reflexivity.
Qed.

Lemma expire_workers_sim ws : forall s outs s',
  inv s [] -> NoDup (ids ws) -> incl ws (s_reg s) ->
  expire_workers o cfg ws s = (outs, inr (tt, s')) ->
  exists ls, atoms s [] ls s' [] /\ outs_all ls = outs /\ Forall timer_label ls.
Proof.
  induction ws as [|w ws IH]; simpl; intros s outs s' HI Hnd Hincl H.
  - minv. exists []. split; [constructor|split; [reflexivity|constructor]].
  - assert (Hin : In w (s_reg s)) by (apply Hincl; simpl; auto).
    minv1 H. minv1 Hm. minv1 Hk. minv1 Hm. simpl in Eq.
    rewrite (q_get_current_spec _ _ _ (inv_q _ _ HI) Hin) in Eq. injection Eq as <- <-.
    minv1 Hk0. minv1 Hk. minv1 Hm0.
    assert (Es : s0 = incr_opt (current_of (s_queue s) w) (set_reg (reg_remove w (s_reg s)) s) /\ o0 = []).
    { destruct (current_of (s_queue s) w); unfold failures_incr in Hm; minv; auto.
 }
    clear Hm. destruct Es as (-> & ->).
    assert (Eq' : q_worker_terminated w (s_queue s) = Val (x0, m)).
    { destruct (current_of (s_queue s) w); exact Eq. }
    clear Eq.
    set (s1 := set_queue m (incr_opt (current_of (s_queue s) w) (set_reg (reg_remove w (s_reg s)) s))) in *.
    assert (A1 : atom s [] (LExpire w x0) s1 (x0 ++ [])) by (apply a_expire; assumption).
    pose proof (atom_inv _ _ _ _ _ _ _ HI A1) as HI1.
    minv1 Hk0. destruct (expire_requests_sim _ _ _ _ _ _ HI1 Hm) as (ls2 & A2 & O2 & F2).
    minv1 Hk. destruct x2. destruct (reject_all_sim _ _ _ [] _ _ Hm0) as (-> & ls3 & A3 & O3 & F3).
    pose proof (atoms_inv _ _ _ _ _ _ _ A2 HI1) as HI2. pose proof (atoms_inv _ _ _ _ _ _ _ A3 HI2) as HI3.
    inversion Hnd as [|? ? Hni Hnd']; subst.
    assert (Hreg : s_reg s0 = reg_remove w (s_reg s)).
    { rewrite (redo_reg _ _ _ _ _ A2 F2). unfold s1. destruct (current_of (s_queue s) w); reflexivity. }
    destruct (IH s0 o3 s' HI3 Hnd') as (ls4 & A4 & O4 & F4).
    { intros w' Hw'. rewrite Hreg. apply reg_remove_in; [apply (qi_nodup _ _ (inv_q _ _ HI))|exact Hin|].
      split; [apply Hincl; simpl; auto|]. intros ->. apply Hni. apply in_ids. exact Hw'. }
    { exact Hk0. }
    exists ([LExpire w x0] ++ ls2 ++ ls3 ++ ls4). split; [|split].
    + eapply atoms_app; [apply atoms_one; exact A1|]. eapply atoms_app; [exact A2|].
      eapply atoms_app; [exact A3|exact A4].
    + outs_tac.
    + rewrite !Forall_app. repeat split; auto.
      * repeat constructor.
      * eapply Forall_impl; [|exact F2]. apply redo_timer.
      * eapply Forall_impl; [|exact F3]. apply redo_timer.
Qed.

Lemma timer_scan_core time ws : forall s outs rm s',
  timer_scan cfg time ws s = (outs, inr (rm, s')) ->
  outs = [] /\ core s = core s' /\ incl rm ws /\ (NoDup (ids ws) -> NoDup (ids rm)).
Proof.
  induction ws as [|w ws IH]; simpl; intros s outs rm s' H.
  - minv. repeat split; auto; try apply incl_refl.
  - minv1 H. minv1 Hm. destruct (in_i64 _); simpl in Hk; [|discriminate].
    destruct (Z.ltb _ _) in Hk.
    + minv1 Hk. minv1 Hm. minv1 Hk0. minv1 Hm. minv1 Hk.
      destruct (IH _ _ _ _ Hm) as (-> & HC & Hi & Hn). minv1 Hk0. simpl.
      split; [reflexivity|]. split; [exact HC|].
      destruct (N.leb _ _); (split; [|intros HN; inversion HN; subst; auto]).
      * intros y [<-|Hy]; simpl; auto.
      * simpl. constructor; auto. intros Hc. apply H1. apply in_ids_inv in Hc. destruct Hc as (w' & Hw' & <-).
        apply in_ids. auto.
      * intros y Hy; simpl; auto.
    + minv1 Hk. minv1 Hm. destruct (IH _ _ _ _ Hk0) as (-> & HC & Hi & Hn).
      split; [reflexivity|]. split; [exact HC|]. split; [intros y Hy; simpl; auto|].
      intros HN; inversion HN; subst; auto.
Qed.

Lemma count_idle_core ws : forall s outs s',
  inv s [] -> incl ws (s_reg s) ->
  count_idle ws s = (outs, inr (tt, s')) -> outs = [] /\ core s = core s'.
Proof.
  induction ws as [|w ws IH]; simpl; intros s outs s' HI Hincl H.
  - minv. auto.
  - minv1 H. minv1 Hm.
    rewrite (q_get_current_spec _ _ _ (inv_q _ _ HI)) in Eq by (apply Hincl; simpl; auto).
    injection Eq as <- <-. rewrite set_queue_id in Hk. minv1 Hk.
    assert (E : o0 = [] /\ core s = core s0).
    { destruct (current_of (s_queue s) w); unfold stat_incr in Hm; minv; auto. }
    destruct E as (-> & E).
    assert (HI' : inv s0 []).
    { eapply (atom_inv o cfg); [exact HI|]. apply a_tau. exact E. }
    destruct (IH _ _ _ HI' ltac:(unfold core in E; injection E as E _ _ _ _; rewrite <- E; intros y Hy; apply Hincl; simpl; auto) Hk0)
      as (-> & E'). split; [reflexivity|congruence].
Qed.

Lemma process_timer_sim message s outs s' :
  inv s [] -> process_timer o cfg message s = (outs, inr (tt, s')) ->
  exists ls, atoms s [] ls s' [] /\ outs_all ls = outs /\ Forall timer_label ls.
Proof.
  intros HI H. unfold process_timer in H. destruct (m_data message) as [|front rest]; [discriminate|].
  minv1 H. minv1 Hm. minv1 Hk. minv1 Hm. minv1 Hk0.
  destruct (timer_scan_core _ _ _ _ _ _ Hm) as (-> & HC & Hi & Hn).
  minv1 Hk. rename Hm0 into He. rename Hk0 into Hk.
  assert (HI1 : inv s0 []) by (eapply (atom_inv o cfg); [exact HI|apply a_tau; exact HC]).
  destruct x1.
  destruct (expire_workers_sim x0 s0 o0 s1 HI1) as (ls & A & O & F); [ | |exact He|].
  { apply Hn. apply (qi_nodup _ _ (inv_q _ _ HI)). }
  { unfold core in HC. injection HC as HC _ _ _ _. rewrite <- HC. exact Hi. }
  pose proof (atoms_inv _ _ _ _ _ _ _ A HI1) as HI2.
  unfold stat_set in Hk. minv. units.
  assert (HI3 : forall f, inv (set_stats f s1) []).
  { intros f. eapply (atom_inv o cfg); [exact HI2|]. apply a_tau. reflexivity. }
  match goal with HH : count_idle _ ?st = _ |- _ =>
    destruct (count_idle_core _ st _ _ ltac:(apply HI3) ltac:(apply incl_refl) HH) as (-> & HC2) end.
  exists ([LTau] ++ ls ++ [LTau]). split; [|split].
  - eapply atoms_app; [apply atoms_one; apply a_tau; exact HC|]. eapply atoms_app; [exact A|].
    apply atoms_one. apply a_tau. unfold core in *. simpl in *. exact HC2.
  - outs_tac.
  - rewrite !Forall_app. repeat split; auto; repeat constructor.
Qed.


(* ---- init ---- *)

Lemma parse_init_extra_spec fr : forall desc cur next d cur' next',
  parse_init_extra fr desc cur next = (d, cur', next') ->
  next <= next' /\
  (forall r, cur' = Some r -> cur = Some r \/ (r = incomplete_request (r_id r) (r_job r) /\ next <= r_id r < next')) /\
  option_map r_job cur' =
    fold_left (fun acc f => if String.eqb (fst (split_header f)) "current_job"
                            then Some (snd (split_header f)) else acc) fr (option_map r_job cur).
Proof.
  induction fr as [|f fr IH]; simpl; intros desc cur next d cur' next' H.
  - injection H as <- <- <-. auto.
  - destruct (split_header f) as (k, v) eqn:E. simpl.
    destruct (String.eqb_spec k "description") as [->|Hd].
    + apply IH in H. exact H.
    + destruct (String.eqb_spec k "current_job") as [->|Hc].
      * apply IH in H. destruct H as (H1 & H2 & H3). split; [lia|]. split.
        -- intros r Hr. right. destruct (H2 r Hr) as [Hr'|(Hr' & Hb)].
           ++ injection Hr' as <-. simpl. split; [reflexivity|lia].
           ++ split; [exact Hr'|lia].
        -- exact H3.
      * apply IH in H. exact H.
Qed.

Lemma parse_init_headers_rest fr : forall hs hs' rest,
  parse_init_headers fr hs = (hs', rest) ->
  rest = [] /\ after_empty fr = [] \/ rest = "" :: after_empty fr.
Proof.
  induction fr as [|f fr IH]; simpl; intros hs hs' rest H.
  - injection H as <- <-. auto.
  - destruct (String.eqb_spec f "") as [->|Hf].
    + injection H as <- <-. auto.
    + destruct (split_header f) as (k, v). apply IH in H. exact H.
Qed.

Lemma announced_spec fr hs hs' rest desc next d cur next' :
  parse_init_headers fr hs = (hs', rest) ->
  parse_init_extra rest desc None next = (d, cur, next') ->
  option_map r_job cur =
    fold_left (fun acc f => if String.eqb (fst (split_header f)) "current_job"
                            then Some (snd (split_header f)) else acc) (after_empty fr) None.
Proof.
  intros H1 H2. apply parse_init_extra_spec in H2. destruct H2 as (_ & _ & ->).
  apply parse_init_headers_rest in H1. destruct H1 as [(-> & ->)| ->]; reflexivity.
Qed.

(* the worker an init message describes *)
Inductive registers (identity : string) (message : list string) (s : state)
    (w : worker) (cur : option request) (next : nat) : Prop :=
| mkRegisters : forall hwgroup headers rest w0 desc,
    nth_error message 1 = Some hwgroup ->
    parse_init_headers (skipn 2 message) [] = (headers, rest) ->
    make_worker (s_next_w s) (o_addr o (s_next_w s)) identity hwgroup headers = Val w0 ->
    parse_init_extra rest "" None (s_next_r s) = (desc, cur, next) ->
    w = set_description desc w0 ->
    match find_worker_by_identity identity (s_reg s) with
    | Some w' => headers_equal w' headers = false
    | None => True
    end ->
    registers identity message s w cur next.

Definition quiet (l : label) : Prop := match l with LTau | LMsg _ => True | _ => False end.

(* nothing, or the notification about two different inits *)
Definition only_error (outs : list msg) : Prop :=
  outs = [] \/ exists d, outs = [Msg KEY_STATUS_NOTIFIER "" ["type"; "error"; "message"; d]].

Lemma make_worker_fields wid a i h hs w0 : make_worker wid a i h hs = Val w0 ->
  w_id w0 = wid /\ w_addr w0 = a /\ w_identity w0 = i /\ w_hwgroup w0 = h /\ w_headers_copy w0 = hs /\
  make_matchers hs (mm_emplace "hwgroup" (MMulti h) []) = Val (w_headers w0).
Proof.
  unfold make_worker. destruct (make_matchers _ _) eqn:E; simpl; [|discriminate].
  intros [= <-]. simpl. auto 10.
Qed.

Lemma init_sim identity message s outs s' :
  inv s [] -> process_worker_init o identity message s = (outs, inr (tt, s')) ->
  exists ls, atoms s [] ls s' [] /\ outs_all ls = outs /\
    ((ls = [] /\ s' = s) \/
     exists pre w cur x next, ls = pre ++ [LRegister w cur x] /\ Forall quiet pre /\
        registers identity message s w cur next /\ only_error (outs_all pre)).
Proof.
  intros HI H. unfold process_worker_init in H.
  destruct (Nat.ltb_spec (length message) 2) as [Hl|Hl].
  { minv. exists []. split; [constructor|]. auto. }
  minv1 H. minv1 Hm. destruct (parse_init_headers (skipn 2 message) []) as (headers, rest) eqn:Ep.
  minv1 Hk. minv1 Hm.
  set (register := bind _ _) in Hk0.
  assert (Hreg : forall o1, register s = (o1, inr (tt, s')) ->
            match find_worker_by_identity identity (s_reg s) with
            | Some w' => headers_equal w' headers = false
            | None => True
            end ->
            exists w cur y next, atoms s [] [LRegister w cur y] s' [] /\ outs_all [LRegister w cur y] = o1 /\
               registers identity message s w cur next).
  { clear Hk0. intros o1 Hr Hnew. unfold register in Hr. minv1 Hr. minv1 Hm.
    minv1 Hk. minv1 Hm. destruct (parse_init_extra rest "" None (s_next_r s)) as ((desc, cur), next) eqn:Ee.
    minv1 Hk0. minv1 Hm. minv1 Hk. minv1 Hm. minv1 Hk0. minv1 Hm. simpl in Eq. minv1 Hk. minv1 Hk0.
    destruct (make_worker_fields _ _ _ _ _ _ El) as (Ew1 & Ew2 & Ew3 & _).
    assert (HA : atom s [] (LRegister (set_description desc x0) cur x1)
              (set_timers (pm_emplace (set_description desc x0) 0%Z (s_timers s0)) s0) []).
    { pose proof (parse_init_extra_spec _ _ _ _ _ _ _ Ee) as (Hn & Hc & _).
      eapply a_register; simpl.
      - exact Ew1.
      - exists x, headers, x0. rewrite Ew3. split; [exact El|reflexivity].
      - exact Hn.
      - intros r Hr. destruct (Hc r Hr) as [?|(E & Hb)]; [discriminate|]. rewrite E. simpl. auto.
      - exact Eq.
      - unfold send_if, send_request in Hm. destruct x1; minv; reflexivity. }
    exists (set_description desc x0), cur, x1, next. split; [apply atoms_one; exact HA|]. split.
    - unfold send_if, send_request in Hm. destruct x1; minv; reflexivity.
    - econstructor; eauto. }
  destruct (find_worker_by_identity identity (s_reg s)) as [cw|] eqn:Ef.
  - destruct (headers_equal cw headers) eqn:Eh.
    + minv. exists []. split; [constructor|]. auto.
    + unfold notify_error in Hk0. minv1 Hk0. minv1 Hm.
      destruct (Hreg _ Hk eq_refl) as (w & cur & y & next & A & O & R).
      match goal with |- context [Msg KEY_STATUS_NOTIFIER "" ?d] =>
        exists ([LMsg (Msg KEY_STATUS_NOTIFIER "" d)] ++ [LRegister w cur y]) end.
      split; [|split].
      * eapply atoms_app; [|exact A]. apply atoms_one. apply a_msg. apply neutral_error.
      * outs_tac.
      * right. eexists _, w, cur, y, next. split; [reflexivity|]. split; [repeat constructor|]. split; [exact R|].
        right. eexists. reflexivity.
  - destruct (Hreg _ Hk0 I) as (w & cur & y & next & A & O & R).
    exists [LRegister w cur y]. split; [exact A|]. split; [outs_tac|].
    right. exists [], w, cur, y, next. split; [reflexivity|]. split; [constructor|]. split; [exact R|left; reflexivity].
Qed.

(* ---- eval ---- *)

Inductive submits (message : list string) (s : state) (r : request) : Prop :=
| mkSubmits : forall job headers metadata additional,
    nth_error message 1 = Some job ->
    parse_eval_headers (skipn 2 message) [] [] = Val (Some (headers, metadata, additional)) ->
    r = complete_request (s_next_r s) headers metadata job additional ->
    submits message s r.

Definition ack_msg i := Msg KEY_CLIENTS i ["ack"].
Definition accept_msg i := Msg KEY_CLIENTS i ["accept"].
Definition reject_msg i t := Msg KEY_CLIENTS i ["reject"; t].

Inductive eval_shape (identity : string) (message : list string) (s : state) : list label -> Prop :=
| es_truncated : parse_eval_headers (skipn 2 message) [] [] = Val None ->
    eval_shape identity message s [LMsg (ack_msg identity)]
| es_frozen : forall r, submits message s r -> s_frozen s = true ->
    eval_shape identity message s [LMsg (ack_msg identity); LMsg (reject_msg identity "The broker is frozen.")]
| es_accept : forall r x, submits message s r -> s_frozen s = false ->
    eval_shape identity message s
      [LMsg (ack_msg identity); LCreate r; LEnqueue r x; LMsg (accept_msg identity)]
| es_reject : forall r, submits message s r -> s_frozen s = false ->
    (forall w, In w (s_reg s) -> check_headers w (r_headers r) = Val false) ->
    eval_shape identity message s
      [LMsg (ack_msg identity); LCreate r; LDrop r;
       LMsg (reject_msg identity (reject_text "No worker available for given headers: " (r_headers r)));
       LMsg (Msg KEY_MONITOR MONITOR_IDENTITY [r_job r; "FAILED"])].

Lemma neutral_client i d : neutral (Msg KEY_CLIENTS i d).
Proof. apply neutral_key; discriminate. Qed.

Lemma eval_sim identity message s outs s' :
  inv s [] -> process_client_eval o identity message s = (outs, inr (tt, s')) ->
  exists ls, atoms s [] ls s' [] /\ outs_all ls = outs /\ eval_shape identity message s ls.
Proof.
  intros HI H. unfold process_client_eval in H. minv1 H. minv1 Hm. minv1 Hk. minv1 Hm. minv1 Hk0. minv1 Hm.
  destruct x0 as [((headers, metadata), additional)|].
  2:{ minv. exists [LMsg (ack_msg identity)]. split; [|split; [reflexivity|apply es_truncated; exact El]].
      apply atoms_one. apply a_msg. apply neutral_client. }
  minv1 Hk. minv1 Hm.
  set (r := complete_request (s_next_r s) headers metadata x additional) in *.
  assert (HS : submits message s r) by (econstructor; eauto).
  destruct (s_frozen s) eqn:Ef.
  { minv. eexists. split; [|split; [|eapply es_frozen; eauto]]; [|reflexivity].
    econstructor; [apply a_msg; apply neutral_client|]. apply atoms_one. apply a_msg. apply neutral_client. }
  minv1 Hk0. minv1 Hm. minv1 Hk. minv1 Hm. simpl in Eq.
  assert (HI1 : inv (set_next_r (S (s_next_r s)) s) [r]).
  { eapply (atom_inv o cfg); [exact HI|]. apply a_create; reflexivity. }
  pose proof (q_enqueue_spec o _ _ _ _ _ (inv_q _ _ HI) (eq_refl : r_complete r = true) Eq) as (HQ & HE).
  destruct x0 as (y, b). destruct b; simpl in Hk0.
  - eexists. split; [|split; [|eapply (es_accept _ _ _ r y); eauto]].
    + econstructor; [apply a_msg; apply neutral_client|].
      econstructor; [apply a_create; reflexivity|].
      econstructor; [apply a_enqueue; [reflexivity|right; apply (inv_f _ _ HI); simpl; lia|exact Eq]|].
      assert (Es : s' = set_queue m (set_next_r (S (s_next_r s)) s)).
      { destruct y; unfold send_request in Hk0; minv; reflexivity. }
      rewrite Es. apply atoms_one. apply a_msg. apply neutral_client.
    + destruct y; unfold send_request in Hk0; minv; reflexivity.
  - destruct y as [w|]; [destruct HE|]. destruct HE as (-> & HE).
    unfold notify_monitor in Hk0. minv.
    assert (Es : set_queue (s_queue s) (set_next_r (S (s_next_r s)) s) = set_next_r (S (s_next_r s)) s).
    { destruct s; reflexivity. }
    rewrite Es. eexists. split; [|split; [|eapply (es_reject _ _ _ r); eauto]].
    + econstructor; [apply a_msg; apply neutral_client|].
      econstructor; [apply a_create; reflexivity|].
      econstructor; [apply a_drop|].
      econstructor; [apply a_msg; apply neutral_client|]. apply atoms_one. apply a_msg. apply neutral_monitor.
    + reflexivity.
Qed.


(* ---- done ---- *)

Definition ok_msg j := Msg KEY_STATUS_NOTIFIER "" ["type"; "job-status"; "id"; j; "status"; "OK"].
Definition failed_msg j d :=
  Msg KEY_STATUS_NOTIFIER "" ["type"; "job-status"; "id"; j; "status"; "FAILED"; "message"; d].

Inductive error_shape (w : worker) (r : request) : list label -> Prop :=
| er_incomplete : forall d, r_complete r = false -> error_shape w r [LReport r (failed_msg (r_job r) d); LTau]
| er_exhausted : forall d x, r_complete r = true ->
    error_shape w r [LReport r (failed_msg (r_job r) d); LMsg (Msg KEY_MONITOR MONITOR_IDENTITY [r_job r; "FAILED"]);
                     LAssign w x; LTau]
| er_reassigned : forall x, r_complete r = true -> error_shape w r [LEnqueue r x; LTau].

Inductive done_shape (identity : string) (message : list string) (s s' : state) : list label -> Prop :=
| ds_ignored : s' = s -> done_shape identity message s s' []
| ds_done : forall w r m x st,
    find_worker_by_identity identity (s_reg s) = Some w -> current_of (s_queue s) w = Some r ->
    nth_error message 1 = Some (r_job r) -> nth_error message 2 = Some st ->
    (st = "OK" /\ m = ok_msg (r_job r) \/
     st = "FAILED" /\ exists d, length message = 4 /\ nth_error message 3 = Some d /\ m = failed_msg (r_job r) d) ->
    done_shape identity message s s' [LDone w r m; LAssign w x; LTau]
| ds_error : forall w r ls,
    find_worker_by_identity identity (s_reg s) = Some w -> current_of (s_queue s) w = Some r ->
    nth_error message 1 = Some (r_job r) -> nth_error message 2 = Some "INTERNAL_ERROR" ->
    length message = 4 -> error_shape w r ls ->
    done_shape identity message s s' (LCancel w r :: ls).

Lemma find_by_identity_in i ws w : find_worker_by_identity i ws = Some w -> In w ws /\ w_identity w = i.
Proof.
  induction ws as [|x ws IH]; simpl; [discriminate|].
  destruct (String.eqb_spec (w_identity x) i) as [<-|Hne].
  - intros [= ->]. auto.
  - intros H. destruct (IH H). auto.
Qed.

Lemma get_current_ret s w outs x s' : inv s [] -> In w (s_reg s) ->
  (queue_call (q_get_current w);; ret tt) s = (outs, inr (x, s')) -> outs = [] /\ s' = s.
Proof.
  intros HI Hin H. minv1 H. minv1 Hm. rewrite (q_get_current_spec _ _ _ (inv_q _ _ HI) Hin) in Eq.
  injection Eq as <- <-. minv1 Hk. rewrite set_queue_id. auto.
Qed.

Lemma send_if_inv w x s outs u s' : send_if w x s = (outs, inr (u, s')) ->
  s' = s /\ outs = match x with Some r => [dispatch_msg w r] | None => [] end.
Proof. destruct x; unfold send_if, send_request; intros H; minv; auto. Qed.

Lemma done_sim identity message s outs s' :
  inv s [] -> process_worker_done o cfg identity message s = (outs, inr (tt, s')) ->
  exists ls, atoms s [] ls s' [] /\ outs_all ls = outs /\ done_shape identity message s s' ls.
Proof.
  intros HI H. unfold process_worker_done in H. minv1 H. minv1 Hm.
  assert (Hign : (exists ls, atoms s [] ls s [] /\ outs_all ls = [] /\ done_shape identity message s s ls)).
  { exists []. split; [constructor|]. split; [reflexivity|]. constructor. reflexivity. }
  destruct (find_worker_by_identity identity (s_reg s)) as [w|] eqn:Ef; [|minv; exact Hign].
  destruct (find_by_identity_in _ _ _ Ef) as (Hin & _).
  destruct (Nat.ltb_spec (length message) 3) as [Hl|Hl]; [minv; exact Hign|].
  minv1 Hk. minv1 Hm. rewrite (q_get_current_spec _ _ _ (inv_q _ _ HI) Hin) in Eq.
  injection Eq as <- <-. rewrite set_queue_id in Hk0. minv1 Hk0. minv1 Hm.
  destruct (current_of (s_queue s) w) as [r|] eqn:Ec; [|minv].
  destruct (String.eqb_spec x (r_job r)) as [->|Hne]; simpl in Hk; [|minv; exact Hign].
  minv1 Hk. minv1 Hm.
  destruct (q_cancelled_spec _ _ w (inv_q _ _ HI) Hin) as (m1 & Ecan & HQ1 & Hqq & Hcu).
  rewrite Ec in Ecan.
  assert (Hidle : current_of m1 w = None).
  { rewrite Hcu. unfold upd. rewrite Nat.eqb_refl. reflexivity. }
  destruct (String.eqb_spec x "OK") as [->|Hok].
  - (* OK *)
    unfold job_done in Hk0. minv1 Hk0. minv1 Hm. minv1 Hk. minv1 Hm.
    destruct (q_finished_eq o _ _ w (inv_q _ _ HI) Hin) as (m2 & E2 & _ & _ & _ & Efin).
    rewrite Ec, Ecan in E2. injection E2 as <-. rewrite Efin in Eq.
    assert (HA1 : atom s [] (LDone w r (ok_msg (r_job r))) (set_queue m1 s) []).
    { eapply a_done; eauto. apply report_done. }
    pose proof (atom_inv _ _ _ _ _ _ _ HI HA1) as HI1.
    assert (HA2 : atom (set_queue m1 s) [] (LAssign w x) (set_queue m (set_queue m1 s)) []).
    { eapply a_assign; eauto. }
    pose proof (atom_inv _ _ _ _ _ _ _ HI1 HA2) as HI2.
    minv1 Hk0. destruct (send_if_inv _ _ _ _ _ _ Hm) as (-> & ->).
    unfold stat_incr in Hk. minv1 Hk. minv1 Hm0.
    match type of Hk0 with _ ?st = _ =>
      assert (HI3 : inv st []) by (eapply (atom_inv o cfg); [exact HI2|apply a_tau; reflexivity]) end.
    destruct (get_current_ret _ _ _ _ _ HI3 Hin Hk0) as (-> & ->).
    exists [LDone w r (ok_msg (r_job r)); LAssign w x; LTau]. split; [|split].
    + econstructor; [exact HA1|]. econstructor; [exact HA2|]. apply atoms_one. apply a_tau. reflexivity.
    + unfold outs_all. simpl. rewrite !app_nil_r. reflexivity.
    + eapply ds_done; eauto.
  - destruct (String.eqb_spec x "INTERNAL_ERROR") as [->|Hie].
    + destruct (Nat.eqb_spec (length message) 4) as [H4|H4]; simpl in Hk0; [|minv; exact Hign].
      minv1 Hk0. minv1 Hm. rewrite Ecan in Eq. injection Eq as <- <-.
      unfold failures_incr in Hk. minv1 Hk. minv1 Hm. minv1 Hk0. minv1 Hm.
      change (set_fails (tbl_set (r_id r) (failures r (set_queue m1 s) + 1)%N (s_fails (set_queue m1 s))) (set_queue m1 s))
        with (incr_fails r (set_queue m1 s)) in Hk.
      set (s1 := incr_fails r (set_queue m1 s)) in *.
      assert (HA1 : atom s [] (LCancel w r) s1 [r]) by (eapply a_cancel; eauto).
      pose proof (atom_inv _ _ _ _ _ _ _ HI HA1) as HI1.
      assert (Hfin : forall (s2 : state) (o2 : list msg), inv s2 [] -> In w (s_reg s2) ->
         (stat_incr STATS_FAILED_JOBS;; (queue_call (q_get_current w);; ret tt)) s2 = (o2, inr (tt, s')) ->
         o2 = [] /\ atom s2 [] LTau s' []).
      { clear - o cfg. intros s2 o2 HI2 Hin2 H. unfold stat_incr in H. minv1 H. minv1 Hm.
        match type of Hk with _ ?st = _ =>
          assert (HI3 : inv st []) by (eapply (atom_inv o cfg); [exact HI2|apply a_tau; reflexivity]) end.
        destruct (get_current_ret _ _ _ _ _ HI3 Hin2 Hk) as (-> & ->). split; [reflexivity|].
        apply a_tau. reflexivity. }
      minv1 Hk. rename Hm into Hbody. rename Hk0 into Htail.
      destruct (r_complete r) eqn:Hcomp; simpl in Hbody.
      * unfold check_failure_count, job_failed, notify_monitor in Hbody. minv1 Hbody. minv1 Hm. minv1 Hm0.
        destruct (N.leb_spec (c_max_failures cfg) (failures r s1)) as [Hle|Hlt].
        -- revert Htail. minv. intros Htail.
           match goal with HH : send_if w ?y _ = _ |- _ => rename HH into Hs; set (x2 := y) in *; clearbody x2 end.
           destruct (send_if_inv _ _ _ _ _ _ Hs) as (-> & ->).
           match goal with HH : q_assign_request o w _ = Val (x2, ?mm) |- _ =>
             assert (HA2 : atom s1 [] (LAssign w x2) (set_queue mm s1) []) by (eapply a_assign; eauto) end.
           assert (HI2 : inv s1 []).
           { eapply (atom_inv o cfg); [exact HI1|]. apply (a_report o cfg s1 [] r (failed_msg (r_job r) "")). apply report_rejected. }
           pose proof (atom_inv _ _ _ _ _ _ _ HI2 HA2) as HI3.
           destruct (Hfin _ _ HI3 Hin Htail) as (-> & HT).
           eexists. split; [|split; [|eapply (ds_error _ _ _ _ w r); eauto; eapply (er_exhausted w r _ x2); exact Hcomp]].
           ++ econstructor; [exact HA1|]. econstructor; [apply a_report; apply report_rejected|].
              econstructor; [apply a_msg; apply neutral_monitor|]. econstructor; [exact HA2|]. apply atoms_one. exact HT.
           ++ unfold outs_all. simpl. rewrite !app_nil_r. reflexivity.
        -- revert Htail. minv. intros Htail. unfold reassign_request in Hm. minv1 Hm. minv1 Hm0.
           pose proof (q_enqueue_spec o _ _ _ _ _ (inv_q _ _ HI1) Hcomp Eq) as (_ & HE).
           destruct x0 as (y, b). destruct b; simpl in Hk.
           ++ assert (HA2 : atom s1 [r] (LEnqueue r y) (set_queue m s1) []) by (apply a_enqueue; auto).
              pose proof (atom_inv _ _ _ _ _ _ _ HI1 HA2) as HI3.
              assert (Es : s2 = set_queue m s1) by (destruct y; unfold send_request in Hk; minv; reflexivity). subst s2.
              destruct (Hfin _ _ HI3 Hin Htail) as (-> & HT).
              eexists. split; [|split; [|eapply (ds_error _ _ _ _ w r); eauto; apply (er_reassigned w r y); exact Hcomp]].
              ** econstructor; [exact HA1|]. econstructor; [exact HA2|]. apply atoms_one. exact HT.
              ** unfold outs_all. destruct y; unfold send_request in Hk; minv; reflexivity.
           ++ exfalso. destruct y as [w'|]; [destruct HE|]. destruct HE as (_ & HE).
              pose proof (qi_current _ _ (inv_q _ _ HI) w r Hin Ec Hcomp) as Hcap. unfold capable in Hcap.
              rewrite (HE w Hin) in Hcap. discriminate.
      * unfold rejected_job in Hbody. minv1 Hbody.
        assert (HI2 : inv s1 []).
        { eapply (atom_inv o cfg); [exact HI1|]. apply (a_report o cfg s1 [] r (failed_msg (r_job r) "")). apply report_rejected. }
        destruct (Hfin _ _ HI2 Hin Htail) as (-> & HT).
        eexists. split; [|split; [|eapply (ds_error _ _ _ _ w r); eauto; eapply (er_incomplete w r); exact Hcomp]].
        -- econstructor; [exact HA1|]. econstructor; [apply a_report; apply report_rejected|]. apply atoms_one. exact HT.
        -- reflexivity.
    + destruct (String.eqb_spec x "FAILED") as [->|Hfl].
      * destruct (Nat.eqb_spec (length message) 4) as [H4|H4]; simpl in Hk0; [|minv; exact Hign].
        minv1 Hk0. minv1 Hm. unfold job_failed in Hk. minv1 Hk. minv1 Hm. minv1 Hk0. minv1 Hm.
        rewrite Ecan in Eq. injection Eq as <- <-.
        unfold failures_incr in Hk. minv1 Hk. minv1 Hm.
        change (set_fails (tbl_set (r_id r) (failures r (set_queue m1 s) + 1)%N (s_fails (set_queue m1 s))) (set_queue m1 s))
          with (incr_fails r (set_queue m1 s)) in Hk0.
        set (s1 := incr_fails r (set_queue m1 s)) in *.
        match goal with |- context [Msg KEY_STATUS_NOTIFIER "" (_ :: _ :: _ :: _ :: _ :: _ :: _ :: [?d])] =>
          assert (HA1 : atom s [] (LDone w r (failed_msg (r_job r) d)) s1 [])
            by (eapply a_done; eauto; apply report_rejected) end.
        pose proof (atom_inv _ _ _ _ _ _ _ HI HA1) as HI1.
        minv1 Hk0. minv1 Hm.
        match goal with HH : q_assign_request o w _ = Val (?y, ?m) |- _ =>
          assert (HA2 : atom s1 [] (LAssign w y) (set_queue m s1) []) by (eapply a_assign; eauto) end.
        pose proof (atom_inv _ _ _ _ _ _ _ HI1 HA2) as HI2.
        minv1 Hk. destruct (send_if_inv _ _ _ _ _ _ Hm) as (-> & ->).
        unfold stat_incr in Hk0. minv1 Hk0. minv1 Hm0.
        match type of Hk with _ ?st = _ =>
          assert (HI3 : inv st []) by (eapply (atom_inv o cfg); [exact HI2|apply a_tau; reflexivity]) end.
        destruct (get_current_ret _ _ _ _ _ HI3 Hin Hk) as (-> & ->).
        eexists. split; [|split; [|eapply (ds_done _ _ _ _ w r); eauto 10]].
        -- econstructor; [exact HA1|]. econstructor; [exact HA2|]. apply atoms_one. apply a_tau. reflexivity.
        -- unfold outs_all. simpl. rewrite !app_nil_r. reflexivity.
      * destruct (get_current_ret _ _ _ _ _ HI Hin Hk0) as (-> & ->). exact Hign.
Qed.


(* ---- on_request ---- *)

(* the state in which a worker command runs: liveness and ping timer of the sender refreshed *)
Definition refresh (identity : string) (s : state) : state :=
  match find_worker_by_identity identity (s_reg s) with
  | Some w => set_timers (pm_set w 0%Z (s_timers s))
                (set_live (tbl_set (w_id w) (c_max_liveness cfg) (s_live s)) s)
  | None => s
  end.

Lemma refresh_core i s : core s = core (refresh i s).
Proof. unfold refresh. destruct (find_worker_by_identity i (s_reg s)); reflexivity. Qed.
Lemma refresh_reg i s : s_reg (refresh i s) = s_reg s.
Proof. unfold refresh. destruct (find_worker_by_identity i (s_reg s)); reflexivity. Qed.
Lemma refresh_queue i s : s_queue (refresh i s) = s_queue s.
Proof. unfold refresh. destruct (find_worker_by_identity i (s_reg s)); reflexivity. Qed.
Lemma refresh_frozen i s : s_frozen (refresh i s) = s_frozen s.
Proof. unfold refresh. destruct (find_worker_by_identity i (s_reg s)); reflexivity. Qed.
Lemma refresh_next_r i s : s_next_r (refresh i s) = s_next_r s.
Proof. unfold refresh. destruct (find_worker_by_identity i (s_reg s)); reflexivity. Qed.
Lemma refresh_next_w i s : s_next_w (refresh i s) = s_next_w s.
Proof. unfold refresh. destruct (find_worker_by_identity i (s_reg s)); reflexivity. Qed.
Lemma refresh_stats i s : s_stats (refresh i s) = s_stats s.
Proof. unfold refresh. destruct (find_worker_by_identity i (s_reg s)); reflexivity. Qed.
Lemma refresh_fails i s : s_fails (refresh i s) = s_fails s.
Proof. unfold refresh. destruct (find_worker_by_identity i (s_reg s)); reflexivity. Qed.

(* on_request as one case analysis on the key *)
Definition on_request_cases (m : msg) : M unit :=
  if String.eqb (m_key m) "workers" then fun s =>
    match m_data m with
    | [] => ([], inl OutOfRange)
    | command :: _ => call_function (worker_commands o cfg) command (m_ident m) (m_data m) (refresh (m_ident m) s)
    end
  else if String.eqb (m_key m) "clients" then
    match m_data m with
    | [] => fail OutOfRange
    | command :: _ => call_function (client_commands o) command (m_ident m) (m_data m)
    end
  else if String.eqb (m_key m) "timer" then process_timer o cfg m
  else ret tt.

Lemma bind_ret_tt (m : M unit) s : bind m (fun _ => ret tt) s = m s.
Proof.
  unfold bind, ret. destruct (m s) as (o1, [f|([], s1)]); [reflexivity|]. rewrite app_nil_r. reflexivity.
Qed.

Lemma bind_ext {A B} (m : M A) (k k' : A -> M B) s : (forall a s, k a s = k' a s) -> bind m k s = bind m k' s.
Proof. intros H. unfold bind. destruct (m s) as (o1, [f|(a, s1)]); [reflexivity|]. rewrite H. reflexivity. Qed.

Lemma bind_ret_l {A B} (a : A) (k : A -> M B) s : bind (ret a) k s = k a s.
Proof. unfold bind, ret. destruct (k a s). reflexivity. Qed.

Lemma on_request_eq m s : on_request o cfg m s = on_request_cases m s.
Proof.
  unfold on_request, on_request_cases, KEY_WORKERS, KEY_CLIENTS, KEY_TIMER, when.
  destruct (String.eqb_spec (m_key m) "workers") as [E|E].
  { rewrite E. simpl String.eqb. cbv iota.
    rewrite (bind_ext _ _ (fun _ => ret tt)) by (intros [] ?; rewrite bind_ret_l; reflexivity). rewrite bind_ret_tt.
    unfold bind at 1, get. unfold refresh.
    destruct (m_data m) as [|c rest]; destruct (find_worker_by_identity (m_ident m) (s_reg s)) as [w|];
      unfold bind, modify, ret, at_, fail; simpl; try reflexivity;
      unfold ret; match goal with |- context [call_function ?a ?b ?c ?d ?e] => destruct (call_function a b c d e) end;
      reflexivity. }
  rewrite bind_ret_l.
  destruct (String.eqb_spec (m_key m) "clients") as [E'|E'].
  { rewrite E'. simpl String.eqb. cbv iota. rewrite bind_ret_tt.
    destruct (m_data m) as [|c rest]; [reflexivity|]. unfold bind, at_. simpl. unfold ret. match goal with |- context [call_function ?a ?b ?c ?d ?e] => destruct (call_function a b c d e) end. reflexivity. }
  rewrite bind_ret_l. reflexivity.
Qed.

Inductive shape (m : msg) (s s' : state) : list label -> Prop :=
| sh_quiet : forall ls, Forall quiet ls ->
    (m_key m = "clients" -> forall rest, m_data m <> "eval" :: rest) ->
    shape m s s' ls
| sh_timer : forall ls, m_key m = "timer" -> Forall timer_label ls -> shape m s s' ls
| sh_eval : forall ls rest, m_key m = "clients" -> m_data m = "eval" :: rest ->
    eval_shape (m_ident m) (m_data m) s ls -> shape m s s' ls
| sh_register : forall pre w cur x next rest, m_key m = "workers" -> m_data m = "init" :: rest ->
    Forall quiet pre -> registers (m_ident m) (m_data m) s w cur next -> only_error (outs_all pre) ->
    shape m s s' (pre ++ [LRegister w cur x])
| sh_done : forall ls rest, m_key m = "workers" -> m_data m = "done" :: rest ->
    done_shape (m_ident m) (m_data m) (refresh (m_ident m) s) s' ls -> shape m s s' (LTau :: ls).

Theorem on_request_sim m s outs s' :
  inv s [] -> on_request o cfg m s = (outs, inr (tt, s')) ->
  exists ls, atoms s [] ls s' [] /\ outs_all ls = outs /\ shape m s s' ls.
Proof.
  intros HI H. rewrite on_request_eq in H. unfold on_request_cases in H.
  destruct (String.eqb_spec (m_key m) "workers") as [Ek|Ek].
  - destruct (m_data m) as [|c rest] eqn:Ed; [discriminate|].
    pose proof (refresh_core (m_ident m) s) as HC.
    assert (HI1 : inv (refresh (m_ident m) s) []) by (eapply (atom_inv o cfg); [exact HI|apply a_tau; exact HC]).
    assert (HT : atom s [] LTau (refresh (m_ident m) s) []) by (apply a_tau; exact HC).
    assert (Hq : m_key m = "clients" -> forall rest0, c :: rest <> "eval" :: rest0) by (rewrite Ek; discriminate).
    unfold call_function, worker_commands in H. cbn [sm_find] in H.
    destruct (String.eqb_spec "init" c) as [<-|H1].
    { destruct (init_sim _ _ _ _ _ HI1 H) as (ls & A & O & [(-> & ->)|(pre & w & cur & x & next & -> & F & R & E)]).
      - exists [LTau]. split; [apply atoms_one; exact HT|]. split; [outs_tac|].
        apply sh_quiet; [repeat constructor|]. rewrite Ed. exact Hq.
      - exists (LTau :: pre ++ [LRegister w cur x]). split; [econstructor; eassumption|]. split; [exact O|].
        apply (sh_register m s s' (LTau :: pre) w cur x next rest); auto.
        + constructor; [exact I|exact F].
        + rewrite Ed. destruct R. econstructor; eauto.
          * rewrite <- (refresh_next_w (m_ident m) s). eassumption.
          * rewrite <- (refresh_next_r (m_ident m) s). eassumption.
          * rewrite <- (refresh_reg (m_ident m) s). eassumption. }
    destruct (String.eqb_spec "done" c) as [<-|H2].
    { destruct (done_sim _ _ _ _ _ HI1 H) as (ls & A & O & D).
      exists (LTau :: ls). split; [econstructor; eassumption|]. split; [outs_tac|].
      apply (sh_done m s s' ls rest); auto. rewrite Ed. exact D. }
    destruct (String.eqb_spec "ping" c) as [<-|H3].
    { unfold process_worker_ping in H. minv1 H. minv1 Hm.
      destruct (find_worker_by_identity _ _); minv.
      - exists [LTau; LMsg (Msg KEY_WORKERS (m_ident m) ["pong"])]. split; [|split; [reflexivity|]].
        + econstructor; [exact HT|]. apply atoms_one. apply a_msg. apply neutral_worker. discriminate.
        + apply sh_quiet; [repeat constructor|]. rewrite Ed. exact Hq.
      - exists [LTau; LMsg (Msg KEY_WORKERS (m_ident m) ["intro"])]. split; [|split; [reflexivity|]].
        + econstructor; [exact HT|]. apply atoms_one. apply a_msg. apply neutral_worker. discriminate.
        + apply sh_quiet; [repeat constructor|]. rewrite Ed. exact Hq. }
    destruct (String.eqb_spec "progress" c) as [<-|H4].
    { unfold process_worker_progress in H. minv.
      eexists [LTau; LMsg _]. split; [|split; [reflexivity|]].
      - econstructor; [exact HT|]. apply atoms_one. apply a_msg. apply neutral_monitor.
      - apply sh_quiet; [repeat constructor|]. rewrite Ed. exact Hq. }
    minv. exists [LTau]. split; [apply atoms_one; exact HT|]. split; [reflexivity|].
    apply sh_quiet; [repeat constructor|]. rewrite Ed. exact Hq.
  - destruct (String.eqb_spec (m_key m) "clients") as [Ek'|Ek'].
    + destruct (m_data m) as [|c rest] eqn:Ed; [discriminate|].
      unfold call_function, client_commands in H. cbn [sm_find] in H.
      destruct (String.eqb_spec "eval" c) as [<-|H1].
      { destruct (eval_sim _ _ _ _ _ HI H) as (ls & A & O & E).
        exists ls. split; [exact A|]. split; [exact O|]. apply (sh_eval m s s' ls rest); auto. rewrite Ed. exact E. }
      assert (Hq : m_key m = "clients" -> forall rest0, c :: rest <> "eval" :: rest0) by congruence.
      destruct (String.eqb_spec "get-runtime-stats" c) as [<-|H2].
      { unfold process_client_get_runtime_stats in H. minv.
        eexists [LMsg _]. split; [|split; [reflexivity|]].
        - apply atoms_one. apply a_msg. apply neutral_client.
        - apply sh_quiet; [repeat constructor|]. rewrite Ed. exact Hq. }
      destruct (String.eqb_spec "freeze" c) as [<-|H3].
      { unfold process_client_freeze in H. minv.
        eexists [LTau; LMsg _]. split; [|split; [reflexivity|]].
        - econstructor; [apply a_tau|]; [|apply atoms_one; apply a_msg; apply neutral_client]. reflexivity.
        - apply sh_quiet; [repeat constructor|]. rewrite Ed. exact Hq. }
      destruct (String.eqb_spec "unfreeze" c) as [<-|H4].
      { unfold process_client_unfreeze in H. minv.
        eexists [LTau; LMsg _]. split; [|split; [reflexivity|]].
        - econstructor; [apply a_tau|]; [|apply atoms_one; apply a_msg; apply neutral_client]. reflexivity.
        - apply sh_quiet; [repeat constructor|]. rewrite Ed. exact Hq. }
      minv. exists []. split; [constructor|]. split; [reflexivity|].
      apply sh_quiet; [repeat constructor|]. rewrite Ed. exact Hq.
    + destruct (String.eqb_spec (m_key m) "timer") as [Et|Et].
      * destruct (process_timer_sim _ _ _ _ HI H) as (ls & A & O & F).
        exists ls. split; [exact A|]. split; [exact O|]. apply sh_timer; auto.
      * minv. exists []. split; [constructor|]. split; [reflexivity|].
        apply sh_quiet; [constructor|]. intros E. contradiction.
Qed.

(* ---- reachable states ---- *)

Lemma inv_init k : inv (init_state (empty_manager k)) [].
Proof.
  constructor; simpl; try contradiction.
  - destruct k; constructor; simpl; try constructor; simpl; try constructor; try contradiction.
  - destruct k; simpl; constructor.
  - destruct k; simpl; contradiction.
  - reflexivity.
Qed.

Theorem run_inv k tr s : run o cfg k tr s -> inv s [].
Proof.
  induction 1 as [|tr s m outs s' Hrun IH Hstep]; [apply inv_init|].
  destruct (on_request_sim _ _ _ _ IH Hstep) as (ls & A & _). eapply atoms_inv; eauto.
Qed.

End WithConfig.
