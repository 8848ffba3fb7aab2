(* A worker gets a job only when it has none (C10). *)
From Coq Require Import Permutation Lia.
From Verif Require Import Base Bytes Containers Worker Multi Single Queue Handler SpecText Spec SpecRun Facts QueueInv
  Atoms HandlerSim Conserve Provenance.
Local Open Scope string_scope.
Local Open Scope list_scope.

Definition b2n (b : bool) : nat := if b then 1 else 0.

Lemma count_change (p q : worker -> bool) ws w : NoDup (ids ws) -> In w ws ->
  (forall a, In a ws -> w_id a <> w_id w -> q a = p a) ->
  list_count q ws + b2n (p w) = list_count p ws + b2n (q w).
Proof.
  intros Hnd Hin H. apply in_split in Hin. destruct Hin as (l1 & l2 & ->).
  unfold ids in Hnd. rewrite map_app in Hnd. simpl in Hnd. pose proof (NoDup_remove_2 _ _ _ Hnd) as Hni.
  rewrite in_app_iff in Hni.
  rewrite !list_count_app, !list_count_cons.
  rewrite (list_count_ext q p l1), (list_count_ext q p l2).
  - unfold b2n. destruct (p w), (q w); lia.
  - intros a Ha. apply H; [rewrite in_app_iff; simpl; auto|]. intros E. apply Hni. right. rewrite <- E. apply in_map. exact Ha.
  - intros a Ha. apply H; [rewrite in_app_iff; simpl; auto|]. intros E. apply Hni. left. rewrite <- E. apply in_map. exact Ha.
Qed.

Section WithConfig.
Context (o : oracle) (cfg : config) (i : string).
Local Notation atoms := (atoms o cfg).
Local Notation atom := (atom o cfg).

Definition credit_of (l : label) : nat :=
  match l with
  | LRegister w _ _ | LDone w _ _ | LCancel w _ => b2n (named i w)
  | _ => 0
  end.
Definition credit (ls : list label) : nat := total credit_of ls.

Lemma eval_to_dispatch w r : b2n (is_eval_to i (dispatch_msg w r)) <= b2n (named i w).
Proof.
  unfold is_eval_to, dispatch_msg, named. cbn [m_key m_ident m_data]. destruct (String.eqb (w_identity w) i).
  - destruct (_ && _); simpl; lia.
  - rewrite andb_false_r. simpl. lia.
Qed.

Lemma count_msg (p : msg -> bool) m : list_count p [m] = b2n (p m).
Proof. rewrite list_count_cons. unfold list_count, b2n. simpl. lia. Qed.

Lemma idle_upd m m' ws w x : NoDup (ids ws) -> In w ws ->
  (forall w', current_of m' w' = upd (current_of m) w x w') ->
  list_count (fun a => named i a && is_idle m' a) ws + b2n (named i w && is_idle m w) =
  list_count (fun a => named i a && is_idle m a) ws + b2n (named i w && match x with None => true | Some _ => false end).
Proof.
  intros Hnd Hin Hu.
  rewrite (count_change (fun a => named i a && is_idle m a) (fun a => named i a && is_idle m' a) ws w Hnd Hin).
  - f_equal. unfold is_idle. rewrite Hu. unfold upd. rewrite Nat.eqb_refl. reflexivity.
  - intros a _ Hne. unfold is_idle. rewrite Hu. unfold upd.
    destruct (Nat.eqb_spec (w_id w) (w_id a)); [congruence|reflexivity].
Qed.

Lemma filter_reg_remove (p : worker -> bool) w ws : In w ws -> NoDup (ids ws) ->
  list_count p (reg_remove w ws) <= list_count p ws.
Proof.
  intros Hin Hnd. rewrite (list_count_perm p _ _ (reg_remove_perm w ws Hin Hnd)), list_count_cons. lia.
Qed.

Lemma atom_idle s h l s' h' : inv s h -> atom s h l s' h' ->
  list_count (is_eval_to i) (outs_of l) + idle_count i s' <= idle_count i s + credit_of l.
Proof.
  intros HI Ha. destruct HI as [Hq Hw Hnd Hr Hf]. pose proof (qi_nodup _ _ Hq) as HN. unfold idle_count. destruct Ha.
  - unfold core in H. injection H as E1 E2 _ _ _. rewrite E1, E2. unfold list_count at 1. simpl. lia.
  - unfold list_count at 1. simpl. lia.
  - cbn [outs_of credit_of]. rewrite count_msg. destruct H as (_ & _ & H).
    assert (is_eval_to i m = false) as ->; [|simpl; lia].
    unfold is_eval_to. destruct (String.eqb_spec (m_key m) "workers") as [Ek|]; [|reflexivity].
    destruct (starts_with ["eval"] (m_data m)) eqn:E; [|apply andb_false_r].
    apply starts_with_iff in E. destruct E as (rest & E). destruct (H Ek) as (_ & H'). destruct (H' rest E).
  - unfold list_count at 1. simpl. lia.
  - unfold list_count at 1. simpl. lia.
  - unfold core in H4. injection H4 as E1 E2 E3 E4 E5. rewrite E1, E2.
    assert (Hni : ~ In (w_id w) (ids (s_reg s))).
    { intros Hc. apply in_ids_inv in Hc. destruct Hc as (w' & Hi & E). specialize (Hw w' Hi). lia. }
    assert (HA : add_post (s_queue s) (s_reg s) w cur x m').
    { eapply q_add_spec; eauto. intros r Hc. apply (H2 r Hc). }
    destruct HA as (HQ' & HA).
    assert (Hu : exists y, (forall w', current_of m' w' = upd (current_of (s_queue s)) w y w') /\
              (match y with None => x = None | Some _ => True end) /\
              (match cur with Some _ => list_count (is_eval_to i) (outs_of (LRegister w cur x)) = 0 | None => True end)).
    { destruct cur as [r|].
      - exists (Some r). destruct HA as (Hu & _ & ->). split; [exact Hu|]. split; [exact I|].
        destruct (s_queue s); [|reflexivity]. cbn [outs_of]. rewrite count_msg.
        destruct (H2 r eq_refl) as (_ & _ & Hfr). unfold is_eval_to, dispatch_msg. cbn [m_key m_ident m_data].
        rewrite Hfr. cbn [starts_with]. unfold starts_with. simpl. rewrite andb_false_r. reflexivity.
      - exists x. destruct HA as (Hu & _). split; [exact Hu|]. split; [destruct x; auto|exact I]. }
    destruct Hu as (y & Hu & Hy & Hc0).
    rewrite list_count_app, list_count_cons. change (list_count _ []) with 0.
    assert (list_count (fun w0 => named i w0 && is_idle m' w0) (s_reg s)
      = list_count (fun w0 => named i w0 && is_idle (s_queue s) w0) (s_reg s)) as ->.
    { apply list_count_ext. intros a Ha. unfold is_idle. rewrite Hu. unfold upd.
      destruct (Nat.eqb_spec (w_id w) (w_id a)) as [E|]; [|reflexivity].
      exfalso. apply Hni. rewrite E. apply in_ids. exact Ha. }
    assert (is_idle m' w = match y with None => true | Some _ => false end) as ->.
    { unfold is_idle. rewrite Hu. unfold upd. rewrite Nat.eqb_refl. destruct y; reflexivity. }
    cbn [credit_of]. destruct y as [y|].
    + rewrite andb_false_r. destruct cur as [r|]; [rewrite Hc0; lia|].
      cbn [outs_of]. destruct x as [x|]; [|unfold list_count at 1; simpl; lia].
      rewrite count_msg. pose proof (eval_to_dispatch w x). lia.
    + rewrite Hy. rewrite andb_true_r. unfold b2n. change (list_count (is_eval_to i) (outs_of (LRegister w cur None))) with 0. lia.
  - destruct (q_cancelled_spec _ _ w Hq H) as (m1 & E & Q1 & Eq1 & Hu). rewrite E in H2. injection H2 as _ <-.
    assert (Es : s_queue s' = m1 /\ s_reg s' = s_reg s) by (destruct H3; subst; auto). destruct Es as (-> & ->).
    pose proof (idle_upd _ _ _ _ _ HN H Hu) as HC. cbn [outs_of credit_of]. rewrite count_msg.
    assert (is_eval_to i m = false) as -> by (unfold is_eval_to; destruct H1 as (-> & _); reflexivity).
    rewrite andb_true_r in HC. simpl b2n at 1. lia.
  - destruct (q_cancelled_spec _ _ w Hq H) as (m1 & E & Q1 & Eq1 & Hu). rewrite E in H1. injection H1 as _ <-.
    pose proof (idle_upd _ _ _ _ _ HN H Hu) as HC. cbn [outs_of credit_of].
    rewrite andb_true_r in HC. change (list_count (is_eval_to i) []) with 0. simpl s_reg. simpl s_queue. lia.
  - destruct (q_assign_spec o _ _ _ _ _ Hq H H0 H1) as (Q1 & Hu & _).
    pose proof (idle_upd _ _ _ _ _ HN H Hu) as HC. cbn [outs_of credit_of]. simpl s_reg. simpl s_queue.
    assert (is_idle (s_queue s) w = true) as Ei by (unfold is_idle; rewrite H0; reflexivity). rewrite Ei in HC.
    destruct x as [x|].
    + rewrite count_msg. pose proof (eval_to_dispatch w x). rewrite andb_true_r, andb_false_r in HC. simpl b2n in HC at 2. lia.
    + change (list_count (is_eval_to i) []) with 0. lia.
  - destruct (q_enqueue_spec o _ _ _ _ _ Hq H H1) as (Q1 & HE). simpl s_reg. simpl s_queue. destruct x as [w|].
    + destruct HE as (Hin & Hc & _ & Hu & _). pose proof (idle_upd _ _ _ _ _ HN Hin Hu) as HC.
      assert (is_idle (s_queue s) w = true) as Ei by (unfold is_idle; rewrite Hc; reflexivity). rewrite Ei in HC.
      cbn [outs_of credit_of]. rewrite count_msg. pose proof (eval_to_dispatch w r).
      rewrite andb_true_r, andb_false_r in HC. simpl b2n in HC at 2. lia.
    + destruct HE as (_ & Hu & _). cbn [outs_of credit_of]. change (list_count (is_eval_to i) []) with 0.
      rewrite (list_count_ext (fun w => named i w && is_idle m' w) (fun w => named i w && is_idle (s_queue s) w)); [lia|].
      intros a _. unfold is_idle. rewrite Hu. reflexivity.
  - cbn [outs_of credit_of]. rewrite count_msg.
    assert (is_eval_to i m = false) as -> by (unfold is_eval_to; destruct H as (-> & _); reflexivity). simpl. lia.
  - destruct (q_terminated_spec _ _ w rs m' Hq H H0) as (gone & -> & Q1 & Hu & _).
    cbn [outs_of credit_of]. change (list_count (is_eval_to i) []) with 0.
    assert (s_reg (set_queue m' (incr_opt (current_of (s_queue s) w) (set_reg (reg_remove w (s_reg s)) s))) = reg_remove w (s_reg s)) as ->
      by (destruct (current_of (s_queue s) w); reflexivity).
    cbn [s_queue set_queue].
    rewrite (list_count_ext (fun w => named i w && is_idle m' w) (fun w => named i w && is_idle (s_queue s) w)).
    + pose proof (filter_reg_remove (fun w => named i w && is_idle (s_queue s) w) w (s_reg s) H HN). lia.
    + intros a Ha. apply (reg_remove_in w a (s_reg s) HN H) in Ha. destruct Ha as (Ha & Hne).
      unfold is_idle. rewrite Hu; [reflexivity|]. intros E. apply Hne. eapply ids_inj; eauto.
Qed.

Lemma atoms_idle s h ls s' h' : atoms s h ls s' h' -> inv s h ->
  list_count (is_eval_to i) (outs_all ls) + idle_count i s' <= idle_count i s + credit ls.
Proof.
  induction 1 as [s h|s h l s1 h1 ls s2 h2 Ha _ IH]; intros HI.
  - unfold list_count at 1, credit. simpl. lia.
  - pose proof (atom_idle _ _ _ _ _ HI Ha) as H1. specialize (IH (atom_inv _ _ _ _ _ _ _ HI Ha)).
    unfold outs_all, credit in *. simpl. rewrite list_count_app. lia.
Qed.

Lemma quiet_credit ls : Forall quiet ls -> credit ls = 0.
Proof. induction 1 as [|l ls H _ IH]; [reflexivity|]. destruct l; simpl in H; try tauto; exact IH. Qed.
Lemma timer_credit ls : Forall timer_label ls -> credit ls = 0.
Proof. induction 1 as [|l ls H _ IH]; [reflexivity|]. destruct l; simpl in H; try tauto; exact IH. Qed.

Lemma find_named j ws : find (named j) ws = find_worker_by_identity j ws.
Proof. induction ws as [|w t IH]; simpl; [reflexivity|]. unfold named at 1. destruct (String.eqb _ _); auto. Qed.

Lemma step_credit m s s' ls outs : inv s [] -> atoms s [] ls s' [] -> shape o cfg m s s' ls ->
  credit ls <= b2n (own_report i (mkEvent s m outs s')) + b2n (joins i (mkEvent s m outs s')).
Proof.
  intros HI HA HS.
  destruct HS as [ls Hq Hne|ls Hk Ht|ls rest Hk Hd He|pre w cur x next rest Hk Hd Hq Hr|ls rest Hk Hd Hds].
  - rewrite (quiet_credit _ Hq). lia.
  - rewrite (timer_credit _ Ht). lia.
  - assert (credit ls = 0) as -> by (destruct He; reflexivity). lia.
  - unfold credit. rewrite total_app. fold (credit pre). rewrite (quiet_credit _ Hq). simpl.
    assert (w_identity w = m_ident m) as Ei.
    { destruct (registers_block _ _ _ _ _ _ _ _ Hd Hr) as (hw & fr & hd & hs & _ & _ & E & _). exact E. }
    destruct (register_grows _ _ _ _ _ _ _ _ HI Hq HA) as (Eg & _).
    unfold joins, named. cbn [ev_in ev_pre ev_post]. rewrite Hk, Ei, Eg, app_length. simpl length.
    change (String.eqb "workers" "workers") with true. cbn [andb].
    destruct (Nat.ltb_spec (length (s_reg s)) (length (s_reg s) + 1)); [|lia]. rewrite andb_true_r. lia.
  - assert (Hown : forall w r, find_worker_by_identity (m_ident m) (s_reg s) = Some w -> current_of (s_queue s) w = Some r ->
      nth_error (m_data m) 1 = Some (r_job r) -> b2n (named i w) <= b2n (own_report i (mkEvent s m outs s'))).
    { intros w r Hf Hc Hn. unfold named, own_report. cbn [ev_in ev_pre]. rewrite Hk, find_named, Hn.
      change (String.eqb "workers" "workers") with true. cbn [andb].
      apply find_by_identity_in in Hf as Hf'. destruct Hf' as (_ & Ei). rewrite Ei.
      destruct (String.eqb_spec (m_ident m) i) as [E|]; [|simpl; lia]. rewrite <- E. rewrite Hf, Hc.
      assert (starts_with ["done"] (m_data m) = true) as ->.
      { apply starts_with_iff. rewrite Hd. eexists; reflexivity. }
      unfold job_is. rewrite String.eqb_refl. simpl. lia. }
    change (credit (LTau :: ls)) with (credit ls).
    destruct Hds as [?|w r m' x st Hf Hc Hn _ _|w r ls Hf Hc Hn _ _ He]; [unfold credit; simpl; lia| |].
    + rewrite refresh_reg in Hf. rewrite refresh_queue in Hc. specialize (Hown w r Hf Hc Hn). unfold credit. simpl. lia.
    + rewrite refresh_reg in Hf. rewrite refresh_queue in Hc. specialize (Hown w r Hf Hc Hn).
      assert (credit (LCancel w r :: ls) = b2n (named i w)) as ->; [|lia].
      unfold credit. simpl. destruct He; simpl; lia.
Qed.

Theorem one_job_at_a_time k tr1 e tr2 s : run o cfg k (tr1 ++ e :: tr2) s ->
  list_count (is_eval_to i) (ev_out e) + idle_count i (ev_post e) <=
    idle_count i (ev_pre e) + b2n (own_report i e) + b2n (joins i e).
Proof.
  intros HR. destruct (run_split _ _ _ _ _ _ _ HR) as (HR1 & Hstep).
  pose proof (run_inv _ _ _ _ _ HR1) as HI. destruct (on_request_sim _ _ _ _ _ _ HI Hstep) as (ls & A & O & S).
  pose proof (atoms_idle _ _ _ _ _ A HI) as H1. rewrite O in H1.
  pose proof (step_credit _ _ _ _ (ev_out e) HI A S) as H2.
  assert (Eev : mkEvent (ev_pre e) (ev_in e) (ev_out e) (ev_post e) = e) by (destruct e; reflexivity).
  rewrite Eev in H2. lia.
Qed.

End WithConfig.

(* the usual case: at most one worker is registered under the identity *)
Theorem one_job_unique o cfg k tr1 e tr2 s i : run o cfg k (tr1 ++ e :: tr2) s ->
  list_count (named i) (s_reg (ev_pre e)) <= 1 ->
  joins i e = false ->
  list_count (is_eval_to i) (ev_out e) <= 1 /\
  (list_count (is_eval_to i) (ev_out e) = 1 -> idle_count i (ev_pre e) = 1 \/ own_report i e = true).
Proof.
  intros HR H1 H2. pose proof (one_job_at_a_time o cfg i k tr1 e tr2 s HR) as H. rewrite H2 in H. simpl b2n in H.
  assert (Hle : idle_count i (ev_pre e) <= 1).
  { etransitivity; [|exact H1]. unfold idle_count, list_count. generalize (s_reg (ev_pre e)).
    intros l. induction l as [|w l IH]; simpl; [lia|]. destruct (named i w); simpl; [|exact IH].
    destruct (is_idle _ w); simpl; lia. }
  assert (Hx : own_report i e = true -> idle_count i (ev_pre e) = 0).
  { intros E. unfold own_report in E. destruct (find (named i) (s_reg (ev_pre e))) as [w|] eqn:Ef.
    2:{ rewrite andb_false_r in E. discriminate. }
    apply find_some in Ef. destruct Ef as (Hin & Hn). apply in_split in Hin. destruct Hin as (l1 & l2 & Es).
    unfold idle_count. rewrite Es in *. rewrite list_count_app, list_count_cons in *. rewrite Hn in *.
    assert (is_idle (s_queue (ev_pre e)) w = false) as ->.
    { unfold is_idle. destruct (current_of (s_queue (ev_pre e)) w); [reflexivity|].
      destruct (nth_error _ 1); rewrite andb_false_r in E; discriminate. }
    simpl. assert (Z1 : list_count (named i) l1 = 0) by lia. assert (Z2 : list_count (named i) l2 = 0) by lia.
    assert (Hz : forall l, list_count (named i) l = 0 ->
      list_count (fun w0 => named i w0 && is_idle (s_queue (ev_pre e)) w0) l = 0).
    { clear. induction l as [|a l IH]; [reflexivity|]. rewrite !list_count_cons. destruct (named i a); simpl; [lia|exact IH]. }
    rewrite (Hz _ Z1), (Hz _ Z2). reflexivity. }
  destruct (own_report i e).
  - rewrite (Hx eq_refl) in *. simpl b2n in H. split; [lia|auto].
  - simpl b2n in H. split; [lia|]. intros E. left. lia.
Qed.
