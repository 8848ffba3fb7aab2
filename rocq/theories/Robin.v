(* How the multi queue manager shares requests between workers, over runs (C67). *)
From Coq Require Import Permutation Lia.
From Verif Require Import Base Bytes Containers Worker Multi Single Queue Handler SpecText Spec SpecRun SpecMsg SpecQueue SpecWait SpecRobin
  Facts QueueInv Atoms HandlerSim Conserve OwnQueue QueueContract QueueOrder Provenance OneJob Members Messages Stats WorkConserving Waiting Stuck Demo.
Local Open Scope string_scope.
Local Open Scope list_scope.

Definition order_of (m : manager) : list worker := match m with QMulti q => mq_order q | QSingle _ => [] end.
Definition before (a b : worker) (l : list worker) : Prop := exists l1 l2, l = l1 ++ a :: l2 /\ In b l2.
Definition lost (w : worker) (l : label) : nat :=
  match l with LDone u _ _ | LCancel u _ => if Nat.eqb (w_id u) (w_id w) then 1 else 0 | _ => 0 end.
Definition own_count (s : state) (w : worker) : nat := length (owned (s_queue s) w).

Lemma before_total a b l : In a l -> In b l -> a <> b -> before a b l \/ before b a l.
Proof.
  intros Ha Hb Hne. apply in_split in Ha. destruct Ha as (l1 & l2 & ->). apply in_app_iff in Hb. destruct Hb as [Hb|[->|Hb]].
  - right. apply in_split in Hb. destruct Hb as (k1 & k2 & ->). exists k1, (k2 ++ a :: l2). rewrite <- app_assoc. split; [reflexivity|].
    apply in_app_iff. simpl. auto.
  - congruence.
  - left. exists l1, l2. auto.
Qed.

Lemma before_remove a b u l : before a b l -> w_id a <> w_id u -> w_id b <> w_id u -> before a b (list_remove u l).
Proof.
  intros (l1 & l2 & -> & Hb) Ha Hb'. exists (list_remove u l1), (list_remove u l2). split.
  - unfold list_remove. rewrite filter_app. f_equal. exact (remove_other u a l2 Ha).
  - apply remove_in. auto.
Qed.
Lemma before_snoc a b l u : before a b l -> before a b (l ++ [u]).
Proof. intros (l1 & l2 & -> & Hb). exists l1, (l2 ++ [u]). rewrite <- app_assoc. split; [reflexivity|apply in_app_iff; auto]. Qed.
Lemma before_cons a b l u : before a b l -> before a b (u :: l).
Proof. intros (l1 & l2 & -> & Hb). exists (u :: l1), l2. auto. Qed.
Lemma before_end a u l : In a l -> before a u (l ++ [u]).
Proof.
  intros H. apply in_split in H. destruct H as (l1 & l2 & ->). exists l1, (l2 ++ [u]). rewrite <- app_assoc. split; [reflexivity|].
  apply in_app_iff. simpl. auto.
Qed.
Lemma before_in a b l : before a b l -> In a l /\ In b l.
Proof. intros (l1 & l2 & -> & Hb). rewrite !in_app_iff. simpl. auto. Qed.

Section WithConfig.
Context (o : oracle) (cfg : config).
Local Notation atoms := (atoms o cfg).
Local Notation atom := (atom o cfg).

(* w stands before w'; if a request that both can run is given to one of the two, it is w, and w' is before w then *)
Lemma atom_turn s h l s' h' w w' : inv s h -> atom s h l s' h' -> (exists q, s_queue s = QMulti q) ->
  In w (s_reg s) -> In w' (s_reg s) -> In w (s_reg s') -> In w' (s_reg s') -> w <> w' ->
  (forall r x, l = LEnqueue r x -> capable w r /\ capable w' r) ->
  before w w' (order_of (s_queue s)) ->
  own_count s' w' + lost w' l = own_count s w' /\
  (own_count s' w + lost w l = own_count s w /\ before w w' (order_of (s_queue s')) \/
   own_count s' w + lost w l = S (own_count s w) /\ before w' w (order_of (s_queue s'))).
Proof.
  intros HI Ha (q0 & Ek) Hw Hw' Hws Hws' Hne Hfit HB. pose proof (inv_q _ _ HI) as HQ. pose proof (qi_nodup _ _ HQ) as Hnd.
  assert (Hid : w_id w <> w_id w') by (intros E; apply Hne; eapply ids_inj; eauto).
  unfold own_count.
  destruct Ha as
    [s s' h Hc|s h h' _|s h m Hn|s h r' Hid' Hcomp Hfr|s h r'|s h u cur x m' n s' Hid' Hmk Hn Hcur E Hc
    |s h u r' m m' s' Hin Hcw Hrep E Hs'|s h u r' m' Hin Hcw E|s h u x m' Hin Hcw E|s h r' x m' Hcomp Hf E|s h r' m Hrep
    |s h u rs m' Hin E]; cbn [lost]; try (cbn [set_next_r s_queue]; split; [lia|left; split; [lia|assumption]]).
  - unfold core in Hc. injection Hc as _ <- _ _ _. split; [lia|left; split; [lia|assumption]].
  - (* a new worker *)
    unfold core in Hc. injection Hc as _ -> _ _ _.
    assert (Hni : ~ In (w_id u) (ids (s_reg s))).
    { intros Hcc. apply in_ids_inv in Hcc. destruct Hcc as (w1 & Hi & Ei). apply (inv_w _ _ HI) in Hi. lia. }
    assert (Hu : forall v, In v (s_reg s) -> length (owned m' v) = length (owned (s_queue s) v)).
    { intros v Hv. assert (w_id u <> w_id v) by (intros Ev; apply Hni; rewrite Ev; apply in_ids; exact Hv).
      destruct (own_add o _ _ _ _ _ _ HQ Hni E v) as (Eo & _). unfold owned. rewrite Eo.
      destruct (q_add_spec o _ _ _ _ _ _ HQ Hni (fun r Hr => proj1 (Hcur r Hr)) E) as (_ & HC).
      assert (Ec : current_of m' v = current_of (s_queue s) v).
      { destruct cur; destruct HC as (HC & _); rewrite HC; apply upd_other; assumption. }
      rewrite Ec. reflexivity. }
    rewrite !Hu by assumption. split; [lia|left; split; [lia|]].
    rewrite Ek in E, HB. simpl in E. unfold lift_multi in E. simpl in E. injection E as <- <-. apply before_cons. exact HB.
  - (* a job ends *)
    assert (Es : s_queue s' = m') by (destruct Hs'; subst; auto). rewrite Es.
    destruct (q_cancelled_spec _ _ _ HQ Hin) as (m1 & E1 & _ & _ & HC). rewrite E1 in E. injection E as _ <-.
    assert (Hu : forall v, In v (s_reg s) -> length (owned m1 v) + (if Nat.eqb (w_id u) (w_id v) then 1 else 0) = length (owned (s_queue s) v)).
    { intros v Hv. unfold owned. rewrite (own_cancelled _ _ _ _ E1), HC. destruct (Nat.eqb_spec (w_id u) (w_id v)) as [Ev|Ev].
      - rewrite upd_same by exact Ev. assert (u = v) by (eapply ids_inj; eauto). subst v. rewrite Hcw. simpl. lia.
      - rewrite upd_other by exact Ev. lia. }
    rewrite !Hu by assumption. split; [reflexivity|]. left. split; [reflexivity|].
    rewrite Ek in E1, HB. simpl in E1. unfold lift_multi, multi_worker_cancelled in E1. destruct (pm_index _ _ _). simpl in E1.
    injection E1 as _ <-. exact HB.
  - (* a job is taken back *)
    cbn [incr_fails set_fails set_queue s_queue].
    destruct (q_cancelled_spec _ _ _ HQ Hin) as (m1 & E1 & _ & _ & HC). rewrite E1 in E. injection E as _ <-.
    assert (Hu : forall v, In v (s_reg s) -> length (owned m1 v) + (if Nat.eqb (w_id u) (w_id v) then 1 else 0) = length (owned (s_queue s) v)).
    { intros v Hv. unfold owned. rewrite (own_cancelled _ _ _ _ E1), HC. destruct (Nat.eqb_spec (w_id u) (w_id v)) as [Ev|Ev].
      - rewrite upd_same by exact Ev. assert (u = v) by (eapply ids_inj; eauto). subst v. rewrite Hcw. simpl. lia.
      - rewrite upd_other by exact Ev. lia. }
    rewrite !Hu by assumption. split; [reflexivity|]. left. split; [reflexivity|].
    rewrite Ek in E1, HB. simpl in E1. unfold lift_multi, multi_worker_cancelled in E1. destruct (pm_index _ _ _). simpl in E1.
    injection E1 as _ <-. exact HB.
  - (* a worker goes on with what waits for it *)
    cbn [set_queue s_queue]. destruct (q_assign_spec o _ _ _ _ _ HQ Hin Hcw E) as (_ & HC & _).
    assert (Hu : forall v, In v (s_reg s) -> length (owned m' v) = length (owned (s_queue s) v)).
    { intros v Hv. pose proof (own_assign o _ _ _ _ _ HQ Hin E v) as Ho. rewrite Ek in Ho. rewrite <- Ek in Ho.
      unfold owned. rewrite HC, Ho. destruct (Nat.eqb_spec (w_id u) (w_id v)) as [Ev|Ev].
      - rewrite upd_same by exact Ev. assert (u = v) by (eapply ids_inj; eauto). subst v. rewrite Hcw. reflexivity.
      - rewrite upd_other by exact Ev. reflexivity. }
    rewrite !Hu by assumption. split; [lia|]. left. split; [lia|].
    rewrite Ek in E, HB. simpl in E. unfold lift_multi, multi_assign, multi_take in E. destruct (pm_index _ _ _) as ([|r0 rest], qs); simpl in E;
      injection E as _ <-; exact HB.
  - (* a request is given to a worker *)
    cbn [set_queue s_queue]. destruct (Hfit _ _ eq_refl) as (Hcap & Hcap').
    destruct (enqueue_owner o _ _ _ _ _ HQ Hcomp E) as [(u & Hu & _ & HP & Ho)|(_ & Hx)]; [|rewrite Ek in Hx; discriminate].
    rewrite Ek in E, HP, HB, HQ. destruct (receiver_first o _ _ _ _ _ _ HQ Hcomp Hu E HP) as (_ & (l1 & l2 & El & Hno) & q' & -> & Eo).
    rewrite <- Ek in HP. cbn [order_of] in HB |- *. rewrite Eo.
    assert (Hwo : w' <> u).
    { intros ->. destruct HB as (k1 & k2 & Ek1 & Hk2). rewrite El in Ek1.
      assert (Hnd' : NoDup (l1 ++ u :: l2)).
      { rewrite <- El. apply (NoDup_map_inv w_id). pose proof (qi_impl _ _ HQ) as HM. simpl in HM. destruct HM as [S1 _ _ _].
        eapply Permutation_NoDup; [symmetry; apply (ids_perm _ _ S1)|exact Hnd]. }
      assert (Hin1 : In w l1).
      { assert (Hwl : In w (l1 ++ u :: l2)) by (rewrite Ek1; apply in_app_iff; simpl; auto).
        apply in_app_iff in Hwl. destruct Hwl as [Hwl|[Hwl|Hwl]]; [exact Hwl|congruence|exfalso].
        apply in_split in Hk2. destruct Hk2 as (a & b & ->).
        assert (Hu1 : In u (l1 ++ l2) -> False) by (apply NoDup_remove_2; exact Hnd').
        (* u stands after w in the second splitting, w after u in the first *)
        apply in_split in Hwl. destruct Hwl as (c & d & ->).
        clear - Ek1 Hnd' Hne. revert k1 Ek1. induction l1 as [|y l1 IH]; intros k1 Ek1.
        - destruct k1 as [|z k1]; simpl in Ek1.
          + injection Ek1 as E1 _. congruence.
          + injection Ek1 as -> E2. simpl in Hnd'. inversion Hnd' as [|? ? Hni _]; subst. apply Hni. rewrite E2.
            rewrite in_app_iff. simpl. rewrite in_app_iff. simpl. auto 6.
        - simpl in Hnd'. inversion Hnd' as [|? ? Hni Hnd2]; subst. destruct k1 as [|z k1]; simpl in Ek1.
          + injection Ek1 as -> _. apply Hni. rewrite in_app_iff. simpl. rewrite in_app_iff. simpl. auto 6.
          + injection Ek1 as -> E2. exact (IH Hnd2 k1 E2). }
      exact (Hno w Hin1 Hcap). }
    assert (Hid' : w_id w' <> w_id u) by (intros Ei; apply Hwo; eapply ids_inj; eauto).
    rewrite (Ho w' Hid'). split; [lia|].
    destruct (Nat.eq_dec (w_id w) (w_id u)) as [Ei|Ei].
    + right. assert (w = u) by (eapply ids_inj; eauto). subst u. apply Permutation_length in HP. cbn [length] in HP. split; [lia|].
      apply before_end. apply remove_in. split; [apply (before_in _ _ _ HB)|congruence].
    + left. rewrite (Ho w Ei). split; [lia|]. apply before_snoc. apply before_remove; auto.
  - (* a worker is lost *)
    cbn [set_queue s_queue]. destruct (own_terminated _ _ _ _ _ HQ Hin E) as (Ho & _).
    destruct (q_terminated_spec _ _ _ _ _ HQ Hin E) as (_ & _ & _ & HC & _).
    assert (Er : forall v, In v (s_reg (set_queue m' (incr_opt (current_of (s_queue s) u) (set_reg (reg_remove u (s_reg s)) s)))) -> w_id v <> w_id u).
    { intros v Hv. assert (Hv' : In v (reg_remove u (s_reg s))) by (destruct (current_of (s_queue s) u); exact Hv).
      apply (reg_remove_in u v _ Hnd Hin) in Hv'. destruct Hv' as (Hvi & Hv'). intros Ei. apply Hv'. eapply ids_inj; eauto. }
    unfold owned. rewrite !Ho, !HC by auto. split; [lia|]. left. split; [lia|].
    apply Er in Hws. apply Er in Hws'. rewrite Ek in E, HB. simpl in E. unfold lift_multi, multi_worker_terminated in E.
    destruct (pm_index None u _). destruct (pm_index [] u _). injection E as _ <-. cbn [order_of mq_order] in *. apply before_remove; auto.
Qed.

(* g requests for w and g' for w' in turn *)
Definition turns (w w' : worker) (m m' : manager) (g g' : nat) : Prop :=
  (before w w' (order_of m) -> g = g' /\ before w w' (order_of m') \/ g = S g' /\ before w' w (order_of m')) /\
  (before w' w (order_of m) -> g = g' /\ before w' w (order_of m') \/ g' = S g /\ before w w' (order_of m')).

Lemma turns_refl w w' m : turns w w' m m 0 0.
Proof. split; auto. Qed.
Lemma turns_trans w w' m m1 m2 g g' k k' : turns w w' m m1 g g' -> turns w w' m1 m2 k k' -> turns w w' m m2 (g + k) (g' + k').
Proof.
  intros (A1 & A2) (B1 & B2). split; intros HB.
  - destruct (A1 HB) as [(-> & H)|(-> & H)]; [destruct (B1 H) as [(-> & H')|(-> & H')]|destruct (B2 H) as [(-> & H')|(-> & H')]];
      (left; split; [lia|assumption]) || (right; split; [lia|assumption]).
  - destruct (A2 HB) as [(-> & H)|(-> & H)]; [destruct (B2 H) as [(-> & H')|(-> & H')]|destruct (B1 H) as [(-> & H')|(-> & H')]];
      (left; split; [lia|assumption]) || (right; split; [lia|assumption]).
Qed.

Lemma order_total m ws w w' : qinv m ws -> (exists q, m = QMulti q) -> In w ws -> In w' ws -> w <> w' ->
  before w w' (order_of m) \/ before w' w (order_of m).
Proof.
  intros HQ (q & ->) Hw Hw' Hne. pose proof (qi_impl _ _ HQ) as HM. simpl in HM. destruct HM as [S1 _ _ _].
  apply before_total; [| |exact Hne]; eapply Permutation_in; [symmetry; exact S1|assumption|symmetry; exact S1|assumption].
Qed.
Lemma before_asym m ws w w' : qinv m ws -> before w w' (order_of m) -> before w' w (order_of m) -> False.
Proof.
  intros HQ (l1 & l2 & E1 & H1) (k1 & k2 & E2 & H2). destruct m as [q|q]; simpl in *; [destruct l1; discriminate|].
  assert (Hnd' : NoDup (mq_order q)).
  { apply (NoDup_map_inv w_id). pose proof (qi_impl _ _ HQ) as HM. simpl in HM. destruct HM as [S1 _ _ _].
    eapply Permutation_NoDup; [symmetry; apply (ids_perm _ _ S1)|exact (qi_nodup _ _ HQ)]. }
  rewrite E1 in Hnd', E2. clear - H1 H2 Hnd' E2. revert k1 E2. induction l1 as [|y l1 IH]; intros k1 E2.
  - simpl in Hnd'. inversion Hnd' as [|? ? Hni _]; subst. destruct k1 as [|z k1]; simpl in E2.
    + injection E2 as -> _. contradiction.
    + injection E2 as -> ->. apply Hni. rewrite in_app_iff. simpl. auto.
  - simpl in Hnd'. inversion Hnd' as [|? ? Hni Hnd2]; subst. destruct k1 as [|z k1]; simpl in E2.
    + injection E2 as -> _. apply Hni. rewrite in_app_iff. simpl. auto.
    + injection E2 as -> E2. exact (IH Hnd2 k1 E2).
Qed.

Lemma atom_turns s h l s' h' w w' : inv s h -> atom s h l s' h' -> (exists q, s_queue s = QMulti q) ->
  In w (s_reg s) -> In w' (s_reg s) -> In w (s_reg s') -> In w' (s_reg s') -> w <> w' ->
  (forall r x, l = LEnqueue r x -> capable w r /\ capable w' r) ->
  exists g g', own_count s' w + lost w l = own_count s w + g /\ own_count s' w' + lost w' l = own_count s w' + g' /\
    turns w w' (s_queue s) (s_queue s') g g'.
Proof.
  intros HI Ha Hk Hw Hw' Hws Hws' Hne Hfit. pose proof (inv_q _ _ HI) as HQ.
  assert (Hfit' : forall r x, l = LEnqueue r x -> capable w' r /\ capable w r) by (intros r x El; destruct (Hfit r x El); auto).
  destruct (order_total _ _ w w' HQ Hk Hw Hw' Hne) as [HB|HB].
  - destruct (atom_turn _ _ _ _ _ w w' HI Ha Hk Hw Hw' Hws Hws' Hne Hfit HB) as (E' & [(E & HB')|(E & HB')]).
    + exists 0, 0. split; [lia|]. split; [lia|]. split; [auto|]. intros HB2. exfalso. exact (before_asym _ _ _ _ HQ HB HB2).
    + exists 1, 0. split; [lia|]. split; [lia|]. split; [auto|]. intros HB2. exfalso. exact (before_asym _ _ _ _ HQ HB HB2).
  - destruct (atom_turn _ _ _ _ _ w' w HI Ha Hk Hw' Hw Hws' Hws (not_eq_sym Hne) Hfit' HB) as (E' & [(E & HB')|(E & HB')]).
    + exists 0, 0. split; [lia|]. split; [lia|]. split; [|auto]. intros HB2. exfalso. exact (before_asym _ _ _ _ HQ HB HB2).
    + exists 0, 1. split; [lia|]. split; [lia|]. split; [|auto]. intros HB2. exfalso. exact (before_asym _ _ _ _ HQ HB HB2).
Qed.

Lemma atoms_turns s h ls s' h' w w' : atoms s h ls s' h' -> inv s h -> (exists q, s_queue s = QMulti q) ->
  In w (s_reg s) -> In w' (s_reg s) -> In w (s_reg s') -> In w' (s_reg s') -> w <> w' ->
  (forall r x, In (LEnqueue r x) ls -> capable w r /\ capable w' r) ->
  exists g g', own_count s' w + total (lost w) ls = own_count s w + g /\ own_count s' w' + total (lost w') ls = own_count s w' + g' /\
    turns w w' (s_queue s) (s_queue s') g g'.
Proof.
  induction 1 as [s h|s h l s1 h1 ls s2 h2 Ha Has IH]; intros HI Hk Hw Hw' Hws Hws' Hne Hfit.
  - exists 0, 0. simpl. split; [lia|]. split; [lia|]. apply turns_refl.
  - pose proof (atom_inv _ _ _ _ _ _ _ HI Ha) as HI1.
    assert (Hlt : forall v, In v (s_reg s) -> w_id v < s_next_w s1).
    { intros v Hv. destruct (atom_next _ _ _ _ _ _ _ Ha) as (H & _). apply (inv_w _ _ HI) in Hv. lia. }
    pose proof (atoms_reg_later _ _ _ _ _ _ _ _ Has HI1 (Hlt _ Hw) Hws) as Hw1.
    pose proof (atoms_reg_later _ _ _ _ _ _ _ _ Has HI1 (Hlt _ Hw') Hws') as Hw1'.
    assert (Hk1 : exists q, s_queue s1 = QMulti q).
    { destruct Hk as (q & Ek). pose proof (atom_kind _ _ _ _ _ _ _ Ha) as HK. rewrite Ek in HK. destruct (s_queue s1); [contradiction|eauto]. }
    destruct (atom_turns _ _ _ _ _ w w' HI Ha Hk Hw Hw' Hw1 Hw1' Hne) as (g & g' & E & E' & T).
    { intros r x ->. apply (Hfit r x). left. reflexivity. }
    destruct (IH HI1 Hk1 Hw1 Hw1' Hws Hws' Hne) as (k & k' & F & F' & T').
    { intros r x Hin. apply (Hfit r x). right. exact Hin. }
    exists (g + k), (g' + k'). simpl. split; [lia|]. split; [lia|]. eapply turns_trans; eassumption.
Qed.

(* whatever is enqueued was held, in hand or is new *)
Lemma atoms_sources s h ls s' h' : atoms s h ls s' h' -> inv s h -> forall r x, In (LEnqueue r x) ls ->
  r_complete r = true /\ (In r (held (s_queue s)) \/ In r h \/ In r (created ls)).
Proof.
  induction 1 as [s h|s h l s1 h1 ls s2 h2 Ha Has IH]; intros HI r x Hin; [contradiction|].
  pose proof (atom_conserve o cfg _ _ _ _ _ HI Ha) as P. destruct Hin as [->|Hin].
  - inversion Ha; subst. split; [assumption|]. simpl. auto.
  - destruct (IH (atom_inv _ _ _ _ _ _ _ HI Ha) r x Hin) as (Hc & Hs). split; [exact Hc|].
    assert (Hs' : In r (created_of l ++ held (s_queue s) ++ h) \/ In r (created ls)).
    { destruct Hs as [Hs|[Hs|Hs]]; [left|left|right; exact Hs];
        (eapply Permutation_in; [symmetry; exact P|]); rewrite !in_app_iff; auto. }
    unfold created. simpl. rewrite !in_app_iff in *. fold (created ls). tauto.
Qed.

(* a report of a worker *)
Lemma report_sim m s outs s' : inv s [] -> on_request o cfg m s = (outs, inr (tt, s')) ->
  exists ls, atoms s [] ls s' [] /\ shape o cfg m s s' ls /\
    forall rest, m_key m = "workers" -> m_data m = "done" :: rest ->
      exists ls', ls = LTau :: ls' /\ done_shape (m_ident m) (m_data m) (refresh cfg (m_ident m) s) s' ls'.
Proof.
  intros HI H. destruct (String.eqb (m_key m) "workers" && starts_with ["done"] (m_data m)) eqn:ED.
  - apply andb_true_iff in ED. destruct ED as (Ek & Ed). apply String.eqb_eq in Ek. apply starts_with_iff in Ed. destruct Ed as (rest & Ed).
    simpl in Ed. pose proof H as H0. rewrite on_request_eq in H. unfold on_request_cases in H. rewrite Ek, Ed in H. cbn [String.eqb Ascii.eqb Bool.eqb] in H.
    assert (HI1 : inv (refresh cfg (m_ident m) s) []) by (eapply (atom_inv o cfg); [exact HI|apply a_tau; apply refresh_core]).
    unfold call_function, worker_commands in H. cbn [sm_find] in H.
    change (String.eqb "init" "done") with false in H. change (String.eqb "done" "done") with true in H. cbv iota in H.
    destruct (done_sim o cfg _ _ _ _ _ HI1 H) as (ls & A & O & D). rewrite <- Ed in D.
    exists (LTau :: ls). split; [econstructor; [apply a_tau; apply refresh_core|exact A]|]. split; [eapply sh_done; eauto|].
    intros rest' _ _. exists ls. auto.
  - destruct (on_request_sim _ _ _ _ _ _ HI H) as (ls & A & _ & Hsh). exists ls. split; [exact A|]. split; [exact Hsh|].
    intros rest Ek Ed. rewrite Ek, Ed in ED. discriminate.
Qed.

Lemma error_lost v w r ls : error_shape w r ls -> total (lost v) ls = 0.
Proof. destruct 1; reflexivity. Qed.

Lemma event_lost k tr e s ls v : run o cfg k tr s -> ev_pre e = s -> on_request o cfg (ev_in e) s = (ev_out e, inr (tt, ev_post e)) ->
  shape o cfg (ev_in e) s (ev_post e) ls ->
  (forall rest, m_key (ev_in e) = "workers" -> m_data (ev_in e) = "done" :: rest ->
      exists ls', ls = LTau :: ls' /\ done_shape (m_ident (ev_in e)) (m_data (ev_in e)) (refresh cfg (m_ident (ev_in e)) s) (ev_post e) ls') ->
  total (lost v) ls = if gives_back v e then 1 else 0.
Proof.
  intros HR Epre Hstep Hsh HD. pose proof (run_inv _ _ _ _ _ HR) as HI.
  assert (Hq : forall l, Forall quiet l -> total (lost v) l = 0).
  { intros l HF. induction HF as [|a l Ha _ IH]; [reflexivity|]. simpl. rewrite IH. destruct a; try contradiction; reflexivity. }
  assert (HT : forall l, Forall timer_label l -> total (lost v) l = 0).
  { intros l HF. induction HF as [|a l Ha _ IH]; [reflexivity|]. simpl. rewrite IH. destruct a; try contradiction; reflexivity. }
  assert (Hform : gives_back v e = true -> exists rest, m_key (ev_in e) = "workers" /\ m_data (ev_in e) = "done" :: rest).
  { unfold gives_back. intros Hg. apply andb_true_iff in Hg. destruct Hg as (Hg & _). rewrite !orb_true_iff in Hg.
    destruct Hg as [[Hg|Hg]|Hg]; apply credited_form in Hg; destruct Hg as (w & r & rest & _ & _ & E & _); rewrite E; cbn; eauto. }
  destruct (String.eqb (m_key (ev_in e)) "workers" && starts_with ["done"] (m_data (ev_in e))) eqn:ED.
  2:{ assert (Eg : gives_back v e = false).
      { destruct (gives_back v e) eqn:Eg; [|reflexivity]. destruct (Hform eq_refl) as (rest & E1 & E2). rewrite E1, E2 in ED. discriminate. }
      rewrite Eg. destruct Hsh as [ls HF _|ls _ HF|ls rest _ _ HE|pre w0 cur x next rest _ _ HF _|ls rest Hk' Hd _]; auto.
      - destruct HE; reflexivity.
      - rewrite total_app, (Hq _ HF). reflexivity.
      - rewrite Hk', Hd in ED. discriminate. }
  apply andb_true_iff in ED. destruct ED as (Ek & Ed). apply String.eqb_eq in Ek. apply starts_with_iff in Ed. destruct Ed as (rest & Ed).
  simpl in Ed. destruct (HD rest Ek Ed) as (ls' & -> & Hs). simpl total.
  assert (HC : forall w0 r0 st rest0, find_worker_by_identity (m_ident (ev_in e)) (s_reg (refresh cfg (m_ident (ev_in e)) s)) = Some w0 ->
      current_of (s_queue (refresh cfg (m_ident (ev_in e)) s)) w0 = Some r0 ->
      m_data (ev_in e) = "done" :: r_job r0 :: st :: rest0 -> In st ["OK"; "FAILED"; "INTERNAL_ERROR"] ->
      (st = "OK" \/ length rest0 = 1) -> gives_back v e = Nat.eqb (w_id w0) (w_id v)).
  { intros w0 r0 st rest0 Hf Hc0 Ed0 Hst Hl. rewrite refresh_reg, <- sender_find in Hf. rewrite refresh_queue in Hc0. rewrite <- Epre in Hf, Hc0.
    unfold gives_back, by_worker, by_whom. rewrite Hf.
    assert (Ein : ev_in e = Msg "workers" (m_ident (ev_in e)) ("done" :: r_job r0 :: st :: rest0)).
    { destruct (ev_in e) as [key i d]. cbn [m_key m_data m_ident] in *. rewrite Ek, Ed0. reflexivity. }
    assert (Ecr : credited st e = true).
    { unfold credited. rewrite (own_report_intro _ _ _ _ _ Ein Hf Hc0), Ed0, String.eqb_refl. cbn [andb].
      destruct Hl as [->|Hl]; [reflexivity|]. rewrite Hl. apply orb_true_r. }
    destruct Hst as [<-|[<-|[<-|[]]]]; rewrite Ecr, ?orb_true_r; reflexivity. }
  destruct Hs as [Es|w0 r0 m0 x st Hf Hc0 H1 H2 H3|w0 r0 ls Hf Hc0 H1 H2 H3 He].
  - (* ignored: the statistics stay the same *)
    simpl. pose proof (run_stats o cfg _ _ _ HR) as HS. cbv zeta in HS.
    pose proof (step_stats o cfg _ _ _ _ _ _ _ _ _ _ HI Hstep HS) as HS'. cbv zeta in HS'. rewrite Ek in HS'.
    change (String.eqb "workers" "timer") with false in HS'. cbv iota in HS'.
    rewrite Es, refresh_stats, HS in HS'. unfold gives_back.
    assert (Ee : mkEvent s (ev_in e) (ev_out e) (refresh cfg (m_ident (ev_in e)) s) = e) by (rewrite <- Es, <- Epre; destruct e; reflexivity).
    rewrite Ee in HS'. unfold stats_list in HS'.
    destruct (credited "OK" e), (credited "FAILED" e), (credited "INTERNAL_ERROR" e); try reflexivity; exfalso; cbn [b2n] in HS';
      match type of HS' with ?a = ?b => assert (HX : map snd a = map snd b) by (rewrite HS' at 1; reflexivity) end; cbn [map snd] in HX; inversion HX; lia.
  - destruct (m_data (ev_in e)) as [|c [|j [|st' rest0]]] eqn:Edd; try discriminate. injection Ed as -> _.
    cbn [nth_error] in H1, H2. injection H1 as ->. injection H2 as ->.
    rewrite (HC w0 r0 st rest0 Hf Hc0 eq_refl).
    + simpl. destruct (Nat.eqb (w_id w0) (w_id v)); reflexivity.
    + destruct H3 as [(-> & _)|(-> & _)]; simpl; auto.
    + destruct H3 as [(-> & _)|(-> & d & Hl & _)]; [auto|]. right. cbn [length] in Hl. lia.
  - destruct (m_data (ev_in e)) as [|c [|j [|st' rest0]]] eqn:Edd; try discriminate. injection Ed as -> _.
    cbn [nth_error] in H1, H2. injection H1 as ->. injection H2 as ->. simpl. rewrite (error_lost _ _ _ _ He).
    rewrite (HC w0 r0 "INTERNAL_ERROR" rest0 Hf Hc0 eq_refl).
    + destruct (Nat.eqb (w_id w0) (w_id v)); reflexivity.
    + simpl. auto.
    + right. cbn [length] in H3. lia.
Qed.

(* in one event *)
Lemma event_turns tr e s1 w w' : run o cfg KMulti tr s1 -> run o cfg KMulti (tr ++ [e]) (ev_post e) ->
  In w (s_reg s1) -> In w' (s_reg s1) -> In w (s_reg (ev_post e)) -> In w' (s_reg (ev_post e)) -> w <> w' ->
  can_run_all w s1 -> can_run_all w' s1 -> can_run_all w (ev_post e) -> can_run_all w' (ev_post e) ->
  exists g g', own_count (ev_post e) w + (if gives_back w e then 1 else 0) = own_count s1 w + g /\
    own_count (ev_post e) w' + (if gives_back w' e then 1 else 0) = own_count s1 w' + g' /\
    turns w w' (s_queue s1) (s_queue (ev_post e)) g g'.
Proof.
  intros H1 H2 Hw Hw' Hws Hws' Hne Hc1 Hc1' Hc2 Hc2'. destruct (run_split _ _ _ _ _ _ _ H2) as (HP & Hstep).
  pose proof (run_fun _ _ _ _ _ HP _ H1) as Epre. pose proof (run_inv _ _ _ _ _ H1) as HI. rewrite Epre in Hstep.
  destruct (report_sim _ _ _ _ HI Hstep) as (ls & A & Hsh & HD0).
  assert (Hk : exists q, s_queue s1 = QMulti q).
  { pose proof (run_kind _ _ _ _ _ H1) as HK. simpl in HK. destruct (s_queue s1); [contradiction|eauto]. }
  destruct (used_inv o _ _ (run_used o cfg _ _ _ H1)) as (_ & HC).
  assert (Hlast : forall r, In r (created ls) -> In (LEnqueue r None) ls \/ (exists x, In (LEnqueue r x) ls) -> In r (held (s_queue (ev_post e)))).
  { intros r Hcr Hen. pose proof (atoms_conserve _ _ _ _ _ _ _ A HI) as P.
    assert (Hi : In r (dropped ls ++ finished ls ++ held (s_queue (ev_post e)) ++ [])).
    { eapply Permutation_in; [exact P|]. apply in_app_iff. auto. }
    assert (Hq : forall l, Forall quiet l -> created l = []).
    { intros l HF. unfold created. induction HF as [|a l Ha _ IH]; [reflexivity|]. simpl. rewrite IH. destruct a; try contradiction; reflexivity. }
    assert (HT : forall l, Forall timer_label l -> created l = []).
    { intros l HF. unfold created. induction HF as [|a l Ha _ IH]; [reflexivity|]. simpl. rewrite IH. destruct a; try contradiction; reflexivity. }
    rewrite app_nil_r, !in_app_iff in Hi.
    destruct Hsh as [ls HF _|ls _ HF|ls rest _ _ HE|pre w0 cur x next rest _ _ HF _|ls rest Hk' Hd HD].
    - rewrite (Hq _ HF) in Hcr. contradiction.
    - rewrite (HT _ HF) in Hcr. contradiction.
    - destruct HE; try contradiction.
      + simpl in Hi. tauto.
      + exfalso. destruct Hen as [Hen|(x & Hen)]; simpl in Hen; repeat (destruct Hen as [Hen|Hen]; [discriminate|]); contradiction.
    - exfalso. destruct Hen as [Hen|(x' & Hen)]; apply in_app_iff in Hen; destruct Hen as [Hen|[Hen|[]]]; try discriminate;
        rewrite Forall_forall in HF; exact (HF _ Hen).
    - exfalso. destruct HD as [_|w0 r0 m0 x0 st _ _ _ _ _|w0 r0 ls0 _ _ _ _ _ HE]; [contradiction|contradiction|].
      destruct HE; contradiction. }
  destruct (atoms_turns _ _ _ _ _ w w' A HI Hk Hw Hw' Hws Hws' Hne) as (g & g' & E & E' & T).
  { intros r x Hin. destruct (atoms_sources _ _ _ _ _ A HI r x Hin) as (Hcomp & Hs).
    assert (HF : fits w r /\ fits w' r).
    { destruct Hs as [Hs|[Hs|Hs]]; [split; auto|destruct Hs|]. apply Hlast in Hs; [|eauto]. split; auto. }
    split; apply fits_capable; try apply HC; tauto. }
  assert (HL : forall v, In v (s_reg s1) -> total (lost v) ls = if gives_back v e then 1 else 0).
  { intros v Hv. exact (event_lost _ _ _ _ _ v H1 Epre Hstep Hsh HD0). }
  rewrite !HL in * by assumption. eauto.
Qed.

Theorem alternate w w' tr2 : forall tr1 s1 s2, run o cfg KMulti tr1 s1 -> run o cfg KMulti (tr1 ++ tr2) s2 ->
  In w (s_reg s1) -> In w' (s_reg s1) -> w <> w' -> can_run_all w s1 -> can_run_all w' s1 ->
  (forall e, In e tr2 -> In w (s_reg (ev_post e)) /\ In w' (s_reg (ev_post e)) /\ can_run_all w (ev_post e) /\ can_run_all w' (ev_post e)) ->
  exists g g', gets w s1 tr2 s2 g /\ gets w' s1 tr2 s2 g' /\ turns w w' (s_queue s1) (s_queue s2) g g'.
Proof.
  induction tr2 as [|e tr2 IH]; intros tr1 s1 s2 H1 H2 Hw Hw' Hne Hc Hc' Hall.
  - rewrite app_nil_r in H2. rewrite (run_fun _ _ _ _ _ H1 _ H2). exists 0, 0. unfold gets. rewrite !list_count_nil.
    split; [lia|]. split; [lia|]. apply turns_refl.
  - pose proof (run_post _ _ _ _ _ _ _ H2) as H3.
    destruct (Hall e (or_introl eq_refl)) as (Hw1 & Hw1' & Hc1 & Hc1').
    destruct (event_turns _ _ _ w w' H1 H3 Hw Hw' Hw1 Hw1' Hne Hc Hc' Hc1 Hc1') as (g & g' & E & E' & T).
    assert (H2' : run o cfg KMulti ((tr1 ++ [e]) ++ tr2) s2) by (rewrite <- app_assoc; exact H2).
    destruct (IH _ _ _ H3 H2' Hw1 Hw1' Hne Hc1 Hc1' ltac:(intros e' He'; apply Hall; right; exact He')) as (k & k' & F & F' & T').
    exists (g + k), (g' + k'). unfold gets, own_count in *. rewrite !list_count_cons. split; [lia|]. split; [lia|]. eapply turns_trans; eassumption.
Qed.
End WithConfig.

(* ---- a worker that never answers keeps half of the requests ---- *)

Definition worker_a : worker := mkWorker 0 100 "A" "" "g" [] [("hwgroup", MMulti "g")].
Definition worker_b : worker := mkWorker 1 99 "B" "" "g" [] [("hwgroup", MMulti "g")].
Definition job_x (n : nat) : request := mkRequest n [] [] "x" ["eval"; "x"] true.
Definition pile (q : list request) (live : table) (st : N) (next : nat) : state :=
  mkState [worker_a; worker_b]
    (QMulti (mkMulti [(worker_b, []); (worker_a, q)] [(worker_b, None); (worker_a, Some (job_x 1))] [worker_b; worker_a]))
    [(worker_b, 0%Z); (worker_a, 0%Z)] live [] (stats_list st 0 0 None 0 0) false 2 next.
Definition opening : list msg :=
  [from_worker "A" ["init"; "g"]; from_worker "B" ["init"; "g"]; from_client "u" ["eval"; "x"; ""];
   from_worker "B" ["done"; "x"; "OK"]; from_client "u" ["eval"; "x"; ""]].
Definition round : list msg :=
  [from_client "u" ["eval"; "x"; ""]; from_client "u" ["eval"; "x"; ""]; from_worker "B" ["done"; "x"; "OK"]].


Definition pile_busy (r : request) (ord : list worker) (q : list request) (live : table) (st : N) (next : nat) : state :=
  mkState [worker_a; worker_b]
    (QMulti (mkMulti [(worker_b, []); (worker_a, q)] [(worker_b, Some r); (worker_a, Some (job_x 1))] ord))
    [(worker_b, 0%Z); (worker_a, 0%Z)] live [] (stats_list st 0 0 None 0 0) false 2 next.

Lemma pile_1 cfg q live st next : exists outs,
  on_request demo_oracle cfg (from_client "u" ["eval"; "x"; ""]) (pile q live st next) =
  (outs, inr (tt, pile_busy (job_x next) [worker_a; worker_b] q live st (S next))).
Proof. eexists. vm_compute. reflexivity. Qed.
Lemma pile_2 cfg r q live st next : exists outs,
  on_request demo_oracle cfg (from_client "u" ["eval"; "x"; ""]) (pile_busy r [worker_a; worker_b] q live st next) =
  (outs, inr (tt, pile_busy r [worker_b; worker_a] (q ++ [job_x next]) live st (S next))).
Proof. eexists. vm_compute. reflexivity. Qed.
Lemma pile_3 cfg n q live st next : exists outs,
  on_request demo_oracle cfg (from_worker "B" ["done"; "x"; "OK"]) (pile_busy (job_x n) [worker_b; worker_a] q live st next) =
  (outs, inr (tt, pile q ((1, c_max_liveness cfg) :: live) (st + 1) next)).
Proof. eexists. vm_compute. reflexivity. Qed.
Lemma pile_opened cfg : exists tr live st next, exec demo_oracle cfg (start KMulti) opening = (tr, inr (pile [] live st next)).
Proof. do 4 eexists. vm_compute. reflexivity. Qed.
Lemma pile_grows cfg q live st next : exists tr live' st' next',
  exec demo_oracle cfg (pile q live st next) round = (tr, inr (pile (q ++ [job_x (S next)]) live' st' next')).
Proof.
  destruct (pile_1 cfg q live st next) as (o1 & E1). destruct (pile_2 cfg (job_x next) q live st (S next)) as (o2 & E2).
  destruct (pile_3 cfg next (q ++ [job_x (S next)]) live st (S (S next))) as (o3 & E3).
  do 4 eexists. unfold round. cbn [exec]. rewrite E1, E2, E3. reflexivity.
Qed.

Theorem piles_up cfg n : exists tr s live st next q, run demo_oracle cfg KMulti tr s /\ s = pile q live st next /\ length q = n /\
  forall r, In r q -> r_complete r = true /\ r_headers r = [].
Proof.
  induction n as [|n IH].
  - destruct (pile_opened cfg) as (tr & live & st & next & E). exists tr, (pile [] live st next), live, st, next, [].
    split; [eapply exec_start; exact E|]. split; [reflexivity|]. split; [reflexivity|intros r []].
  - destruct IH as (tr & s & live & st & next & q & HR & -> & Hl & Hq).
    destruct (pile_grows cfg q live st next) as (tr' & live' & st' & next' & E).
    exists (tr ++ tr'), (pile (q ++ [job_x (S next)]) live' st' next'), live', st', next', (q ++ [job_x (S next)]).
    split; [eapply exec_run; eassumption|]. split; [reflexivity|]. split; [rewrite app_length; simpl; lia|].
    intros r Hr. apply in_app_iff in Hr. destruct Hr as [Hr|[<-|[]]]; [auto|split; reflexivity].
Qed.

Theorem fair_share o cfg tr1 tr2 s1 s2 w w' : run o cfg KMulti tr1 s1 -> run o cfg KMulti (tr1 ++ tr2) s2 ->
  In w (s_reg s1) -> In w' (s_reg s1) -> w <> w' -> can_run_all w s1 -> can_run_all w' s1 ->
  (forall e, In e tr2 -> In w (s_reg (ev_post e)) /\ In w' (s_reg (ev_post e)) /\ can_run_all w (ev_post e) /\ can_run_all w' (ev_post e)) ->
  exists g g', gets w s1 tr2 s2 g /\ gets w' s1 tr2 s2 g' /\ g <= S g' /\ g' <= S g.
Proof.
  intros H1 H2 Hw Hw' Hne Hc Hc' Hall. destruct (alternate o cfg w w' tr2 tr1 s1 s2 H1 H2 Hw Hw' Hne Hc Hc' Hall) as (g & g' & G & G' & T1 & T2).
  exists g, g'. split; [exact G|]. split; [exact G'|].
  assert (Hk : exists q, s_queue s1 = QMulti q).
  { pose proof (run_kind _ _ _ _ _ H1) as HK. simpl in HK. destruct (s_queue s1); [contradiction|eauto]. }
  destruct (order_total _ _ w w' (inv_q _ _ (run_inv _ _ _ _ _ H1)) Hk Hw Hw' Hne) as [HB|HB];
    [destruct (T1 HB) as [(-> & _)|(-> & _)]|destruct (T2 HB) as [(-> & _)|(-> & _)]]; lia.
Qed.

Theorem idle_beside_backlog cfg n : exists tr s a b, run demo_oracle cfg KMulti tr s /\
  s_reg s = [a; b] /\ owned (s_queue s) b = [] /\ length (own_queue (s_queue s) a) = n /\
  forall r, In r (own_queue (s_queue s) a) -> fits b r.
Proof.
  destruct (piles_up cfg n) as (tr & s & live & st & next & q & HR & -> & Hl & Hq).
  exists tr, (pile q live st next), worker_a, worker_b. split; [exact HR|]. split; [reflexivity|]. split; [reflexivity|].
  split; [exact Hl|]. intros r Hr. destruct (Hq r Hr) as (_ & Eh). intros h v Hin. rewrite Eh in Hin. destruct Hin.
Qed.
