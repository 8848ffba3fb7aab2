(* Idle workers beside waiting requests (C12, C13), order of service in runs (C11, C13). *)
From Coq Require Import Permutation Lia.
From Verif Require Import Base Bytes Containers Worker Multi Single Queue Handler SpecText Spec SpecRun SpecMsg SpecQueue
  Facts QueueInv Atoms HandlerSim Conserve OwnQueue QueueContract QueueOrder Provenance OneJob Members Messages Demo.
Local Open Scope string_scope.
Local Open Scope list_scope.

Definition waits (m : manager) (r : request) (w : worker) : Prop :=
  match m with QSingle _ => In r (queued m) /\ capable w r | QMulti _ => In r (own_queue m w) end.
Definition starving (m : manager) (w : worker) : Prop := current_of m w = None /\ exists r, waits m r w.

Lemma upd_same (f : worker -> option request) w x w' : w_id w = w_id w' -> upd f w x w' = x.
Proof. intros E. unfold upd. rewrite (proj2 (Nat.eqb_eq _ _) E). reflexivity. Qed.
Lemma upd_other (f : worker -> option request) w x w' : w_id w <> w_id w' -> upd f w x w' = f w'.
Proof. intros E. unfold upd. rewrite (proj2 (Nat.eqb_neq _ _) E). reflexivity. Qed.

Section WithConfig.
Context (o : oracle) (cfg : config).
Local Notation atoms := (atoms o cfg).
Local Notation atom := (atom o cfg).

(* ---- the manager of a run is used as its interface prescribes ---- *)

Lemma atom_used s h l s' h' : inv s h -> used o (s_queue s) (s_reg s) -> atom s h l s' h' -> used o (s_queue s') (s_reg s').
Proof.
  intros HI HU Ha. pose proof (qi_nodup _ _ (inv_q _ _ HI)) as Hnd. destruct Ha; simpl; try exact HU.
  - unfold core in H. injection H as <- <- _ _ _. exact HU.
  - unfold core in H4. injection H4 as -> -> _ _ _. eapply us_add; eauto.
    + destruct H0 as (h1 & d & w0 & E & ->). do 7 eexists. split; [exact E|reflexivity].
    + intros w' Hw' E. apply (inv_w _ _ HI) in Hw'. lia.
    + intros r Hc. apply (H2 r Hc).
  - assert (Es : s_queue s' = m' /\ s_reg s' = s_reg s) by (destruct H3; subst; auto). destruct Es as (-> & ->).
    eapply us_cancelled; eauto.
  - eapply us_cancelled; eauto.
  - eapply us_assign; eauto.
  - eapply us_enqueue; eauto.
  - assert (s_reg (incr_opt (current_of (s_queue s) w) (set_reg (reg_remove w (s_reg s)) s)) = reg_remove w (s_reg s)) as ->
      by (destruct (current_of (s_queue s) w); reflexivity).
    rewrite <- reg_remove_eq by exact Hnd. eapply us_terminated; eauto.
Qed.
Lemma atoms_used s h ls s' h' : atoms s h ls s' h' -> inv s h -> used o (s_queue s) (s_reg s) -> used o (s_queue s') (s_reg s').
Proof.
  induction 1 as [|s h l s1 h1 ls s2 h2 Ha _ IH]; intros HI HU; [exact HU|].
  apply IH; [eapply atom_inv; eauto|eapply atom_used; eauto].
Qed.
Lemma run_used k tr s : run o cfg k tr s -> used o (s_queue s) (s_reg s).
Proof.
  induction 1 as [|tr s m outs s' HR IH Hs].
  - exists []. destruct k; [apply (gi_empty o KSingle)|apply (gi_empty o KMulti)].
  - pose proof (run_inv _ _ _ _ _ HR) as HI. destruct (on_request_sim _ _ _ _ _ _ HI Hs) as (ls & A & _).
    eapply atoms_used; eauto.
Qed.

Definition same_kind (m m' : manager) : Prop :=
  match m, m' with QSingle _, QSingle _ => True | QMulti _, QMulti _ => True | _, _ => False end.
Lemma atom_kind s h l s' h' : atom s h l s' h' ->
  same_kind (s_queue s) (s_queue s').
Proof.
  intros Ha.
  assert (HR : forall m : manager, same_kind m m) by (intros []; exact I).
  destruct Ha; simpl; try apply HR.
  - unfold core in H. injection H as _ <- _ _ _. apply HR.
  - unfold core in H4. injection H4 as _ -> _ _ _. destruct (s_queue s); simpl in H3; unfold lift_single, lift_multi in H3.
    + destruct (single_add_worker _ _ _ _) as [(?, ?)|]; simpl in H3; [|discriminate]. injection H3 as _ <-. exact I.
    + simpl in H3. injection H3 as _ <-. exact I.
  - assert (Es : s_queue s' = m') by (destruct H3; subst; auto). rewrite Es.
    destruct (s_queue s); simpl in H2; unfold lift_single, lift_multi in H2; simpl in H2; injection H2 as _ <-; exact I.
  - destruct (s_queue s); simpl in H1; unfold lift_single, lift_multi in H1; simpl in H1; injection H1 as _ <-; exact I.
  - destruct (s_queue s); simpl in H1; unfold lift_single, lift_multi in H1.
    + destruct (single_assign _ _ _) as [(?, ?)|]; simpl in H1; [|discriminate]. injection H1 as _ <-. exact I.
    + simpl in H1. injection H1 as _ <-. exact I.
  - destruct (s_queue s); simpl in H1; unfold lift_single in H1.
    + destruct (single_enqueue _ _ _) as [(?, ?)|]; simpl in H1; [|discriminate]. injection H1 as _ <-. exact I.
    + destruct (multi_enqueue _ _) as [(?, ?)|]; simpl in H1; [|discriminate]. injection H1 as _ <-. exact I.
  - destruct (s_queue s); simpl in H0; unfold lift_single, lift_multi in H0.
    + destruct (single_worker_terminated _ _) as [(?, ?)|]; simpl in H0; [|discriminate]. injection H0 as _ <-. exact I.
    + simpl in H0. injection H0 as _ <-. exact I.
Qed.
Lemma atoms_kind s h ls s' h' : atoms s h ls s' h' ->
  same_kind (s_queue s) (s_queue s').
Proof.
  induction 1 as [s h|s h l s1 h1 ls s2 h2 Ha _ IH]; [destruct (s_queue s); exact I|].
  apply atom_kind in Ha. unfold same_kind in *. destruct (s_queue s), (s_queue s1), (s_queue s2); tauto.
Qed.
Lemma run_kind k tr s : run o cfg k tr s ->
  match k, s_queue s with KSingle, QSingle _ => True | KMulti, QMulti _ => True | _, _ => False end.
Proof.
  induction 1 as [|tr s m outs s' HR IH Hs]; [destruct k; exact I|].
  destruct (on_request_sim _ _ _ _ _ _ (run_inv _ _ _ _ _ HR) Hs) as (ls & A & _). apply atoms_kind in A. unfold same_kind in A.
  destruct k, (s_queue s), (s_queue s'); tauto.
Qed.

(* ---- starvation ---- *)

Lemma atom_starving s h l s' h' w : inv s h -> atom s h l s' h' -> In w (s_reg s') -> starving (s_queue s') w ->
  (forall x, l <> LAssign w x) /\
  ((In w (s_reg s) /\ starving (s_queue s) w) \/ (exists r, l = LCancel w r) \/ (exists r m, l = LDone w r m)).
Proof.
  intros HI Ha Hw (Hidle & r & Hr). pose proof (inv_q _ _ HI) as HQ. pose proof (qi_nodup _ _ HQ) as Hnd. destruct Ha as
    [s s' h Hc|s h h' _|s h m Hn|s h r' Hid Hcomp Hfr|s h r'|s h w' cur x m' n s' Hid Hmk Hn Hcur E Hc
    |s h w' r' m m' s' Hin Hcw Hrep E Hs'|s h w' r' m' Hin Hcw E|s h w' x m' Hin Hcw E|s h r' x m' Hcomp Hf E|s h r' m Hrep
    |s h w' rs m' Hin E]; simpl in *; (split; [try discriminate|]).
  - left. unfold core in Hc. injection Hc as E1 E2 _ _ _. rewrite E1, E2. split; [exact Hw|split; eauto].
  - left. split; [exact Hw|split; eauto].
  - left. split; [exact Hw|split; eauto].
  - left. split; [exact Hw|split; eauto].
  - left. split; [exact Hw|split; eauto].
  - left. unfold core in Hc. injection Hc as E1 E2 _ _ _. rewrite E1 in Hw. rewrite E2 in Hidle, Hr.
    assert (Hni : ~ In (w_id w') (ids (s_reg s))).
    { intros Hcc. apply in_ids_inv in Hcc. destruct Hcc as (w1 & Hi & Ei). apply (inv_w _ _ HI) in Hi. lia. }
    pose proof (own_add o _ _ _ _ _ _ HQ Hni E w) as (Ho1 & Ho2).
    destruct (q_add_spec o _ _ _ _ _ _ HQ Hni ltac:(intros r0 H0; apply (Hcur r0 H0)) E) as (HQ' & HA).
    destruct (Nat.eq_dec (w_id w') (w_id w)) as [Ei|Ei].
    + exfalso. destruct cur as [r0|].
      * destruct HA as (Hu & _). rewrite Hu, upd_same in Hidle by exact Ei. discriminate.
      * destruct HA as (Hu & Hq & _). rewrite Hu, upd_same in Hidle by exact Ei. subst x.
        assert (w = w') as ->.
        { eapply (ids_inj (s_reg s ++ [w'])); [exact (qi_nodup _ _ HQ')|exact Hw|rewrite in_app_iff; simpl; auto|auto]. }
        destruct (s_queue s) as [q|q].
        -- simpl in E. unfold lift_single, single_add_worker in E.
           destruct (single_assign o w' _) as [(y, q')|f] eqn:Es; simpl in E; [|discriminate]. injection E as -> <-.
           apply single_assign_oldest in Es. simpl in Es. destruct Es as (HP & Hno). simpl in Hr. destruct Hr as (Hr & Hc).
           apply in_map_iff in Hr. destruct Hr as (e & <- & He).
           apply (Hno e); [eapply Permutation_in; [symmetry; exact HP|exact He]|exact Hc].
        -- simpl in E. unfold lift_multi in E. simpl in E. injection E as <-. cbn [waits] in Hr.
           specialize (Ho2 eq_refl). rewrite Ho2 in Hr. exact Hr.
    + assert (Hw0 : In w (s_reg s)) by (apply in_app_iff in Hw; destruct Hw as [?|[->|[]]]; [assumption|congruence]).
      split; [exact Hw0|]. split.
      * destruct cur as [r0|]; destruct HA as (Hu & _); rewrite Hu, upd_other in Hidle by exact Ei; exact Hidle.
      * exists r. destruct (s_queue s) as [q|q]; simpl in E.
        -- unfold lift_single in E. destruct (single_add_worker o w' cur q) as [(y, q')|f]; simpl in E; [|discriminate].
           injection E as <- <-. destruct Hr as (Hr & Hc). split; [|exact Hc].
           destruct cur as [r0|]; [destruct HA as (_ & Eq & _); rewrite <- Eq; exact Hr|].
           destruct HA as (_ & HP & _). eapply Permutation_in; [symmetry; exact HP|]. apply in_app_iff. auto.
        -- unfold lift_multi in E. simpl in E. injection E as <- <-. cbn [waits] in *. rewrite <- Ho1. exact Hr.
  - assert (Es : s_queue s' = m' /\ s_reg s' = s_reg s) by (destruct Hs'; subst; auto). destruct Es as (E1 & E2).
    rewrite E1 in *. rewrite E2 in *. destruct (q_cancelled_spec _ _ w' HQ Hin) as (m1 & E' & HQ' & Hqq & Hu).
    rewrite E in E'. injection E' as _ <-.
    destruct (Nat.eq_dec (w_id w') (w_id w)) as [Ei|Ei].
    + assert (w' = w) as -> by (eapply ids_inj; eauto). right. right. eauto.
    + left. split; [exact Hw|]. split; [rewrite <- Hidle, Hu, upd_other by exact Ei; reflexivity|]. exists r.
      pose proof (own_cancelled _ _ _ _ E w) as Ho. destruct (s_queue s) as [q|q]; simpl in E; unfold lift_single, lift_multi in E;
        simpl in E; injection E as _ <-; cbn [waits] in *; [rewrite <- Hqq; exact Hr|rewrite <- Ho; exact Hr].
  - destruct (q_cancelled_spec _ _ w' HQ Hin) as (m1 & E' & HQ' & Hqq & Hu).
    rewrite E in E'. injection E' as _ <-.
    destruct (Nat.eq_dec (w_id w') (w_id w)) as [Ei|Ei].
    + assert (w' = w) as -> by (eapply ids_inj; eauto). right. left. eauto.
    + left. split; [exact Hw|]. split; [rewrite <- Hidle, Hu, upd_other by exact Ei; reflexivity|]. exists r.
      pose proof (own_cancelled _ _ _ _ E w) as Ho. destruct (s_queue s) as [q|q]; simpl in E; unfold lift_single, lift_multi in E;
        simpl in E; injection E as _ <-; cbn [waits] in *; [rewrite <- Hqq; exact Hr|rewrite <- Ho; exact Hr].
  - intros x0 [= -> ->]. destruct (q_assign_spec o _ _ _ _ _ HQ Hin Hcw E) as (HQ' & Hu & HP & _).
    rewrite Hu, upd_same in Hidle by reflexivity. subst x0.
    pose proof (own_assign o _ _ _ _ _ HQ Hin E w) as Ho. destruct (s_queue s) as [q|q]; simpl in E.
    + unfold lift_single in E. destruct (single_assign o w q) as [(y, q')|f] eqn:Es; simpl in E; [|discriminate].
      injection E as -> <-. apply single_assign_oldest in Es. destruct Es as (HPP & Hno). destruct Hr as (Hr & Hc).
      simpl in Hr. apply in_map_iff in Hr. destruct Hr as (e & <- & He).
      apply (Hno e); [eapply Permutation_in; [symmetry; exact HPP|exact He]|exact Hc].
    + unfold lift_multi, multi_assign, multi_take in E. destruct (pm_index [] w (mq_queues q)) as (qs, q1) eqn:Eix.
      destruct qs as [|r0 rest]; [|discriminate]. simpl in E. injection E as <-.
      destruct (keys_around _ w _ Hnd (mi_queues _ _ (qi_impl _ _ HQ)) Hw) as (k1 & b & k2 & B).
      rewrite (ar_index _ _ _ _ _ B) in Eix. injection Eix as -> <-. simpl in Hr. rewrite (ar_find _ _ _ _ _ B) in Hr. exact Hr.
  - left. split; [exact Hw|]. destruct (q_assign_spec o _ _ _ _ _ HQ Hin Hcw E) as (HQ' & Hu & HP & _).
    assert (Hi : current_of (s_queue s) w = None).
    { destruct (Nat.eq_dec (w_id w') (w_id w)) as [Ei|Ei].
      - rewrite <- (current_of_id _ _ _ Ei). exact Hcw.
      - rewrite <- Hidle, Hu, upd_other by exact Ei. reflexivity. }
    split; [exact Hi|]. exists r. pose proof (own_assign o _ _ _ _ _ HQ Hin E w) as Ho. destruct (s_queue s) as [q|q]; simpl in E.
    + unfold lift_single in E. destruct (single_assign o w' q) as [(y, q')|f]; simpl in E; [|discriminate].
      injection E as <- <-. destruct Hr as (Hr & Hc). split; [|exact Hc]. eapply Permutation_in; [symmetry; exact HP|].
      apply in_app_iff. auto.
    + unfold lift_multi in E. injection E as Ex <-. cbn [waits] in *. rewrite Ho.
      destruct (Nat.eqb (w_id w') (w_id w)); [apply in_app_iff; right|]; exact Hr.
  - left. split; [exact Hw|]. destruct (q_enqueue_spec o _ _ _ _ _ HQ Hcomp E) as (HQ' & HE).
    assert (Hi : current_of (s_queue s) w = None).
    { destruct x as [w'|].
      - destruct HE as (Hin & Hcw & _ & Hu & _). destruct (Nat.eq_dec (w_id w') (w_id w)) as [Ei|Ei].
        + rewrite <- (current_of_id _ _ _ Ei). exact Hcw.
        + rewrite <- Hidle, Hu, upd_other by exact Ei. reflexivity.
      - destruct HE as (_ & Hu & _). rewrite <- Hu. exact Hidle. }
    split; [exact Hi|]. exists r. pose proof (own_enqueue o _ _ _ _ _ w HQ E) as Ho.
    pose proof (inv_q _ _ HI) as HQ0. pose proof (qi_impl _ _ HQ) as HS. destruct (s_queue s) as [q|q]; simpl in E.
    + unfold lift_single in E. destruct (single_enqueue o r' q) as [(y, q')|f] eqn:Es; simpl in E; [|discriminate].
      injection E as -> <-. destruct Hr as (Hr & Hc). split; [|exact Hc].
      destruct x as [w'|]; [destruct HE as (_ & _ & _ & _ & Eq); rewrite <- Eq; exact Hr|].
      destruct HE as (_ & _ & HP). eapply Permutation_in in Hr; [|exact HP]. destruct Hr as [->|Hr]; [|exact Hr].
      exfalso. unfold single_enqueue in Es. destruct (select_idle r (sq_worker_jobs q)) as [[w1|]|f] eqn:El; simpl in Es; try discriminate.
      apply select_idle_spec in El. destruct HS as [S1 S2 S3 S4].
      destruct (keys_around _ w _ Hnd S2 Hw) as (c1 & a & c2 & A). unfold current_of in Hi. simpl in Hi.
      rewrite (ar_find _ _ _ _ _ A) in Hi. destruct a; [discriminate|].
      assert (HinA : In (w, None) (sq_worker_jobs q)) by (rewrite (ar_eq _ _ _ _ _ A), in_app_iff; simpl; auto).
      unfold capable in Hc. rewrite (El w HinA) in Hc. discriminate.
    + destruct (multi_enqueue r' q) as [(y, q')|f] eqn:Es; simpl in E; [|discriminate]. injection E as -> <-. cbn [waits] in *.
      destruct Ho as [Ho|(Ho & _ & Hcc)]; [rewrite <- Ho; exact Hr|]. congruence.
  - left. split; [exact Hw|split; eauto].
  - left. assert (Er : s_reg (incr_opt (current_of (s_queue s) w') (set_reg (reg_remove w' (s_reg s)) s)) = reg_remove w' (s_reg s))
      by (destruct (current_of (s_queue s) w'); reflexivity). rewrite Er in Hw.
    apply (reg_remove_in w' w _ Hnd Hin) in Hw. destruct Hw as (Hw & Hne).
    assert (Ei : w_id w <> w_id w') by (intros Ei; apply Hne; eapply ids_inj; eauto).
    split; [exact Hw|]. destruct (q_terminated_spec _ _ w' rs m' HQ Hin E) as (gone & _ & HQ' & Hu & HP & _).
    split; [rewrite <- Hidle; symmetry; apply Hu; exact Ei|]. exists r.
    destruct (own_terminated _ _ _ _ _ HQ Hin E) as (Ho & _). specialize (Ho w Ei). destruct (s_queue s) as [q|q]; simpl in E.
    + unfold lift_single in E. destruct (single_worker_terminated w' q) as [(y, q')|f]; simpl in E; [|discriminate].
      injection E as <- <-. destruct Hr as (Hr & Hc). split; [|exact Hc]. eapply Permutation_in; [symmetry; exact HP|].
      apply in_app_iff. auto.
    + unfold lift_multi in E. injection E as Ex <-. cbn [waits] in *. rewrite <- Ho. exact Hr.
Qed.

Lemma atoms_starving s h ls s' h' w : atoms s h ls s' h' -> inv s h -> In w (s_reg s') -> starving (s_queue s') w ->
  (In w (s_reg s) /\ starving (s_queue s) w /\ forall x, ~ In (LAssign w x) ls) \/
  exists ls1 l ls2, ls = ls1 ++ l :: ls2 /\ ((exists r, l = LCancel w r) \/ (exists r m, l = LDone w r m)) /\
    forall x, ~ In (LAssign w x) ls2.
Proof.
  induction 1 as [|s h l s1 h1 ls s2 h2 Ha Has IH]; intros HI Hw HS; [left; simpl; auto|].
  destruct (IH (atom_inv _ _ _ _ _ _ _ HI Ha) Hw HS) as [(Hw1 & HS1 & Hno)|(ls1 & l' & ls2 & -> & Hl & Hno)].
  - destruct (atom_starving _ _ _ _ _ _ HI Ha Hw1 HS1) as (Hn & [(H1 & H2)|Hl]).
    + left. split; [exact H1|]. split; [exact H2|]. intros x [Hx|Hx]; [apply (Hn x Hx)|apply (Hno x Hx)].
    + right. exists [], l, ls. auto.
  - right. exists (l :: ls1), l', ls2. auto.
Qed.

Lemma step_starving m s outs s' w : inv s [] -> on_request o cfg m s = (outs, inr (tt, s')) ->
  In w (s_reg s') -> starving (s_queue s') w ->
  (In w (s_reg s) /\ starving (s_queue s) w) \/
  (credited "INTERNAL_ERROR" (mkEvent s m outs s') = true /\ sender (m_ident m) s = Some w).
Proof.
  intros HI Hs Hw HS. destruct (on_request_sim _ _ _ _ _ _ HI Hs) as (ls & A & _ & Hsh).
  destruct (atoms_starving _ _ _ _ _ _ A HI Hw HS) as [(H1 & H2 & _)|(ls1 & l & ls2 & -> & Hl & Hno)]; [auto|]. right.
  assert (Hbad : forall P : label -> Prop, Forall P (ls1 ++ l :: ls2) -> P l).
  { intros P HF. apply Forall_app in HF. destruct HF as (_ & HF). inversion HF; assumption. }
  remember (ls1 ++ l :: ls2) as ls eqn:El. destruct Hsh as [ls HF _|ls _ HF|ls rest _ _ HE|pre w0 cur x next rest _ _ HF _|ls rest Hk Hd HD].
  - exfalso. apply Hbad in HF. destruct Hl as [(r & ->)|(r & mm & ->)]; exact HF.
  - exfalso. apply Hbad in HF. destruct Hl as [(r & ->)|(r & mm & ->)]; exact HF.
  - exfalso. assert (Hin : In l ls) by (rewrite El, in_app_iff; simpl; auto). clear El.
    destruct HE; simpl in Hin; destruct Hl as [(r' & ->)|(r' & mm & ->)]; intuition discriminate.
  - exfalso. assert (Hin : In l (pre ++ [LRegister w0 cur x])) by (rewrite El, in_app_iff; simpl; auto).
    apply in_app_iff in Hin. destruct Hin as [Hin|[Hin|[]]].
    + eapply Forall_forall in HF; [|exact Hin]. destruct Hl as [(r & ->)|(r & mm & ->)]; exact HF.
    + destruct Hl as [(r & ->)|(r & mm & ->)]; discriminate.
  - assert (Hreg : s_reg (refresh cfg (m_ident m) s) = s_reg s /\ s_queue (refresh cfg (m_ident m) s) = s_queue s).
    { pose proof (refresh_core cfg (m_ident m) s) as HC. unfold core in HC. injection HC as E1 E2 _ _ _. auto. }
    destruct Hreg as (Er & Eq).
    destruct HD as [_|w0 r0 m0 x0 st Hf Hc Hj Hst Hor|w0 r0 ls0 Hf Hc Hj Hst Hlen HE].
    + exfalso. destruct ls1 as [|a ls1]; simpl in El; injection El as E1 E2; [|destruct ls1; discriminate].
      subst l. destruct Hl as [(r & ?)|(r & mm & ?)]; discriminate.
    + exfalso. destruct ls1 as [|? ls1]; simpl in El; injection El as E1 El.
      { subst l. destruct Hl as [(r & ?)|(r & mm & ?)]; discriminate. }
      destruct ls1 as [|? ls1]; simpl in El; injection El as E2 El.
      { subst l ls2. destruct Hl as [(r & ?)|(r & mm & [= <- _ _])]; [discriminate|]. apply (Hno x0). simpl. auto. }
      destruct ls1 as [|? ls1]; simpl in El; injection El as E3 El.
      { subst l. destruct Hl as [(r & ?)|(r & mm & ?)]; discriminate. }
      destruct ls1 as [|? ls1]; simpl in El; injection El as E4 El.
      { subst l. destruct Hl as [(r & ?)|(r & mm & ?)]; discriminate. }
      destruct ls1; discriminate.
    + assert (w0 = w) as ->.
      { assert (Hin : In l (LTau :: LCancel w0 r0 :: ls0)) by (rewrite El, in_app_iff; simpl; auto). clear El.
        destruct Hin as [Hin|[Hin|Hin]].
        - subst l. destruct Hl as [(r & ?)|(r & mm & ?)]; discriminate.
        - subst l. destruct Hl as [(r & [= -> _])|(r & mm & ?)]; [reflexivity|discriminate].
        - exfalso. destruct HE; simpl in Hin; destruct Hl as [(r & ->)|(r & mm & ->)]; intuition discriminate. }
      rewrite Er in Hf. rewrite Eq in Hc. clear El.
      assert (Hsnd : find (named (m_ident m)) (s_reg s) = Some w) by (change (sender (m_ident m) s = Some w); rewrite sender_find; exact Hf). split; [|exact Hsnd].
      destruct (m_data m) as [|d0 [|d1 [|d2 [|d3 [|d4 dt]]]]] eqn:Edm; simpl in Hj, Hst, Hlen; try discriminate.
      injection Hj as ->. injection Hst as ->. injection Hd as -> _.
      unfold credited, own_report. cbn [ev_in ev_pre]. rewrite Hk, Edm, String.eqb_refl, Hsnd. cbn [nth_error].
      rewrite Hc. unfold job_is. rewrite !String.eqb_refl. reflexivity.
Qed.

Lemma starving_starves k tr s w : run o cfg k tr s -> In w (s_reg s) -> (starves (s_queue s) w <-> starving (s_queue s) w).
Proof.
  intros HR Hw. destruct (used_inv o _ _ (run_used _ _ _ HR)) as (_ & HC). unfold starves, starving, waits_for, waits.
  split; intros (H1 & r & H2); (split; [exact H1|]); exists r; destruct (s_queue s); auto;
    destruct H2 as (H2 & H3); (split; [exact H2|]); apply (fits_capable w r (HC w Hw)); exact H3.
Qed.

Theorem starves_only_after_error k tr s w : run o cfg k tr s -> In w (s_reg s) -> starves (s_queue s) w ->
  idle_after_error tr w.
Proof.
  intros HR Hw HS. apply (starving_starves _ _ _ _ HR Hw) in HS. revert Hw HS.
  induction HR as [|tr s m outs s' HR IH Hs]; intros Hw HS; [destruct k; contradiction|].
  destruct (step_starving _ _ _ _ _ (run_inv _ _ _ _ _ HR) Hs Hw HS) as [(H1 & H2)|(H1 & H2)].
  - destruct (IH H1 H2) as (tr1 & e & tr2 & -> & Hc & Hsn & Hall). exists tr1, e, (tr2 ++ [mkEvent s m outs s']).
    split; [rewrite <- app_assoc; reflexivity|]. split; [exact Hc|]. split; [exact Hsn|].
    intros e' He'. change (e :: tr2 ++ [mkEvent s m outs s']) with ((e :: tr2) ++ [mkEvent s m outs s']) in He'.
    apply in_app_iff in He'. destruct He' as [He'|[<-|[]]]; [auto|]. apply HS.
  - exists tr, (mkEvent s m outs s'), []. split; [reflexivity|]. split; [exact H1|]. split; [exact H2|].
    intros e' [<-|[]]. apply HS.
Qed.

Theorem work_conserving tr s w r : run o cfg KSingle tr s -> In w (s_reg s) ->
  current_of (s_queue s) w = None -> In r (queued (s_queue s)) -> fits w r -> idle_after_error tr w.
Proof.
  intros HR Hw Hi Hr Hf. apply (starves_only_after_error _ _ _ _ HR Hw). split; [exact Hi|]. exists r.
  pose proof (run_kind _ _ _ HR) as HK. destruct (s_queue s); [|contradiction]. split; assumption.
Qed.
Theorem no_idle_backlog tr s w : run o cfg KMulti tr s -> In w (s_reg s) ->
  current_of (s_queue s) w = None -> own_queue (s_queue s) w <> [] -> idle_after_error tr w.
Proof.
  intros HR Hw Hi Hr. apply (starves_only_after_error _ _ _ _ HR Hw). split; [exact Hi|].
  pose proof (run_kind _ _ _ HR) as HK. destruct (s_queue s) as [q|q]; [contradiction|]. unfold waits_for.
  destruct (own_queue (QMulti q) w) as [|r t]; [congruence|]. exists r. left. reflexivity.
Qed.

Theorem no_starving_without_error k tr s w : run o cfg k tr s -> (forall e, In e tr -> credited "INTERNAL_ERROR" e = false) ->
  In w (s_reg s) -> ~ starves (s_queue s) w.
Proof.
  intros HR Hno Hw HS. destruct (starves_only_after_error _ _ _ _ HR Hw HS) as (tr1 & e & tr2 & -> & Hc & _).
  rewrite Hno in Hc; [discriminate|]. apply in_app_iff. simpl. auto.
Qed.


(* ---- multi manager: every worker is served in the order of its queue ---- *)

Definition popped_of (w : worker) (l : label) : list request :=
  match l with LAssign w' x => if Nat.eqb (w_id w') (w_id w) then olist x else [] | _ => [] end.
Definition popped (w : worker) (ls : list label) : list request := flat_map (popped_of w) ls.

Lemma atom_fifo s h l s' h' w : inv s h -> atom s h l s' h' -> In w (s_reg s) -> In w (s_reg s') ->
  (exists q, s_queue s = QMulti q) ->
  exists added, own_queue (s_queue s) w ++ added = popped_of w l ++ own_queue (s_queue s') w.
Proof.
  intros HI Ha Hw Hw' (q0 & Ek). pose proof (inv_q _ _ HI) as HQ. pose proof (qi_nodup _ _ HQ) as Hnd. destruct Ha as
    [s s' h Hc|s h h' _|s h m Hn|s h r' Hid Hcomp Hfr|s h r'|s h w' cur x m' n s' Hid Hmk Hn Hcur E Hc
    |s h w' r' m m' s' Hin Hcw Hrep E Hs'|s h w' r' m' Hin Hcw E|s h w' x m' Hin Hcw E|s h r' x m' Hcomp Hf E|s h r' m Hrep
    |s h w' rs m' Hin E]; simpl popped_of; cbn [app]; try (exists []; rewrite app_nil_r; reflexivity).
  - unfold core in Hc. injection Hc as _ <- _ _ _. exists []. apply app_nil_r.
  - unfold core in Hc. injection Hc as _ -> _ _ _.
    assert (Hni : ~ In (w_id w') (ids (s_reg s))).
    { intros Hcc. apply in_ids_inv in Hcc. destruct Hcc as (w1 & Hi & Ei). apply (inv_w _ _ HI) in Hi. lia. }
    destruct (own_add o _ _ _ _ _ _ HQ Hni E w) as (-> & _). exists []. apply app_nil_r.
  - assert (Es : s_queue s' = m') by (destruct Hs'; subst; auto). rewrite Es, (own_cancelled _ _ _ _ E). exists []. apply app_nil_r.
  - simpl s_queue. rewrite (own_cancelled _ _ _ _ E). exists []. apply app_nil_r.
  - simpl s_queue. pose proof (own_assign o _ _ _ _ _ HQ Hin E w) as Ho. rewrite Ek in Ho. rewrite <- Ek in Ho. exists [].
    rewrite app_nil_r, Ho. destruct (Nat.eqb (w_id w') (w_id w)); reflexivity.
  - simpl s_queue. destruct (own_enqueue o _ _ _ _ _ w HQ E) as [->|(-> & _)]; [exists []; apply app_nil_r|]. eauto.
  - simpl s_queue. destruct (own_terminated _ _ _ _ _ HQ Hin E) as (Ho & _). rewrite Ho; [exists []; apply app_nil_r|].
    simpl in Hw'. assert (Er : s_reg (incr_opt (current_of (s_queue s) w') (set_reg (reg_remove w' (s_reg s)) s)) = reg_remove w' (s_reg s))
      by (destruct (current_of (s_queue s) w'); reflexivity). rewrite Er in Hw'.
    apply (reg_remove_in w' w _ Hnd Hin) in Hw'. destruct Hw' as (_ & Hne). intros Ei. apply Hne. eapply ids_inj; eauto.
Qed.

Lemma atom_reg_later s h l s' h' w : inv s h -> atom s h l s' h' -> w_id w < s_next_w s -> In w (s_reg s') -> In w (s_reg s).
Proof.
  intros HI Ha Hlt Hw. destruct (atom_next _ _ _ _ _ _ _ Ha) as (_ & H). destruct (H w Hw); [assumption|lia].
Qed.
Lemma atoms_reg_later s h ls s' h' w : atoms s h ls s' h' -> inv s h -> w_id w < s_next_w s -> In w (s_reg s') -> In w (s_reg s).
Proof.
  intros A HI Hlt Hw. destruct (atoms_next _ _ _ _ _ _ _ A) as (_ & H). destruct (H w Hw); [assumption|lia].
Qed.

Lemma atoms_fifo s h ls s' h' w : atoms s h ls s' h' -> inv s h -> In w (s_reg s) -> In w (s_reg s') ->
  (exists q, s_queue s = QMulti q) ->
  exists added, own_queue (s_queue s) w ++ added = popped w ls ++ own_queue (s_queue s') w.
Proof.
  induction 1 as [|s h l s1 h1 ls s2 h2 Ha Has IH]; intros HI Hw Hw' Hk; [exists []; apply app_nil_r|].
  pose proof (atom_inv _ _ _ _ _ _ _ HI Ha) as HI1.
  assert (Hlt : w_id w < s_next_w s1).
  { destruct (atom_next _ _ _ _ _ _ _ Ha) as (H & _). apply (inv_w _ _ HI) in Hw. lia. }
  pose proof (atoms_reg_later _ _ _ _ _ _ Has HI1 Hlt Hw') as Hw1.
  assert (Hk1 : exists q, s_queue s1 = QMulti q).
  { destruct Hk as (q & Ek). pose proof (atom_kind _ _ _ _ _ Ha) as HK. rewrite Ek in HK. destruct (s_queue s1); [contradiction|eauto]. }
  destruct (atom_fifo _ _ _ _ _ _ HI Ha Hw Hw1 Hk) as (a1 & E1). destruct (IH HI1 Hw1 Hw' Hk1) as (a2 & E2).
  exists (a1 ++ a2). unfold popped in *. simpl. rewrite app_assoc, E1, <- !app_assoc, E2. reflexivity.
Qed.

(* at most one request is popped per message, and it is sent *)
Lemma shape_popped m s s' ls w : inv s [] -> shape o cfg m s s' ls -> In w (s_reg s) ->
  popped w ls = [] \/ exists r, popped w ls = [r] /\ In (handover w r) (outs_all ls).
Proof.
  intros HI Hsh Hw. pose proof (qi_nodup _ _ (inv_q _ _ HI)) as Hnd.
  assert (Hq : forall l, Forall quiet l -> popped w l = []).
  { intros l HF. unfold popped. induction HF as [|a l Ha _ IH]; [reflexivity|]. simpl. rewrite IH. destruct a; try contradiction; reflexivity. }
  assert (HT : forall l, Forall timer_label l -> popped w l = []).
  { intros l HF. unfold popped. induction HF as [|a l Ha _ IH]; [reflexivity|]. simpl. rewrite IH. destruct a; try contradiction; reflexivity. }
  destruct Hsh as [ls HF _|ls _ HF|ls rest _ _ HE|pre w0 cur x next rest _ _ HF _|ls rest Hk Hd HD]; [left; auto|left; auto| | |].
  - left. destruct HE; reflexivity.
  - left. unfold popped. rewrite flat_map_app. fold (popped w pre). rewrite (Hq _ HF). reflexivity.
  - assert (Hreg : s_reg (refresh cfg (m_ident m) s) = s_reg s).
    { pose proof (refresh_core cfg (m_ident m) s) as HC. unfold core in HC. injection HC as E1 _ _ _ _. auto. }
    assert (HA : forall w0 x, find_worker_by_identity (m_ident m) (s_reg s) = Some w0 ->
              popped_of w (LAssign w0 x) = [] \/ exists r, popped_of w (LAssign w0 x) = [r] /\ outs_of (LAssign w0 x) = [handover w r]).
    { intros w0 x Hf. apply find_by_identity_in in Hf. destruct Hf as (Hin & _). simpl.
      destruct (Nat.eqb_spec (w_id w0) (w_id w)) as [Ei|Ei]; [|auto]. assert (w0 = w) as -> by (eapply ids_inj; eauto).
      destruct x as [r|]; [right|left; reflexivity]. exists r. split; reflexivity. }
    destruct HD as [_|w0 r0 m0 x0 st Hf Hc Hj Hst Hor|w0 r0 ls0 Hf Hc Hj Hst Hlen HE].
    + left. reflexivity.
    + rewrite Hreg in Hf. destruct (HA w0 x0 Hf) as [E|(r & E & Eo)].
      * left. unfold popped. simpl flat_map. change (popped_of w (LAssign w0 x0) ++ [] = []). rewrite E. reflexivity.
      * right. exists r. split; [change (popped_of w (LAssign w0 x0) ++ [] = [r]); rewrite E; reflexivity|].
        change (In (handover w r) (m0 :: outs_of (LAssign w0 x0) ++ [])). rewrite Eo. simpl. auto.
    + rewrite Hreg in Hf. destruct HE as [d Hcomp|d x0 Hcomp|x0 Hcomp]; [left; reflexivity| |left; reflexivity].
      destruct (HA w0 x0 Hf) as [E|(r & E & Eo)].
      * left. change (popped_of w (LAssign w0 x0) ++ [] = []). rewrite E. reflexivity.
      * right. exists r. split; [change (popped_of w (LAssign w0 x0) ++ [] = [r]); rewrite E; reflexivity|].
        change (In (handover w r) (failed_msg (r_job r0) d :: Msg KEY_MONITOR MONITOR_IDENTITY [r_job r0; "FAILED"] :: outs_of (LAssign w0 x0) ++ [])).
        rewrite Eo. simpl. auto.
Qed.

Lemma subseq_app {A} (a b c d : list A) : subseq a b -> subseq c d -> subseq (a ++ c) (b ++ d).
Proof.
  induction 1; simpl; intros.
  - induction l; simpl; [assumption|constructor; assumption].
  - constructor. auto.
  - constructor. auto.
Qed.
Lemma subseq_one {A} (a : A) l : In a l -> subseq [a] l.
Proof. induction l as [|x l IH]; [contradiction|]. intros [->|H]; [constructor; constructor|constructor; auto]. Qed.

(* While w stays registered, the requests on its queue leave it from the front and are sent to w in that
   order; new ones are put at the end. *)
Theorem worker_fifo w tr2 : forall tr1 s1 s2, run o cfg KMulti tr1 s1 -> run o cfg KMulti (tr1 ++ tr2) s2 -> In w (s_reg s1) ->
  (forall e, In e tr2 -> In w (s_reg (ev_post e))) ->
  exists taken added, own_queue (s_queue s1) w ++ added = taken ++ own_queue (s_queue s2) w /\
    subseq (map (handover w) taken) (flat_map ev_out tr2).
Proof.
  induction tr2 as [|e tr2 IH]; intros tr1 s1 s2 H1 H2 Hw Hall.
  - rewrite app_nil_r in H2. rewrite (run_fun _ _ _ _ _ H1 _ H2). exists [], []. rewrite app_nil_r. split; [reflexivity|constructor].
  - pose proof (run_post _ _ _ _ _ _ _ H2) as H3. destruct (run_split _ _ _ _ _ _ _ H2) as (H1' & Hstep).
    rewrite <- (run_fun _ _ _ _ _ H1 _ H1') in *. clear H1'.
    pose proof (run_inv _ _ _ _ _ H1) as HI. destruct (on_request_sim _ _ _ _ _ _ HI Hstep) as (ls & A & Eo & Hsh).
    assert (Hw1 : In w (s_reg (ev_post e))) by (apply Hall; left; reflexivity).
    assert (Hk : exists q, s_queue s1 = QMulti q).
    { pose proof (run_kind _ _ _ H1) as HK. simpl in HK. destruct (s_queue s1); [contradiction|eauto]. }
    destruct (atoms_fifo _ _ _ _ _ _ A HI Hw Hw1 Hk) as (a1 & E1).
    assert (H2' : run o cfg KMulti ((tr1 ++ [e]) ++ tr2) s2) by (rewrite <- app_assoc; exact H2).
    destruct (IH (tr1 ++ [e]) (ev_post e) s2 H3 H2' Hw1 ltac:(intros e' He'; apply Hall; right; exact He')) as (t2 & a2 & E2 & S2).
    exists (popped w ls ++ t2), (a1 ++ a2). split; [rewrite app_assoc, E1, <- !app_assoc, E2; reflexivity|].
    rewrite map_app. simpl. apply subseq_app; [|exact S2].
    destruct (shape_popped _ _ _ _ _ HI Hsh Hw) as [->|(r & -> & Hr)]; [constructor|]. simpl. apply subseq_one. rewrite <- Eo. exact Hr.
Qed.


(* ---- single manager: oldest first, in runs ---- *)

Definition jobs (m : manager) : list entry := match m with QSingle q => sq_jobs q | QMulti _ => [] end.
Definition passive (l : label) : Prop :=
  match l with LAssign _ _ | LRegister _ _ _ | LEnqueue _ _ | LExpire _ _ => False | _ => True end.

Section Oldest.
Context (js : list entry).
Definition listed (r : request) : Prop := exists t, In (mkEntry r t) js.
Definition oldest (w : worker) (r : request) : Prop :=
  exists t, In (mkEntry r t) js /\ forall e, In e js -> capable w (e_request e) -> (t <= e_arrived e)%Z.
Definition before (s : state) : Prop :=
  (exists q, s_queue s = QSingle q) /\ jobs (s_queue s) = js /\
  forall w r, In w (s_reg s) -> current_of (s_queue s) w = Some r -> ~ listed r.
Definition after (s : state) : Prop :=
  forall w r, In w (s_reg s) -> current_of (s_queue s) w = Some r -> listed r -> oldest w r.

Lemma before_after s : before s -> after s.
Proof. intros (_ & _ & H) w r Hw Hc Hl. destruct (H w r Hw Hc Hl). Qed.

Lemma cancelled_jobs m w x m' : q_worker_cancelled w m = Val (x, m') -> jobs m' = jobs m.
Proof.
  destruct m; simpl; unfold lift_single, lift_multi, single_worker_cancelled, multi_worker_cancelled;
    destruct (pm_index _ _ _); simpl; intros [= _ <-]; reflexivity.
Qed.

Lemma atom_passive s h l s' h' : inv s h -> atom s h l s' h' -> passive l -> s_reg s' = s_reg s /\
  jobs (s_queue s') = jobs (s_queue s) /\ same_kind (s_queue s) (s_queue s') /\
  forall w r, In w (s_reg s) -> current_of (s_queue s') w = Some r -> current_of (s_queue s) w = Some r.
Proof.
  intros HI Ha Hp. pose proof (atom_kind _ _ _ _ _ Ha) as HK. pose proof (inv_q _ _ HI) as HQ. destruct Ha; try contradiction; simpl in *; auto.
  - unfold core in H. injection H as E1 E2 _ _ _. rewrite <- E1, <- E2 in *. auto.
  - assert (Es : s_queue s' = m' /\ s_reg s' = s_reg s) by (destruct H3; subst; auto). destruct Es as (E1 & E2). rewrite E1, E2 in *.
    split; [reflexivity|]. split; [eapply cancelled_jobs; eauto|]. split; [exact HK|]. intros w' r' Hw' Hc.
    destruct (q_cancelled_spec _ _ w HQ H) as (m1 & E' & _ & _ & Hu). rewrite H2 in E'. injection E' as _ <-. rewrite Hu in Hc.
    unfold upd in Hc. destruct (Nat.eqb (w_id w) (w_id w')); [discriminate|exact Hc].
  - split; [reflexivity|]. split; [eapply cancelled_jobs; eauto|]. split; [exact HK|]. intros w' r' Hw' Hc.
    destruct (q_cancelled_spec _ _ w HQ H) as (m1 & E' & _ & _ & Hu). rewrite H1 in E'. injection E' as _ <-. rewrite Hu in Hc.
    unfold upd in Hc. destruct (Nat.eqb (w_id w) (w_id w')); [discriminate|exact Hc].
Qed.

Lemma atoms_passive s h ls s' h' : atoms s h ls s' h' -> inv s h -> Forall passive ls ->
  (before s -> before s') /\ (after s -> after s').
Proof.
  induction 1 as [|s h l s1 h1 ls s2 h2 Ha Has IH]; intros HI HF; [auto|]. inversion HF as [|? ? Hp HF']; subst.
  destruct (IH (atom_inv _ _ _ _ _ _ _ HI Ha) HF') as (I1 & I2).
  destruct (atom_passive _ _ _ _ _ HI Ha Hp) as (E1 & E2 & E3 & E4). split.
  - intros ((q & Eq) & B2 & B3). apply I1. rewrite Eq in E3. split; [destruct (s_queue s1); [eauto|contradiction]|].
    split; [congruence|]. intros w r Hw Hc. rewrite E1 in Hw. eapply B3; eauto.
  - intros B. apply I2. intros w r Hw Hc. rewrite E1 in Hw. apply B; auto.
Qed.

Lemma listed_queued s : before s -> forall r, listed r -> In r (queued (s_queue s)).
Proof.
  intros ((q & Eq) & Ej & _) r (t & Hin). rewrite Eq in *. simpl in *. rewrite Ej. apply in_map_iff. eexists. split; [|exact Hin]. reflexivity.
Qed.

Lemma nodup_held s h r : inv s h -> In r h -> ~ In r (queued (s_queue s)).
Proof.
  intros HI Hh Hq. pose proof (inv_nodup _ _ HI) as Hnd. apply in_split in Hh. destruct Hh as (h1 & h2 & ->).
  rewrite map_app in Hnd. rewrite map_app in Hnd. simpl in Hnd. rewrite app_assoc in Hnd. apply NoDup_remove_2 in Hnd.
  apply Hnd. rewrite !in_app_iff. left. left. apply in_map. unfold held. rewrite in_app_iff. auto.
Qed.

Lemma assigned_oldest w q x q' : single_assign o w q = Val (x, q') -> sq_jobs q = js ->
  forall r, x = Some r -> oldest w r.
Proof.
  intros E Ej r ->. apply single_assign_oldest in E. destruct E as (t & HP & Hmin). rewrite Ej in *.
  exists t. split; [eapply Permutation_in; [symmetry; exact HP|left; reflexivity]|exact Hmin].
Qed.

Lemma atom_active s h l s' h' : inv s h -> atom s h l s' h' -> (forall w rs, l <> LExpire w rs) -> before s -> after s'.
Proof.
  intros HI Ha Hne HB. pose proof (inv_q _ _ HI) as HQ. pose proof (qi_nodup _ _ HQ) as Hnd. destruct HB as ((q & Eq) & Ej & Hc0).
  assert (HB : before s) by (split; [eauto|auto]).
  assert (Hpas : passive l -> after s').
  { intros Hp. apply before_after. apply (atoms_passive s h [l] s' h'); [apply atoms_one; exact Ha|exact HI|repeat constructor; exact Hp|exact HB]. }
  destruct Ha as
    [s s' h Hc|s h h' _|s h m Hn|s h r' Hid Hcomp Hfr|s h r'|s h w' cur x m' n s' Hid Hmk Hn Hcur E Hc
    |s h w' r' m m' s' Hin Hcw Hrep E Hs'|s h w' r' m' Hin Hcw E|s h w' x m' Hin Hcw E|s h r' x m' Hcomp Hf E|s h r' m Hrep
    |s h w' rs m' Hin E]; try (apply Hpas; exact I).
  - clear Hpas. unfold core in Hc. injection Hc as E1 E2 _ _ _. intros w r Hw Hc Hl. rewrite E1 in Hw. rewrite E2 in Hc.
    assert (Hni : ~ In (w_id w') (ids (s_reg s))).
    { intros Hcc. apply in_ids_inv in Hcc. destruct Hcc as (w1 & Hi & Ei). apply (inv_w _ _ HI) in Hi. lia. }
    destruct (q_add_spec o _ _ _ _ _ _ HQ Hni ltac:(intros r0 H0; apply (Hcur r0 H0)) E) as (HQ' & HA).
    destruct (Nat.eq_dec (w_id w') (w_id w)) as [Ei|Ei].
    + assert (w = w') as ->.
      { eapply (ids_inj (s_reg s ++ [w'])); [exact (qi_nodup _ _ HQ')|exact Hw|rewrite in_app_iff; simpl; auto|auto]. }
      destruct cur as [r0|].
      * destruct HA as (Hu & _). rewrite Hu, upd_same in Hc by reflexivity. injection Hc as <-.
        pose proof (listed_queued s HB r0 Hl) as Hq. destruct (Hcur r0 eq_refl) as (_ & Hlt & _).
        assert (r_id r0 < s_next_r s); [|lia]. apply (inv_r _ _ HI). unfold held. rewrite !in_app_iff. auto.
      * destruct HA as (Hu & _). rewrite Hu, upd_same in Hc by reflexivity. subst x. rewrite Eq in E. simpl in E.
        unfold lift_single, single_add_worker in E. destruct (single_assign o w' _) as [(y, q')|f] eqn:Es; simpl in E; [|discriminate].
        injection E as -> <-. eapply assigned_oldest; [exact Es| |reflexivity]. simpl. rewrite Eq in Ej. exact Ej.
    + assert (Hw0 : In w (s_reg s)) by (apply in_app_iff in Hw; destruct Hw as [?|[->|[]]]; [assumption|congruence]).
      destruct (Hc0 w r Hw0); [|exact Hl]. rewrite <- Hc.
      destruct cur as [r0|]; destruct HA as (Hu & _); rewrite Hu, upd_other by exact Ei; reflexivity.
  - clear Hpas. intros w r Hw Hc Hl. simpl in Hw, Hc. destruct (q_assign_spec o _ _ _ _ _ HQ Hin Hcw E) as (HQ' & Hu & _).
    destruct (Nat.eq_dec (w_id w') (w_id w)) as [Ei|Ei].
    + assert (w' = w) as -> by (eapply ids_inj; eauto). rewrite Hu, upd_same in Hc by reflexivity. subst x.
      rewrite Eq in E. simpl in E. unfold lift_single in E. destruct (single_assign o w q) as [(y, q')|f] eqn:Es; simpl in E; [|discriminate].
      injection E as -> <-. eapply assigned_oldest; [exact Es| |reflexivity]. rewrite Eq in Ej. exact Ej.
    + rewrite Hu, upd_other in Hc by exact Ei. destruct (Hc0 w r Hw Hc Hl).
  - clear Hpas. intros w r Hw Hc Hl. simpl in Hw, Hc. destruct (q_enqueue_spec o _ _ _ _ _ HQ Hcomp E) as (HQ' & HE).
    destruct x as [w'|].
    + destruct HE as (Hin & _ & _ & Hu & _). destruct (Nat.eq_dec (w_id w') (w_id w)) as [Ei|Ei].
      * rewrite Hu, upd_same in Hc by exact Ei. injection Hc as <-. destruct (nodup_held _ _ r' HI); [left; reflexivity|].
        apply listed_queued; assumption.
      * rewrite Hu, upd_other in Hc by exact Ei. destruct (Hc0 w r Hw Hc Hl).
    + destruct HE as (_ & Hu & _). rewrite Hu in Hc. destruct (Hc0 w r Hw Hc Hl).
  - destruct (Hne w' rs eq_refl).
Qed.

(* during a tick nothing that was queued starts running *)
Definition stuck (s : state) (h : list request) : Prop :=
  (exists q, s_queue s = QSingle q) /\
  (forall w r, In w (s_reg s) -> current_of (s_queue s) w = Some r -> ~ listed r) /\
  (forall r, listed r -> In r h -> forall w, In w (s_reg s) -> ~ capable w r).

Lemma atom_stuck s h l s' h' : inv s h -> atom s h l s' h' -> timer_label l -> stuck s h -> stuck s' h'.
Proof.
  intros HI Ha Ht HS. pose proof (inv_q _ _ HI) as HQ. pose proof (qi_nodup _ _ HQ) as Hnd. pose proof (atom_kind _ _ _ _ _ Ha) as HK.
  destruct HS as ((q & Eq) & C1 & C2). rewrite Eq in HK.
  assert (HK' : exists q', s_queue s' = QSingle q') by (destruct (s_queue s'); [eauto|contradiction]).
  split; [exact HK'|]. clear HK HK'. destruct Ha as
    [s s' h Hc|s h h' HP|s h m Hn|s h r' Hid Hcomp Hfr|s h r'|s h w' cur x m' n s' Hid Hmk Hn Hcur E Hc
    |s h w' r' m m' s' Hin Hcw Hrep E Hs'|s h w' r' m' Hin Hcw E|s h w' x m' Hin Hcw E|s h r' x m' Hcomp Hf E|s h r' m Hrep
    |s h w' rs m' Hin E]; try contradiction; simpl.
  - unfold core in Hc. injection Hc as <- <- _ _ _. auto.
  - split; [exact C1|]. intros r Hl Hi. apply C2; [exact Hl|]. eapply Permutation_in; [symmetry; exact HP|exact Hi].
  - auto.
  - destruct (q_enqueue_spec o _ _ _ _ _ HQ Hcomp E) as (HQ' & HE). split; [|intros r Hl Hi; apply C2; simpl; auto].
    intros w r Hw Hc Hl. destruct x as [w'|].
    + destruct HE as (Hin & _ & Hcap & Hu & _). destruct (Nat.eq_dec (w_id w') (w_id w)) as [Ei|Ei].
      * rewrite Hu, upd_same in Hc by exact Ei. injection Hc as <-. apply (C2 r' Hl (or_introl eq_refl) w' Hin Hcap).
      * rewrite Hu, upd_other in Hc by exact Ei. apply (C1 w r Hw Hc Hl).
    + destruct HE as (_ & Hu & _). rewrite Hu in Hc. apply (C1 w r Hw Hc Hl).
  - split; [exact C1|]. intros r Hl Hi. apply C2; simpl; auto.
  - assert (Er : s_reg (incr_opt (current_of (s_queue s) w') (set_reg (reg_remove w' (s_reg s)) s)) = reg_remove w' (s_reg s))
      by (destruct (current_of (s_queue s) w'); reflexivity). rewrite Er.
    destruct (q_terminated_spec _ _ w' rs m' HQ Hin E) as (gone & _ & _ & Hu & _).
    assert (Hback : forall w, In w (reg_remove w' (s_reg s)) -> In w (s_reg s) /\ w_id w <> w_id w').
    { intros w Hw. apply (reg_remove_in w' w _ Hnd Hin) in Hw. destruct Hw as (Hw & Hne). split; [exact Hw|].
      intros Ei. apply Hne. eapply ids_inj; eauto. }
    split.
    + intros w r Hw Hc Hl. destruct (Hback w Hw) as (Hw0 & Hne). rewrite Hu in Hc by exact Hne. apply (C1 w r Hw0 Hc Hl).
    + intros r Hl Hi w Hw Hcap. apply in_app_iff in Hi. destruct Hi as [Hi|Hi]; [|apply (C2 r Hl Hi w); [apply Hback; exact Hw|exact Hcap]].
      rewrite Eq in E. simpl in E. unfold lift_single in E.
      destruct (single_worker_terminated w' q) as [(y, q')|f] eqn:Es; simpl in E; [|discriminate]. injection E as -> <-.
      pose proof (qi_impl _ _ HQ) as HS. rewrite Eq in HS. destruct HS as [S1 S2 S3 S4].
      unfold single_worker_terminated in Es. destruct (keys_around _ w' _ Hnd S2 Hin) as (c1 & a & c2 & A).
      rewrite (ar_index _ _ _ _ _ A) in Es. rewrite S1, reg_remove_eq in Es by exact Hnd.
      destruct (split_jobs (reg_remove w' (s_reg s)) (sq_jobs q)) as [(kept, gone')|f] eqn:Ej; simpl in Es; [|discriminate].
      injection Es as <- _. apply split_jobs_spec in Ej. destruct Ej as (_ & _ & Hg). apply in_app_iff in Hi. destruct Hi as [Hi|Hi].
      * destruct a as [r0|]; [|contradiction]. destruct Hi as [->|[]]. apply (C1 w' r Hin); [|exact Hl].
        rewrite Eq. unfold current_of. simpl. rewrite (ar_find _ _ _ _ _ A). reflexivity.
      * destruct (Hg r Hi) as (_ & Hno). unfold capable in Hcap. rewrite (Hno w Hw) in Hcap. discriminate.
Qed.

Lemma atoms_stuck s h ls s' h' : atoms s h ls s' h' -> inv s h -> Forall timer_label ls -> stuck s h -> stuck s' h'.
Proof.
  induction 1 as [|s h l s1 h1 ls s2 h2 Ha Has IH]; intros HI HF HS; [exact HS|]. inversion HF as [|? ? Hp HF']; subst.
  apply IH; [eapply atom_inv; eauto|exact HF'|eapply atom_stuck; eauto].
Qed.

Lemma atoms_app_inv l1 : forall s h l2 s' h', atoms s h (l1 ++ l2) s' h' -> exists s1 h1, atoms s h l1 s1 h1 /\ atoms s1 h1 l2 s' h'.
Proof.
  induction l1 as [|l l1 IH]; intros s h l2 s' h' A; simpl in A; [exists s, h; split; [constructor|exact A]|].
  inversion A as [|? ? ? s1 h1 ? ? ? Ha Has]; subst. destruct (IH _ _ _ _ _ Has) as (s2 & h2 & A1 & A2).
  exists s2, h2. split; [econstructor; eauto|exact A2].
Qed.

Lemma one_active l1 l l2 s h s' h' : inv s h -> atoms s h (l1 ++ l :: l2) s' h' -> Forall passive l1 -> Forall passive l2 ->
  (forall w rs, l <> LExpire w rs) -> before s -> after s'.
Proof.
  intros HI A F1 F2 Hne HB. apply atoms_app_inv in A. destruct A as (s1 & h1 & A1 & A2).
  inversion A2 as [|? ? ? s2 h2 ? ? ? Ha Has]; subst. pose proof (atoms_inv _ _ _ _ _ _ _ A1 HI) as HI1.
  apply (atoms_passive _ _ _ _ _ Has (atom_inv _ _ _ _ _ _ _ HI1 Ha) F2). eapply atom_active; eauto.
  apply (atoms_passive _ _ _ _ _ A1 HI F1). exact HB.
Qed.

Lemma shape_after m s s' ls : inv s [] -> atoms s [] ls s' [] -> shape o cfg m s s' ls -> before s -> after s'.
Proof.
  intros HI A Hsh HB.
  assert (Hq : forall l, Forall quiet l -> Forall passive l).
  { intros l. apply Forall_impl. intros []; simpl; tauto. }
  destruct Hsh as [ls HF _|ls _ HF|ls rest _ _ HE|pre w0 cur x next rest _ _ HF _|ls rest Hk Hd HD].
  - apply before_after. apply (atoms_passive _ _ _ _ _ A HI (Hq _ HF)). exact HB.
  - pose proof (atoms_stuck _ _ _ _ _ A HI HF) as HS. destruct HB as (B1 & B2 & B3).
    destruct HS as (_ & C1 & _); [split; [exact B1|split; [exact B3|intros r _ []]]|].
    intros w r Hw Hc Hl. destruct (C1 w r Hw Hc Hl).
  - destruct HE.
    + apply before_after. apply (atoms_passive _ _ _ _ _ A HI); [repeat constructor|exact HB].
    + apply before_after. apply (atoms_passive _ _ _ _ _ A HI); [repeat constructor|exact HB].
    + apply (one_active [LMsg (ack_msg (m_ident m)); LCreate r] (LEnqueue r x) [LMsg (accept_msg (m_ident m))] _ _ _ _ HI A);
        try solve [repeat constructor]; [discriminate|exact HB].
    + apply before_after. apply (atoms_passive _ _ _ _ _ A HI); [repeat constructor|exact HB].
  - apply (one_active pre (LRegister w0 cur x) [] _ _ _ _ HI A); [apply Hq; exact HF|constructor|discriminate|exact HB].
  - destruct HD as [_|w0 r0 m0 x0 st Hf Hc Hj Hst Hor|w0 r0 ls0 Hf Hc Hj Hst Hlen HE].
    + apply before_after. apply (atoms_passive _ _ _ _ _ A HI); [repeat constructor|exact HB].
    + apply (one_active [LTau; LDone w0 r0 m0] (LAssign w0 x0) [LTau] _ _ _ _ HI A); try solve [repeat constructor]; [discriminate|exact HB].
    + destruct HE as [d Hcomp|d x0 Hcomp|x0 Hcomp].
      * apply before_after. apply (atoms_passive _ _ _ _ _ A HI); [repeat constructor|exact HB].
      * apply (one_active [LTau; LCancel w0 r0; LReport r0 (failed_msg (r_job r0) d); LMsg (Msg KEY_MONITOR MONITOR_IDENTITY [r_job r0; "FAILED"])]
                 (LAssign w0 x0) [LTau] _ _ _ _ HI A); try solve [repeat constructor]; [discriminate|exact HB].
      * apply (one_active [LTau; LCancel w0 r0] (LEnqueue r0 x0) [LTau] _ _ _ _ HI A); try solve [repeat constructor]; [discriminate|exact HB].
Qed.
End Oldest.

Theorem oldest_first_run tr1 e tr2 s w r : run o cfg KSingle (tr1 ++ e :: tr2) s ->
  In w (s_reg (ev_post e)) -> In r (queued (s_queue (ev_pre e))) -> current_of (s_queue (ev_post e)) w = Some r ->
  exists t, waiting_since (s_queue (ev_pre e)) r t /\
    forall r' t', waiting_since (s_queue (ev_pre e)) r' t' -> fits w r' -> (t <= t')%Z.
Proof.
  intros HR Hw Hr Hc. destruct (run_split _ _ _ _ _ _ _ HR) as (H1 & Hstep). pose proof (run_inv _ _ _ _ _ H1) as HI.
  destruct (on_request_sim _ _ _ _ _ _ HI Hstep) as (ls & A & _ & Hsh).
  pose proof (run_kind _ _ _ H1) as HK. destruct (s_queue (ev_pre e)) as [q|q] eqn:Eq; [|contradiction].
  assert (HB : before (sq_jobs q) (ev_pre e)).
  { split; [eauto|]. split; [rewrite Eq; reflexivity|]. intros w' r' Hw' Hc' (t & Hl).
    pose proof (inv_nodup _ _ HI) as Hnd. rewrite app_nil_r in Hnd. unfold held in Hnd. rewrite map_app in Hnd.
    assert (Hq : In r' (queued (s_queue (ev_pre e)))) by (rewrite Eq; simpl; apply in_map_iff; exists (mkEntry r' t); auto).
    assert (Hrun : In r' (running (s_queue (ev_pre e)))).
    { rewrite (running_current _ _ (inv_q _ _ HI)). apply in_flat_map. exists w'. split; [exact Hw'|]. rewrite Hc'. simpl. auto. }
    apply (in_map r_id) in Hq. apply (in_map r_id) in Hrun. apply in_split in Hq. destruct Hq as (p1 & p2 & Ep).
    rewrite Ep, app_assoc in Hnd. apply NoDup_remove_2 in Hnd. apply Hnd. rewrite !in_app_iff. auto. }
  assert (Hl : listed (sq_jobs q) r).
  { simpl in Hr. apply in_map_iff in Hr. destruct Hr as ([r0 t0] & <- & He). exists t0. exact He. }
  destruct (shape_after _ _ _ _ _ HI A Hsh HB w r Hw Hc Hl) as (t & Ht & Hmin).
  exists t. split; [exact Ht|]. intros r' t' Hw' Hf.
  apply (Hmin (mkEntry r' t') Hw'). destruct (used_inv o _ _ (run_used _ _ _ (run_post _ _ _ _ _ _ _ HR))) as (_ & HC).
  apply (fits_capable w r' (HC w Hw)). exact Hf.
Qed.

End WithConfig.

(* ---- idle workers beside waiting requests do occur ---- *)

Definition idle_inputs : list msg :=
  [from_worker "A" ["init"; "g"]; from_client "u" ["eval"; "x"; "hwgroup=g|h"; ""; "p"];
   from_client "u" ["eval"; "y"; "hwgroup=g"; ""; "p"]; from_worker "B" ["init"; "h"];
   from_worker "A" ["done"; "x"; "INTERNAL_ERROR"; "disk"]; from_worker "A" ["ping"]].

Theorem single_idle_refuted : ~ forall o cfg tr s w r, run o cfg KSingle tr s -> In w (s_reg s) ->
  current_of (s_queue s) w = None -> In r (queued (s_queue s)) -> ~ fits w r.
Proof.
  intros H. destruct (exec demo_oracle demo_cfg (start KSingle) idle_inputs) as (tr, [f|s]) eqn:E; [vm_compute in E; discriminate|].
  pose proof (exec_start _ _ _ _ _ _ E) as HR. vm_compute in E. injection E as _ <-.
  specialize (H _ _ _ _ _ _ HR (or_introl eq_refl) eq_refl (or_introl eq_refl)). apply H.
  intros h v [[= <- <-]|[]]. apply me_hwgroup. vm_compute. auto.
Qed.

Theorem multi_idle_refuted : ~ forall o cfg tr s w, run o cfg KMulti tr s -> In w (s_reg s) ->
  current_of (s_queue s) w = None -> own_queue (s_queue s) w = [].
Proof.
  intros H. destruct (exec demo_oracle demo_cfg (start KMulti) idle_inputs) as (tr, [f|s]) eqn:E; [vm_compute in E; discriminate|].
  pose proof (exec_start _ _ _ _ _ _ E) as HR. vm_compute in E. injection E as _ <-.
  specialize (H _ _ _ _ _ HR (or_introl eq_refl) eq_refl). discriminate.
Qed.
