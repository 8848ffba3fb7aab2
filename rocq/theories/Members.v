(* Registry and queue manager agree on the workers (C34). *)
From Coq Require Import Permutation Lia.
From Verif Require Import Base Bytes Containers Worker Multi Single Queue Handler SpecText Spec SpecRun Facts QueueInv
  Atoms HandlerSim Conserve Provenance.
Local Open Scope string_scope.
Local Open Scope list_scope.

Lemma manager_workers_perm m ws : qinv m ws -> Permutation (manager_workers m) ws.
Proof.
  intros [_ _ H]. destruct m; simpl; [rewrite (si_workers _ _ H); reflexivity|apply (mi_order _ _ H)].
Qed.

Section WithConfig.
Context (o : oracle) (cfg : config).

Theorem same_workers k tr s : run o cfg k tr s ->
  NoDup (map w_id (s_reg s)) /\
  Permutation (manager_workers (s_queue s)) (s_reg s) /\
  Permutation (map fst (current_map (s_queue s))) (s_reg s) /\
  (forall q, s_queue s = QMulti q -> Permutation (map fst (mq_queues q)) (s_reg s)).
Proof.
  intros HR. pose proof (inv_q _ _ (run_inv _ _ _ _ _ HR)) as HQ. split; [apply (qi_nodup _ _ HQ)|].
  split; [apply manager_workers_perm; exact HQ|]. split; [apply (qi_keys _ _ HQ)|].
  intros q E. rewrite E in HQ. apply (mi_queues _ _ (qi_impl _ _ HQ)).
Qed.

(* worker numbers grow *)
Lemma atom_next s h l s' h' : atom o cfg s h l s' h' -> s_next_w s <= s_next_w s' /\
  forall w, In w (s_reg s') -> In w (s_reg s) \/ s_next_w s <= w_id w.
Proof.
  intros Ha. destruct Ha; simpl; try (split; [lia|tauto]).
  - unfold core in H. injection H as -> _ _ -> _. split; [lia|tauto].
  - unfold core in H4. injection H4 as -> _ _ -> _. split; [lia|]. intros w'. rewrite in_app_iff. simpl.
    intros [?|[<-|[]]]; [auto|right; lia].
  - destruct H3; subst; simpl; (split; [lia|tauto]).
  - destruct (current_of (s_queue s) w); simpl; (split; [lia|]); intros w' Hw'; left; eapply reg_remove_subset; eauto.
Qed.
Lemma atoms_next s h ls s' h' : atoms o cfg s h ls s' h' -> s_next_w s <= s_next_w s' /\
  forall w, In w (s_reg s') -> In w (s_reg s) \/ s_next_w s <= w_id w.
Proof.
  induction 1 as [|s h l s1 h1 ls s2 h2 Ha _ (I1 & I2)]; [split; [lia|tauto]|].
  destruct (atom_next _ _ _ _ _ Ha) as (J1 & J2). split; [lia|]. intros w Hw. destruct (I2 w Hw) as [Hw'|?]; [auto|right; lia].
Qed.

Definition gone (w : worker) (s : state) : Prop :=
  w_id w < s_next_w s /\ ~ In (w_id w) (map w_id (s_reg s)).

Lemma gone_step w m s outs s' : inv s [] -> on_request o cfg m s = (outs, inr (tt, s')) -> gone w s -> gone w s'.
Proof.
  intros HI Hstep (G1 & G2). destruct (on_request_sim _ _ _ _ _ _ HI Hstep) as (ls & A & _).
  destruct (atoms_next _ _ _ _ _ A) as (I1 & I2). split; [lia|]. intros Hc. apply in_map_iff in Hc.
  destruct Hc as (w' & E & Hw'). destruct (I2 w' Hw') as [Hi|?]; [|lia]. apply G2. rewrite <- E. apply in_map. exact Hi.
Qed.

Lemma run_prefix k tr1 tr2 s : run o cfg k (tr1 ++ tr2) s -> exists s1, run o cfg k tr1 s1.
Proof.
  destruct tr2 as [|e t]; intros H; [rewrite app_nil_r in H; eauto|].
  destruct (run_split _ _ _ _ _ _ _ H). eauto.
Qed.

Lemma run_post k tr1 e tr2 s : run o cfg k (tr1 ++ e :: tr2) s -> run o cfg k (tr1 ++ [e]) (ev_post e).
Proof.
  intros H. destruct (run_split _ _ _ _ _ _ _ H) as (H1 & H2). destruct e as [pre m outs post]. simpl in *.
  apply run_snoc; assumption.
Qed.

Lemma run_fun k tr s : run o cfg k tr s -> forall s', run o cfg k tr s' -> s = s'.
Proof.
  intros H. induction H as [|tr s m outs s' HR IH Hs]; intros s2 H2.
  - inversion H2 as [|tr' ? ? ? ? ? ? E]; [reflexivity|]. destruct tr'; discriminate.
  - inversion H2 as [E|tr' s3 m' outs' s4 HR' Hs' E]; [destruct tr; discriminate|].
    apply app_inj_tail in E. destruct E as (-> & E). injection E as _ _ _ E. congruence.
Qed.

(* the state before an event is the state after the previous one *)
Lemma run_adjacent k tr1 e1 e2 tr2 s : run o cfg k (tr1 ++ e1 :: e2 :: tr2) s -> ev_pre e2 = ev_post e1.
Proof.
  intros H. pose proof (run_post _ _ _ _ _ H) as H1.
  assert (H' : run o cfg k ((tr1 ++ [e1]) ++ e2 :: tr2) s) by (rewrite <- app_assoc; exact H).
  destruct (run_split _ _ _ _ _ _ _ H') as (H2 & _). eapply run_fun; eassumption.
Qed.

Lemma gone_later k w tr2 : forall tr1 e s, run o cfg k (tr1 ++ e :: tr2) s -> gone w (ev_post e) ->
  forall e', In e' tr2 -> gone w (ev_pre e') /\ gone w (ev_post e').
Proof.
  induction tr2 as [|e2 tr2 IH]; intros tr1 e s HR HG e' Hin; [destruct Hin|].
  pose proof (run_adjacent _ _ _ _ _ _ HR) as Epre.
  assert (HR2 : run o cfg k ((tr1 ++ [e]) ++ e2 :: tr2) s) by (rewrite <- app_assoc; exact HR).
  destruct (run_split _ _ _ _ _ _ _ HR2) as (HP & Hstep). pose proof (run_inv _ _ _ _ _ HP) as HI.
  assert (G2 : gone w (ev_pre e2)) by (rewrite Epre; exact HG).
  pose proof (gone_step _ _ _ _ _ HI Hstep G2) as G3.
  destruct Hin as [<-|Hin]; [auto|]. eapply IH; eauto.
Qed.

(* a removed worker never comes back: it is in no later registry, in no later queue manager, and has
   no current job *)
Theorem removed_for_good k tr1 e tr2 s w : run o cfg k (tr1 ++ e :: tr2) s ->
  In w (s_reg (ev_pre e)) -> ~ In w (s_reg (ev_post e)) ->
  forall s', s' = ev_post e \/ (exists e', In e' tr2 /\ s' = ev_post e') ->
  ~ In (w_id w) (map w_id (s_reg s')) /\ ~ In (w_id w) (map w_id (manager_workers (s_queue s'))) /\
  current_of (s_queue s') w = None.
Proof.
  intros HR Hin Hout s' Hs'. destruct (run_split _ _ _ _ _ _ _ HR) as (HP & Hstep).
  pose proof (run_inv _ _ _ _ _ HP) as HI. pose proof (run_inv _ _ _ _ _ (run_post _ _ _ _ _ HR)) as HI1.
  assert (HG : gone w (ev_post e)).
  { destruct (on_request_sim _ _ _ _ _ _ HI Hstep) as (ls & A & _). destruct (atoms_next _ _ _ _ _ A) as (I1 & I2).
    pose proof (inv_w _ _ HI w Hin) as Hlt. split; [lia|]. intros Hc. apply in_map_iff in Hc. destruct Hc as (w' & E & Hw').
    destruct (I2 w' Hw') as [Hi|?]; [|lia].
    assert (w' = w) by (eapply ids_inj; [apply (qi_nodup _ _ (inv_q _ _ HI))|exact Hi|exact Hin|exact E]). subst. contradiction. }
  assert (HH : gone w s' /\ inv s' []).
  { destruct Hs' as [->|(e' & Hi & ->)]; [auto|]. split; [eapply gone_later; eauto|].
    apply in_split in Hi. destruct Hi as (l1 & l2 & ->).
    assert (HR' : run o cfg k ((tr1 ++ e :: l1) ++ e' :: l2) s) by (rewrite <- app_assoc; exact HR).
    exact (run_inv _ _ _ _ _ (run_post _ _ _ _ _ HR')). }
  destruct HH as ((_ & G) & HI'). pose proof (inv_q _ _ HI') as HQ. split; [exact G|]. split.
  - intros Hc. apply G. eapply Permutation_in; [|exact Hc]. apply Permutation_map. apply manager_workers_perm. exact HQ.
  - unfold current_of. destruct (pm_find w (current_map (s_queue s'))) as [x|] eqn:Ef; [|reflexivity].
    exfalso. apply G. apply pm_find_some_in in Ef. destruct Ef as (w' & Hi & E).
    eapply Permutation_in; [apply Permutation_map; apply (qi_keys _ _ HQ)|]. rewrite <- E. apply in_map.
    apply (in_map fst) in Hi. exact Hi.
Qed.

End WithConfig.
