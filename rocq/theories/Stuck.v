(* How a job leaves its worker, and workers hidden behind another one of the same identity (C50). *)
From Verif Require Import Base Bytes Containers Worker Multi Single Queue Handler SpecText Spec SpecRun SpecMsg SpecPings SpecQueue SpecWait
  Facts QueueInv Atoms HandlerSim Conserve Provenance Members Messages Pings Waiting.
Local Open Scope string_scope.
Local Open Scope list_scope.

Section WithConfig.
Context (o : oracle) (cfg : config).

Lemma timer_stays s h ls s' h' w : atoms o cfg s h ls s' h' -> inv s h -> Forall timer_label ls -> In w (s_reg s') ->
  In w (s_reg s) /\ forall l, In l ls -> match l with LDone w' _ _ | LCancel w' _ | LExpire w' _ => w' <> w | _ => True end.
Proof.
  induction 1 as [|s h l s1 h1 ls s2 h2 Ha Has IH]; intros HI HT Hin; [split; [exact Hin|intros l []]|].
  inversion HT as [|? ? Hl HT']; subst. destruct (IH (atom_inv _ _ _ _ _ _ _ HI Ha) HT' Hin) as (Hin1 & HL).
  assert (HX : In w (s_reg s) /\ match l with LDone w' _ _ | LCancel w' _ | LExpire w' _ => w' <> w | _ => True end).
  { destruct Ha; simpl in Hl; try contradiction; try (split; [exact Hin1|exact I]).
    - unfold core in H. injection H as -> _ _ _ _. auto.
    - assert (Hr : In w (reg_remove w0 (s_reg s))) by (destruct (current_of (s_queue s) w0); exact Hin1).
      apply reg_remove_in in Hr; [|apply (qi_nodup _ _ (inv_q _ _ HI))|exact H]. destruct Hr. auto. }
  destruct HX as (HX1 & HX2). split; [exact HX1|]. intros l' [<-|Hl']; [exact HX2|apply HL; exact Hl'].
Qed.

Lemma own_report_intro i e w r rest : ev_in e = Msg "workers" i ("done" :: r_job r :: rest) ->
  sender i (ev_pre e) = Some w -> current_of (s_queue (ev_pre e)) w = Some r -> own_report i e = true.
Proof.
  intros E S C. unfold own_report. rewrite E. cbn [m_key m_ident m_data nth_error]. unfold sender in S. rewrite S, C, !String.eqb_refl.
  unfold job_is. rewrite String.eqb_refl. reflexivity.
Qed.

Theorem job_leaves k tr1 e tr2 s w r : run o cfg k (tr1 ++ e :: tr2) s -> In w (s_reg (ev_pre e)) ->
  current_of (s_queue (ev_pre e)) w = Some r ->
  current_of (s_queue (ev_post e)) w = Some r /\ In w (s_reg (ev_post e)) \/
  (exists st, In st ["OK"; "FAILED"; "INTERNAL_ERROR"] /\ credited st e = true /\ by_whom e = Some w) \/
  m_key (ev_in e) = "timer" /\ ~ In w (s_reg (ev_post e)).
Proof.
  intros HR Hin Hc. destruct (run_split _ _ _ _ _ _ _ HR) as (HP & Hstep). pose proof (run_inv _ _ _ _ _ HP) as HI.
  destruct (on_request_sim _ _ _ _ _ _ HI Hstep) as (ls & A & _ & Sh).
  assert (Hkeep : (forall l, In l ls -> match l with LDone w' _ _ | LCancel w' _ | LExpire w' _ => w' <> w | _ => True end) ->
    current_of (s_queue (ev_post e)) w = Some r /\ In w (s_reg (ev_post e))).
  { intros HL. destruct (atoms_current o cfg ls _ _ _ _ w r HI A Hin Hc HL). auto. }
  assert (Hquiet : forall ls, Forall quiet ls -> forall l, In l ls ->
      match l with LDone w' _ _ | LCancel w' _ | LExpire w' _ => w' <> w | _ => True end).
  { intros ls0 Hq l Hl. rewrite Forall_forall in Hq. specialize (Hq l Hl). destruct l; simpl in *; tauto. }
  destruct Sh as [ls Hq _|ls Hk Ht|ls rest Hk _ He|pre w0 cur x next rest _ _ Hq _|ls rest Hk Hd Hs].
  - left. apply Hkeep. apply Hquiet. exact Hq.
  - destruct (in_dec Nat.eq_dec (w_id w) (ids (s_reg (ev_post e)))) as [Hi|Hn].
    + left. apply in_ids_inv in Hi. destruct Hi as (w' & Hw' & E). destruct (timer_stays _ _ _ _ _ w' A HI Ht Hw') as (Hw0 & HL).
      assert (w' = w) by (eapply ids_inj; eauto using (qi_nodup _ _ (inv_q _ _ HI))). subst w'. apply Hkeep. exact HL.
    + right. right. split; [exact Hk|]. intros Hw. apply Hn. apply in_ids. exact Hw.
  - left. apply Hkeep. intros l Hl. destruct He; simpl in Hl; repeat (destruct Hl as [<-|Hl]; [exact I|]); try destruct Hl.
  - left. apply Hkeep. intros l Hl. apply in_app_iff in Hl. destruct Hl as [Hl|[<-|[]]]; [|exact I]. eapply Hquiet; eassumption.
  - assert (HC : forall w0 r0 st rest0, find_worker_by_identity (m_ident (ev_in e)) (s_reg (refresh cfg (m_ident (ev_in e)) (ev_pre e))) = Some w0 ->
      current_of (s_queue (refresh cfg (m_ident (ev_in e)) (ev_pre e))) w0 = Some r0 ->
      m_data (ev_in e) = "done" :: r_job r0 :: st :: rest0 -> In st ["OK"; "FAILED"; "INTERNAL_ERROR"] ->
      (st = "OK" \/ length rest0 = 1) -> w0 = w ->
      exists st, In st ["OK"; "FAILED"; "INTERNAL_ERROR"] /\ credited st e = true /\ by_whom e = Some w).
    { intros w0 r0 st rest0 Hf Hc0 Ed Hst Hl ->. rewrite refresh_reg, <- sender_find in Hf. rewrite refresh_queue in Hc0.
      exists st. split; [exact Hst|]. split; [|exact Hf]. unfold credited.
      assert (Ein : ev_in e = Msg "workers" (m_ident (ev_in e)) ("done" :: r_job r0 :: st :: rest0)).
      { destruct (ev_in e) as [key i d]. cbn [m_key m_data m_ident] in *. rewrite Hk, Ed. reflexivity. }
      rewrite (own_report_intro _ _ _ _ _ Ein Hf Hc0), Ed, String.eqb_refl. cbn [andb].
      destruct Hl as [->|Hl]; [reflexivity|]. rewrite Hl. apply orb_true_r. }
    assert (HW : forall (w1 w2 : worker), In w1 (s_reg (ev_pre e)) -> In w2 (s_reg (ev_pre e)) -> w1 = w2 \/ w1 <> w2).
    { intros w1 w2 H1 H2. destruct (Nat.eq_dec (w_id w1) (w_id w2)) as [E|E]; [|right; congruence].
      left. eapply ids_inj; eauto using (qi_nodup _ _ (inv_q _ _ HI)). }
    destruct Hs as [Hs|w0 r0 m0 x st Hf Hc0 H1 H2 H3|w0 r0 ls Hf Hc0 H1 H2 H3 He].
    + left. apply Hkeep. intros l [<-|[]]. exact I.
    + assert (Hw0 : In w0 (s_reg (ev_pre e))) by (rewrite refresh_reg in Hf; exact (proj1 (find_by_identity_in _ _ _ Hf))).
      destruct (HW w0 w Hw0 Hin) as [Ew|Hne].
      * right. left. destruct (m_data (ev_in e)) as [|c [|j [|st' rest0]]] eqn:Ed; try discriminate. injection Hd as -> _.
        cbn [nth_error] in H1, H2. injection H1 as ->. injection H2 as ->.
        eapply (HC w0 r0 st rest0); eauto.
        -- destruct H3 as [(-> & _)|(-> & _)]; simpl; auto.
        -- destruct H3 as [(-> & _)|(-> & d & Hl & _)]; [auto|]. right. cbn [length] in Hl. lia.
      * left. apply Hkeep. intros l [<-|[<-|[<-|[<-|[]]]]]; try exact I. exact Hne.
    + assert (Hw0 : In w0 (s_reg (ev_pre e))) by (rewrite refresh_reg in Hf; exact (proj1 (find_by_identity_in _ _ _ Hf))).
      destruct (HW w0 w Hw0 Hin) as [Ew|Hne].
      * right. left. destruct (m_data (ev_in e)) as [|c [|j [|st' rest0]]] eqn:Ed; try discriminate. injection Hd as -> _.
        cbn [nth_error] in H1, H2. injection H1 as ->. injection H2 as ->.
        eapply (HC w0 r0 "INTERNAL_ERROR" rest0); eauto; [simpl; auto|]. right. cbn [length] in H3. lia.
      * left. apply Hkeep. intros l [<-|[<-|Hl]]; [exact I|exact Hne|].
        destruct He; simpl in Hl; repeat (destruct Hl as [<-|Hl]; [exact I|]); destruct Hl.
Qed.

Lemma run_next k tr2 : forall tr1 s1 s, run o cfg k tr1 s1 -> run o cfg k (tr1 ++ tr2) s ->
  s_next_w s1 <= s_next_w s /\ forall w, In w (s_reg s) -> In w (s_reg s1) \/ s_next_w s1 <= w_id w.
Proof.
  induction tr2 as [|e tr2 IH] using rev_ind; intros tr1 s1 s H1 H2.
  - rewrite app_nil_r in H2. rewrite (run_fun _ _ _ _ _ H1 _ H2). split; [lia|auto].
  - rewrite app_assoc in H2. destruct (run_last _ _ _ _ _ _ H2) as (H3 & Hstep & <-). destruct (IH _ _ _ H1 H3) as (I1 & I2).
    destruct (on_request_sim _ _ _ _ _ _ (run_inv _ _ _ _ _ H3) Hstep) as (ls & A & _).
    destruct (atoms_next _ _ _ _ _ _ _ A) as (J1 & J2). split; [lia|]. intros w Hw. destruct (J2 w Hw) as [Hi|?]; [auto|right; lia].
Qed.

(* a worker that is still there has been there all the time *)
Lemma been_there k tr1 s1 e tr2 s w : run o cfg k tr1 s1 -> run o cfg k (tr1 ++ tr2 ++ [e]) s -> In w (s_reg s1) -> In w (s_reg s) -> In w (s_reg (ev_pre e)).
Proof.
  intros H1 H2 Hin Hend. rewrite app_assoc in H2. destruct (run_last _ _ _ _ _ _ H2) as (H3 & Hstep & <-).
  pose proof (inv_w _ _ (run_inv _ _ _ _ _ H1) w Hin) as Hlt. destruct (run_next _ _ _ _ _ H1 H3) as (Hle & _).
  destruct (on_request_sim _ _ _ _ _ _ (run_inv _ _ _ _ _ H3) Hstep) as (ls & A & _).
  destruct (atoms_next _ _ _ _ _ _ _ A) as (_ & J2). destruct (J2 w Hend) as [Hi|?]; [exact Hi|lia].
Qed.

(* without a report of the worker, the job stays as long as the worker does *)
Theorem job_kept k w r tr1 s1 tr2 : forall s, run o cfg k tr1 s1 -> run o cfg k (tr1 ++ tr2) s -> In w (s_reg s1) ->
  current_of (s_queue s1) w = Some r ->
  (forall e st, In e tr2 -> by_whom e = Some w -> In st ["OK"; "FAILED"; "INTERNAL_ERROR"] -> credited st e = false) ->
  In w (s_reg s) -> current_of (s_queue s) w = Some r.
Proof.
  induction tr2 as [|e tr2 IH] using rev_ind; intros s H1 H2 Hin Hc Hno Hend.
  - rewrite app_nil_r in H2. rewrite <- (run_fun _ _ _ _ _ H1 _ H2). exact Hc.
  - pose proof (been_there _ _ _ _ _ _ _ H1 H2 Hin Hend) as Hpre.
    rewrite app_assoc in H2. destruct (run_last _ _ _ _ _ _ H2) as (H3 & Hstep & <-).
    assert (Hcp : current_of (s_queue (ev_pre e)) w = Some r).
    { eapply IH; eauto. intros e' st He'. apply Hno. apply in_or_app. auto. }
    destruct (job_leaves _ _ _ _ _ _ _ H2 Hpre Hcp) as [(HK & _)|[(st & Hst & HC & HW)|(_ & HN)]]; [exact HK| |contradiction].
    rewrite (Hno e st) in HC; [discriminate| |assumption|assumption]. apply in_or_app. simpl. auto.
Qed.

Lemma credited_heard st e w : credited st e = true -> by_whom e = Some w -> hears w e.
Proof.
  intros HC HW. destruct (credited_form _ _ HC) as (w' & r & rest & HS & _ & Ein & _). split; [rewrite Ein; reflexivity|exact HW].
Qed.

Theorem hidden_stuck k tr1 e tr2 s w w1 zs : run o cfg k (tr1 ++ e :: tr2) s -> enters w e ->
  sender (w_identity w) (ev_post e) = Some w1 -> w1 <> w -> In w1 (s_reg s) ->
  ticks tr2 zs -> (N.of_nat (length zs) < two64)%N ->
  In w (s_reg s) /\ silent w tr2 /\
  forall tr3 tr4 s3 r, tr2 = tr3 ++ tr4 -> run o cfg k (tr1 ++ e :: tr3) s3 -> current_of (s_queue s3) w = Some r ->
    current_of (s_queue s) w = Some r /\ In r (held (s_queue s)).
Proof.
  intros HR HE HS Hne Hend HT Hlen.
  assert (Hsil : silent w tr2).
  { intros e' He' (HK & HS'). destruct (sender_later _ _ _ _ _ _ _ _ _ HR (or_introl HS) _ He') as [HL|HG].
    - assert (w_identity w = m_ident (ev_in e')) by (rewrite sender_find in HS'; apply find_by_identity_in in HS'; apply HS').
      rewrite H in HL. congruence.
    - apply in_split in He'. destruct He' as (l1 & l2 & ->).
      assert (HR' : run o cfg k ((tr1 ++ e :: l1) ++ e' :: l2) s) by (rewrite <- app_assoc; exact HR).
      destruct (run_split _ _ _ _ _ _ _ HR') as (HP & _). destruct (run_next _ _ _ _ _ HP HR') as (_ & HN).
      destruct HG as (G1 & G2). destruct (HN _ Hend) as [Hi|?]; [|lia]. apply G2. apply in_map. exact Hi. }
  assert (Hin : In w (s_reg s)) by (eapply fresh_silence; eauto).
  split; [exact Hin|]. split; [exact Hsil|]. intros tr3 tr4 s3 r -> H3 Hc.
  assert (HR' : run o cfg k ((tr1 ++ e :: tr3) ++ tr4) s) by (rewrite <- app_assoc; exact HR).
  assert (Hin3 : In w (s_reg s3)).
  { destruct (run_next _ _ _ _ _ H3 HR') as (_ & HN). destruct (HN w Hin) as [Hi|Hge]; [exact Hi|]. exfalso.
    pose proof (run_post _ _ _ _ _ _ _ HR) as Hpost. destruct HE as (_ & HE).
    pose proof (inv_w _ _ (run_inv _ _ _ _ _ Hpost) w HE).
    replace (tr1 ++ e :: tr3) with ((tr1 ++ [e]) ++ tr3) in H3 by (rewrite <- app_assoc; reflexivity).
    destruct (run_next _ _ _ _ _ Hpost H3) as (Hle & _). lia. }
  assert (HK : current_of (s_queue s) w = Some r).
  { eapply (job_kept k w r (tr1 ++ e :: tr3) s3 tr4); eauto. intros e' st He' HW Hst. destruct (credited st e') eqn:EC; [|reflexivity].
    exfalso. apply (Hsil e'); [apply in_or_app; auto|]. eapply credited_heard; eassumption. }
  split; [exact HK|]. exact (in_held_current _ _ _ _ (inv_q _ _ (run_inv _ _ _ _ _ HR)) Hin HK).
Qed.

End WithConfig.
