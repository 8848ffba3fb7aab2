(* The queues of the broker with one queue per worker are the floor of SpecLedger (C71). *)
From Coq Require Import Permutation Lia.
From Verif Require Import Base Bytes Containers Worker Multi Single Queue Handler SpecText Spec SpecRun SpecMsg SpecQueue SpecPings SpecOutcome SpecJoin SpecTick SpecFront SpecBook SpecLedger
  Facts TextFacts QueueInv Atoms HandlerSim Keeps Conserve Provenance Members HeaderFacts OrderFacts Messages Pings Blind Outcome Joining Front Book.
Local Open Scope string_scope.
Local Open Scope list_scope.

Record krel (t : table) (k : task) (r : request) : Prop := mkKrel {
  kr_name : r_job r = k_name k;
  kr_whole : r_complete r = k_whole k;
  kr_strikes : tbl_get (r_id r) t = k_strikes k;
  kr_text : r_complete r = true -> r_frames r = k_text k;
  kr_need : r_complete r = true -> forall h v, In (h, v) (r_headers r) <-> requires (k_need k) h v }.

Record drel (s : state) (d : desk) (w : worker) : Prop := mkDrel {
  dr_key : d_key d = w_id w;
  dr_guest : rel s (d_guest d) w;
  dr_now : may_be (krel (s_fails s)) (d_now d) (current_of (s_queue s) w);
  dr_line : Forall2 (krel (s_fails s)) (d_line d) (own_queue (s_queue s) w) }.

Record frel (s : state) (F : floor) : Prop := mkFrel {
  fr_multi : exists q, s_queue s = QMulti q;
  fr_desks : Forall2 (drel s) (f_desks F) (s_reg s);
  fr_rota : f_rota F = ids (manager_workers (s_queue s)) }.

(* ---- desks ---- *)
Lemma drel_name s d w : drel s d w -> name_of d = w_identity w.
Proof. intros H. symmetry. exact (rl_name _ _ _ (dr_guest _ _ _ H)). Qed.

Lemma desk_at_in s ds ws x d : Forall2 (drel s) ds ws -> desk_at x ds = Some d -> exists w, In w ws /\ w_id w = x /\ drel s d w /\ In d ds.
Proof.
  unfold desk_at. induction 1 as [|e w ds ws Hr _ IH]; cbn [find]; [discriminate|].
  destruct (Nat.eqb_spec (d_key e) x) as [E|E].
  - intros [= <-]. exists w. split; [left; reflexivity|]. split; [rewrite <- E; symmetry; apply Hr|]. split; [exact Hr|left; reflexivity].
  - intros H. destruct (IH H) as (u & H1 & H2 & H3 & H4). exists u. split; [right; exact H1|]. split; [exact H2|]. split; [exact H3|right; exact H4].
Qed.

Lemma desk_at_of s ds ws w : Forall2 (drel s) ds ws -> NoDup (ids ws) -> In w ws -> exists d, desk_at (w_id w) ds = Some d /\ drel s d w.
Proof.
  unfold desk_at. induction 1 as [|e u ds ws Hr _ IH]; intros Hnd Hin; [contradiction|]. cbn [find].
  inversion Hnd as [|? ? Hni Hnd']; subst. rewrite (dr_key _ _ _ Hr). destruct Hin as [->|Hin].
  - rewrite Nat.eqb_refl. eauto.
  - destruct (Nat.eqb_spec (w_id u) (w_id w)) as [E|E]; [exfalso; apply Hni; rewrite E; apply in_map; exact Hin|]. exact (IH Hnd' Hin).
Qed.

Lemma drel_change s s' x f ds ws : Forall2 (drel s) ds ws ->
  (forall d w, In w ws -> drel s d w -> w_id w = x -> drel s' (f d) w) ->
  (forall d w, In w ws -> drel s d w -> w_id w <> x -> drel s' d w) -> Forall2 (drel s') (change x f ds) ws.
Proof.
  intros H. induction H as [|d w ds ws Hr _ IH]; intros H1 H2; [constructor|]. cbn [change map]. constructor.
  - rewrite (dr_key _ _ _ Hr). destruct (Nat.eqb_spec (w_id w) x) as [E|E].
    + apply H1; [left; reflexivity|exact Hr|exact E].
    + apply H2; [left; reflexivity|exact Hr|exact E].
  - apply IH; intros e u Hu; [apply H1|apply H2]; right; exact Hu.
Qed.

Lemma change_change x f g ds : (forall d, d_key (f d) = d_key d) -> change x g (change x f ds) = change x (fun d => g (f d)) ds.
Proof.
  intros Hk. unfold change. rewrite map_map. apply map_ext. intros d. destruct (Nat.eqb (d_key d) x) eqn:E; rewrite ?Hk, E; reflexivity.
Qed.
Lemma change_ext x f g ds : (forall d, f d = g d) -> change x f ds = change x g ds.
Proof. intros H. unfold change. apply map_ext. intros d. destruct (Nat.eqb _ _); [apply H|reflexivity]. Qed.

(* a worker of the same identity number is looked up in the same way *)
Lemma drel_fields s s' d w : s_live s' = s_live s -> s_timers s' = s_timers s -> s_fails s' = s_fails s ->
  current_of (s_queue s') w = current_of (s_queue s) w -> own_queue (s_queue s') w = own_queue (s_queue s) w -> drel s d w -> drel s' d w.
Proof.
  intros E1 E2 E3 E4 E5 [H1 H2 H3 H4]. constructor; [exact H1| | |].
  - eapply rel_pings; [| |exact H2]; unfold liveness, ping_timer; congruence.
  - rewrite E3, E4. exact H3.
  - rewrite E3, E5. exact H4.
Qed.

(* ---- the maps ---- *)
Lemma index_known {A} (d : A) ws w m : NoDup (ids ws) -> Permutation (keys m) ws -> In w ws ->
  exists a, pm_find w m = Some a /\ pm_index d w m = (a, m).
Proof.
  intros Hnd HP Hin. destruct (keys_around ws w m Hnd HP Hin) as (l1 & a & l2 & H).
  exists a. split; [exact (ar_find _ _ _ _ _ H)|exact (ar_index _ _ _ _ _ H d)].
Qed.

Lemma line_complete q ws w r : qinv (QMulti q) ws -> In r (own_queue (QMulti q) w) -> r_complete r = true.
Proof.
  intros H Hr. unfold own_queue in Hr. destruct (pm_find w (mq_queues q)) as [l|] eqn:E; [|contradiction].
  apply pm_find_some_in in E. destruct E as (w' & Hi & _). exact (proj1 (mi_queued _ _ (qi_impl _ _ H) w' l r Hi Hr)).
Qed.

Lemma in_held_line q ws w r : qinv (QMulti q) ws -> In r (own_queue (QMulti q) w) -> In r (held (QMulti q)).
Proof.
  intros H Hr. unfold own_queue in Hr. destruct (pm_find w (mq_queues q)) as [l|] eqn:E; [|contradiction].
  apply pm_find_some_in in E. destruct E as (w' & Hi & _). unfold held. apply in_or_app. right. cbn [queued].
  apply in_concat. exists l. split; [|exact Hr]. apply in_map_iff. exists (w', l). auto.
Qed.

Section WithConfig.
Context (o : oracle) (cfg : config).

(* ---- placing a request ---- *)
Lemma place_sim s F r k x m' : qinv (s_queue s) (s_reg s) -> frel s F -> krel (s_fails s) k r -> r_complete r = true ->
  q_enqueue_request o r (s_queue s) = Val (x, m') ->
  exists F', place F k (enqueued x) (match assigned_to x with Some w => [Msg "workers" (w_identity w) (r_frames r)] | None => [] end) F' /\
    frel (set_queue m' s) F'.
Proof.
  intros HQ [(q & Eq) HD HR] HK Hc E. rewrite Eq in *. pose proof (qi_nodup _ _ HQ) as Hnd.
  destruct (qi_impl _ _ HQ) as [S1 S2 S3 S4]. cbn [q_enqueue_request] in E. cbn [manager_workers] in HR.
  destruct (multi_enqueue r q) as [(y, q')|] eqn:Em; [|discriminate]. cbn in E. injection E as <- <-. cbn [fst snd] in *.
  destruct F as (ds, rota). cbn [f_desks f_rota] in *. subst rota. unfold multi_enqueue in Em.
  assert (HC : forall d w, drel s d w -> (check_headers w (r_headers r) = Val true <-> can d k)).
  { intros d w Hd. unfold can. eapply provides_serves; [apply Hd|]. apply (kr_need _ _ _ HK Hc). }
  assert (HO : forall l w, In w l -> In (w_id w) (ids l)) by (intros l w Hw; apply in_map; exact Hw).
  destruct (multi_select (r_headers r) (mq_order q)) as [[w|]|] eqn:Es; cbn in Em; [| |discriminate]; apply multi_select_spec in Es.
  - destruct Es as (before & after & Eo & Hcap & Hbef).
    assert (Hno : NoDup (ids (mq_order q))) by (eapply Permutation_NoDup; [symmetry; apply ids_perm; exact S1|exact Hnd]).
    assert (Hin : In w (s_reg s)) by (eapply Permutation_in; [exact S1|]; rewrite Eo; apply in_or_app; right; left; reflexivity).
    destruct (desk_at_of _ _ _ _ HD Hnd Hin) as (d & Ed & Hd).
    assert (Hb : forall y e, In y (ids before) -> desk_at y ds = Some e -> ~ can e k).
    { intros z e Hy He Hca. apply in_ids_inv in Hy. destruct Hy as (u & Hu & <-).
      assert (Hur : In u (s_reg s)) by (eapply Permutation_in; [exact S1|]; rewrite Eo; apply in_or_app; left; exact Hu).
      destruct (desk_at_of _ _ _ _ HD Hnd Hur) as (e' & Ee & He'). rewrite Ee in He. injection He as ->.
      apply (HC _ _ He') in Hca. rewrite (Hbef u Hu) in Hca. discriminate. }
    assert (Hrem : list_remove w (mq_order q) = before ++ after).
    { rewrite Eo in Hno |- *. unfold ids in Hno. rewrite map_app in Hno. cbn [map] in Hno. apply NoDup_remove_2 in Hno. rewrite in_app_iff in Hno.
      assert (HF : forall l, ~ In (w_id w) (ids l) -> list_remove w l = l).
      { intros l. induction l as [|u l IH]; [reflexivity|]. cbn [ids map list_remove filter]. intros Hn. unfold same_worker.
        destruct (Nat.eqb_spec (w_id u) (w_id w)) as [Ei|Ei]; [exfalso; apply Hn; left; exact Ei|]. cbn [negb]. f_equal. apply IH. intros Hi. apply Hn. right. exact Hi. }
      unfold list_remove. rewrite filter_app. cbn [filter]. unfold same_worker at 2. rewrite Nat.eqb_refl. cbn [negb].
      f_equal; apply HF; unfold ids; tauto. }
    rewrite Hrem in Em.
    assert (Hrota : ids (mq_order q) = ids before ++ w_id w :: ids after) by (rewrite Eo; unfold ids; rewrite map_app; reflexivity).
    assert (Hrota' : ids before ++ ids after ++ [w_id w] = ids ((before ++ after) ++ [w])) by (unfold ids; rewrite !map_app, <- app_assoc; reflexivity).
    destruct (index_known None _ w _ Hnd S3 Hin) as (cur & Ef & Ei). rewrite Ei in Em.
    pose proof (dr_now _ _ _ Hd) as Hnow. rewrite Eq in Hnow. unfold current_of in Hnow. cbn [current_map] in Hnow. rewrite Ef in Hnow.
    destruct cur as [c|].
    + destruct (index_known [] _ w _ Hnd S2 Hin) as (l & Efl & Eil). rewrite Eil in Em. injection Em as <- <-. cbn [enqueued assigned_to].
      assert (Ec : exists c', d_now d = Some c') by (inversion Hnow; eauto). destruct Ec as (c' & Ec).
      exists (Floor (change (w_id w) (lines (d_line d ++ [k])) ds) (ids before ++ ids after ++ [w_id w])). split.
      * rewrite Hrota. eapply pl_wait; [exact Hb|exact Ed|apply (HC _ _ Hd); exact Hcap|exact Ec].
      * constructor; cbn [set_queue s_queue s_reg f_desks f_rota manager_workers mq_order]; [eauto| |exact Hrota'].
        apply (drel_change s); [exact HD| |].
        -- intros e u Hu He Eu. assert (u = w) as -> by (exact (ids_inj _ _ _ Hnd Hu Hin Eu)).
           pose proof (dr_line _ _ _ Hd) as Hld. destruct He as [E1 E2 E3 E4]. constructor; cbn [set_queue s_queue s_fails lines d_key d_guest d_now d_line].
           ++ exact E1.
           ++ eapply rel_pings; [| |exact E2]; reflexivity.
           ++ rewrite Eq in E3. exact E3.
           ++ unfold own_queue. cbn [mq_queues]. rewrite pm_find_set, Nat.eqb_refl. rewrite Eq in Hld. unfold own_queue in Hld. rewrite Efl in Hld.
              apply Forall2_app; [exact Hld|]. constructor; [exact HK|constructor].
        -- intros e u Hu He Eu. eapply drel_fields; [| | | | |exact He]; try reflexivity; cbn [set_queue s_queue]; rewrite Eq; [reflexivity|].
           unfold own_queue. cbn [mq_queues]. rewrite pm_find_set. destruct (Nat.eqb_spec (w_id w) (w_id u)); [congruence|reflexivity].
    + injection Em as <- <-. cbn [enqueued assigned_to]. assert (Ec : d_now d = None) by (inversion Hnow; reflexivity).
      exists (Floor (change (w_id w) (has (Some k)) ds) (ids before ++ ids after ++ [w_id w])). split.
      * rewrite Hrota. assert (Eh : Msg "workers" (w_identity w) (r_frames r) = hand d k).
        { unfold hand. rewrite (drel_name _ _ _ Hd), (kr_text _ _ _ HK Hc). reflexivity. }
        rewrite Eh. eapply pl_now; [exact Hb|exact Ed|apply (HC _ _ Hd); exact Hcap|exact Ec].
      * constructor; cbn [set_queue s_queue s_reg f_desks f_rota manager_workers mq_order]; [eauto| |exact Hrota'].
        apply (drel_change s); [exact HD| |].
        -- intros e u Hu He Eu. destruct He as [E1 E2 E3 E4]. constructor; cbn [set_queue s_queue s_fails has d_key d_guest d_now d_line].
           ++ exact E1.
           ++ eapply rel_pings; [| |exact E2]; reflexivity.
           ++ unfold current_of. cbn [current_map mq_current]. rewrite pm_find_set, Eu, Nat.eqb_refl. constructor. exact HK.
           ++ rewrite Eq in E4. exact E4.
        -- intros e u Hu He Eu. eapply drel_fields; [| | | | |exact He]; try reflexivity; cbn [set_queue s_queue]; rewrite Eq; [|reflexivity].
           unfold current_of. cbn [current_map mq_current]. rewrite pm_find_set. destruct (Nat.eqb_spec (w_id w) (w_id u)); [congruence|reflexivity].
  - injection Em as <- <-. cbn [enqueued assigned_to]. exists (Floor ds (ids (mq_order q))). split.
    + apply pl_nobody. intros y e Hy He Hca. apply in_ids_inv in Hy. destruct Hy as (u & Hu & <-).
      assert (Hur : In u (s_reg s)) by (eapply Permutation_in; [exact S1|exact Hu]).
      destruct (desk_at_of _ _ _ _ HD Hnd Hur) as (e' & Ee & He'). rewrite Ee in He. injection He as ->.
      apply (HC _ _ He') in Hca. rewrite (Es u Hu) in Hca. discriminate.
    + rewrite <- Eq, set_queue_id. constructor; [eauto|exact HD|]. rewrite Eq. reflexivity.
Qed.

(* ---- giving up the current request, taking the next one ---- *)
Lemma cancel_sim s ds rota w x m' : qinv (s_queue s) (s_reg s) -> frel s (Floor ds rota) -> In w (s_reg s) ->
  q_worker_cancelled w (s_queue s) = Val (x, m') -> frel (set_queue m' s) (Floor (change (w_id w) (has None) ds) rota).
Proof.
  intros HQ [(q & Eq) HD HR] Hin E. rewrite Eq in *. pose proof (qi_nodup _ _ HQ) as Hnd.
  destruct (qi_impl _ _ HQ) as [S1 S2 S3 S4]. cbn [q_worker_cancelled] in E. unfold multi_worker_cancelled, lift_multi in E.
  destruct (index_known None _ w _ Hnd S3 Hin) as (cur & Ef & Ei). rewrite Ei in E. cbn in E. injection E as <- <-.
  constructor; cbn [set_queue s_queue s_reg f_desks f_rota manager_workers mq_order] in *; [eauto| |exact HR].
  apply (drel_change s); [exact HD| |].
  - intros e u Hu He Eu. destruct He as [E1 E2 E3 E4]. constructor; cbn [set_queue s_queue s_fails has d_key d_guest d_now d_line].
    + exact E1.
    + eapply rel_pings; [| |exact E2]; reflexivity.
    + unfold current_of. cbn [current_map mq_current]. rewrite pm_find_set, Eu, Nat.eqb_refl. constructor.
    + rewrite Eq in E4. exact E4.
  - intros e u Hu He Eu. eapply drel_fields; [| | | | |exact He]; try reflexivity; cbn [set_queue s_queue]; rewrite Eq; [|reflexivity].
    unfold current_of. cbn [current_map mq_current]. rewrite pm_find_set. destruct (Nat.eqb_spec (w_id w) (w_id u)); [congruence|reflexivity].
Qed.

Lemma take_sim s d ds rota w x m' : qinv (s_queue s) (s_reg s) -> frel s (Floor (change (w_id w) (has None) ds) rota) -> In w (s_reg s) ->
  d_key d = w_id w -> name_of d = w_identity w -> Forall2 (krel (s_fails s)) (d_line d) (own_queue (s_queue s) w) ->
  q_assign_request o w (s_queue s) = Val (x, m') ->
  fst (takes_next d ds) = (match x with Some r => [Msg "workers" (w_identity w) (r_frames r)] | None => [] end) /\
  frel (set_queue m' s) (Floor (snd (takes_next d ds)) rota).
Proof.
  intros HQ [(q & Eq) HD HR] Hin Hk Hn HL E. rewrite Eq in *. pose proof (qi_nodup _ _ HQ) as Hnd.
  destruct (qi_impl _ _ HQ) as [S1 S2 S3 S4]. cbn [q_assign_request] in E. unfold multi_assign, multi_take, lift_multi in E.
  destruct (index_known [] _ w _ Hnd S2 Hin) as (l & Ef & Ei). rewrite Ei in E. unfold takes_next. rewrite Hk.
  assert (HLC : forall r, In r l -> r_complete r = true).
  { intros r Hr. eapply (line_complete q _ w); [exact HQ|]. unfold own_queue. rewrite Ef. exact Hr. }
  unfold own_queue in HL. rewrite Ef in HL.
  destruct l as [|r rest]; cbn in E; injection E as <- <-; inversion HL as [E1|k r' ks rest' HK HKs E1 E2]; subst; cbn [fst snd].
  - split; [reflexivity|]. assert (Es : set_queue (QMulti (mkMulti (mq_queues q) (mq_current q) (mq_order q))) s = s).
    { destruct q. cbn in *. rewrite <- Eq. apply set_queue_id. }
    rewrite Es. constructor; [eauto|exact HD|]. rewrite Eq. exact HR.
  - split. { unfold hand. rewrite Hn, (kr_text _ _ _ HK); [reflexivity|]. apply HLC. left. reflexivity. }
    constructor; cbn [set_queue s_queue s_reg f_desks f_rota manager_workers mq_order] in *; [eauto| |exact HR].
    rewrite (change_ext _ _ (fun e => lines ks (has (Some k) (has None e)))) by reflexivity.
    rewrite <- (change_change (w_id w) (has None) (fun e => lines ks (has (Some k) e)) ds) by reflexivity.
    apply (drel_change s); [exact HD| |].
    + intros e u Hu He Eu. destruct He as [F1 F2 F3 F4]. constructor; cbn [set_queue s_queue s_fails has lines d_key d_guest d_now d_line].
      * exact F1.
      * eapply rel_pings; [| |exact F2]; reflexivity.
      * unfold current_of. cbn [current_map mq_current]. rewrite pm_find_set, Eu, Nat.eqb_refl. constructor. exact HK.
      * unfold own_queue. cbn [mq_queues]. rewrite pm_find_set, Eu, Nat.eqb_refl. exact HKs.
    + intros e u Hu He Eu. eapply drel_fields; [| | | | |exact He]; try reflexivity; cbn [set_queue s_queue]; rewrite Eq;
        unfold current_of, own_queue; cbn [current_map mq_current mq_queues]; rewrite pm_find_set; (destruct (Nat.eqb_spec (w_id w) (w_id u)); [congruence|reflexivity]).
Qed.

(* ---- counting a failed attempt ---- *)
Lemma krel_incr s r k r' : r_id r' <> r_id r -> krel (s_fails s) k r' -> krel (s_fails (incr_fails r s)) k r'.
Proof.
  intros Hn [H1 H2 H3 H4 H5]. constructor; auto. unfold incr_fails. cbn [s_fails set_fails]. rewrite tbl_get_set_ne by exact Hn. exact H3.
Qed.
Lemma krel_struck s r k : krel (s_fails s) k r -> krel (s_fails (incr_fails r s)) (struck k) r.
Proof.
  intros [H1 H2 H3 H4 H5]. constructor; auto. unfold incr_fails. cbn [s_fails set_fails]. rewrite tbl_get_set_eq. unfold failures. rewrite H3. reflexivity.
Qed.

Lemma incr_sim s r F h : qinv (s_queue s) (s_reg s) -> NoDup (map r_id (held (s_queue s) ++ r :: h)) -> frel s F -> frel (incr_fails r s) F.
Proof.
  intros HQ Hnd [(q & Eq) HD HR]. constructor; [exists q; exact Eq| |exact HR].
  assert (HA : forall r', In r' (held (s_queue s)) -> r_id r' <> r_id r).
  { intros r' Hr' E. rewrite map_app in Hnd. cbn [map] in Hnd. apply NoDup_remove_2 in Hnd. apply Hnd. apply in_or_app. left. rewrite <- E. apply in_map. exact Hr'. }
  assert (HG : forall ds ws, incl ws (s_reg s) -> Forall2 (drel s) ds ws -> Forall2 (drel (incr_fails r s)) ds ws).
  { intros ds ws Hi H. induction H as [|d w ds ws Hr _ IH]; constructor.
    - destruct Hr as [H1 H2 H3 H4]. constructor; [exact H1|eapply rel_pings; [| |exact H2]; reflexivity| |]; cbn [incr_fails s_queue set_fails].
      + inversion H3 as [E1 E2|k r' HK E1 E2]; constructor. apply krel_incr; [|exact HK]. apply HA.
        eapply in_held_current; [exact HQ| |symmetry; exact E2]. apply Hi. left. reflexivity.
      + assert (HL : forall r', In r' (own_queue (s_queue s) w) -> r_id r' <> r_id r).
        { intros r' Hr'. apply HA. rewrite Eq in *. eapply in_held_line; [exact HQ|exact Hr']. }
        clear - H4 HL. induction H4 as [|k r' ks rs HK _ IH]; constructor.
        * apply krel_incr; [apply HL; left; reflexivity|exact HK].
        * apply IH. intros r'' Hr''. apply HL. right. exact Hr''.
    - apply IH. intros u Hu. apply Hi. right. exact Hu. }
  apply HG; [apply incl_refl|exact HD].
Qed.
End WithConfig.
