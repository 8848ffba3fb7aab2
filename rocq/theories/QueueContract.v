(* The queue managers under arbitrary valid use of their interface. *)
From Coq Require Import Permutation Lia.
From Verif Require Import Base Bytes Containers Worker Multi Single Queue SpecText Handler Spec SpecRun SpecQueue
  TextFacts HeaderFacts OrderFacts Facts QueueInv OwnQueue.
Local Open Scope string_scope.
Local Open Scope list_scope.

(* ---- capability ---- *)

Lemma constructed_made w : constructed w -> made w (w_hwgroup w) (w_headers_copy w).
Proof.
  intros (wid & addr & ident & hw & hs & w0 & d & E & ->). apply make_worker_made in E.
  destruct E as (E1 & E2 & E3). simpl. unfold made. simpl. rewrite E1, E2. auto.
Qed.

Lemma meets_check w h v : constructed w -> (check_header w h v = Val true <-> meets w h v).
Proof.
  intros H. pose proof (constructed_made _ H) as HM. destruct (String.eqb_spec h "threads") as [->|Hh].
  - destruct H as (wid & addr & ident & hw & hs & w0 & d & E & ->).
    change (check_header (set_description d w0) "threads" v) with (check_header w0 "threads" v).
    rewrite (threads_match _ _ _ _ _ _ _ E). apply make_worker_made in E. destruct E as (_ & E2 & _). subst hs. split.
    + intros (x & n & m & Hx & Hn & Hm & Hle). eapply me_threads; eauto.
    + intros Hme. inversion Hme as [| x v0 n m Hx Hn Hm Hle|h0 v0 Hi Hne]; subst; [|congruence].
      exists x, n, m. auto.
  - unfold check_header.
    assert (HA : forall m, In m (mm_equal_range h (w_headers w)) <->
               (h = "hwgroup" /\ m = MMulti (w_hwgroup w)) \/ exists d, In (h, d) (w_headers_copy w) /\ m = MExact d).
    { intros m. rewrite equal_range_in. apply (other_matchers _ _ _ _ _ HM Hh). }
    destruct (check_any_total (mm_equal_range h (w_headers w)) v) as (b & Eb & Hb).
    { intros m Hm. apply HA in Hm. destruct Hm as [(_ & ->)|(d & _ & ->)]; [|simpl; eauto].
      destruct (match_multi (w_hwgroup w) v) as (b & E & _). eauto. }
    rewrite Eb. transitivity (b = true); [split; congruence|]. rewrite Hb. split.
    + intros (m & Hm & E). apply HA in Hm. destruct Hm as [(-> & ->)|(d & Hd & ->)].
      * apply me_hwgroup. destruct (match_multi (w_hwgroup w) v) as (b' & E' & Hb'). apply Hb'. congruence.
      * simpl in E. injection E as E. apply String.eqb_eq in E. subst d. apply me_other; assumption.
    + intros Hme. inversion Hme as [v0 Ha|x v0 n m Hx Hn Hm Hle|h0 v0 Hi Hne]; subst.
      * exists (MMulti (w_hwgroup w)). split; [apply HA; auto|].
        destruct (match_multi (w_hwgroup w) v) as (b' & E' & Hb'). rewrite E'. f_equal. apply Hb'. exact Ha.
      * congruence.
      * exists (MExact v). split; [apply HA; eauto|]. simpl. rewrite String.eqb_refl. reflexivity.
Qed.

Lemma fits_capable w r : constructed w -> (capable w r <-> fits w r).
Proof.
  intros H. unfold capable, fits. rewrite check_headers_true.
  split; intros HH h v Hin; apply (meets_check _ _ _ H); auto.
Qed.

Lemma stoul_denotes v n : stoul v = Val n <-> denotes v n.
Proof. apply stoul_spec. Qed.

Lemma fits_numeric w r : fits w r -> numeric r.
Proof.
  intros H v Hin. specialize (H _ _ Hin). inversion H as [|x v0 n m Hx Hn Hm Hle|h0 v0 Hi Hne]; subst; [eauto|congruence].
Qed.

Lemma check_header_total w h v : constructed w -> (h = "threads" -> exists n, denotes v n) ->
  exists b, check_header w h v = Val b.
Proof.
  intros H Hn. destruct (check_header w h v) as [b|e] eqn:E; [eauto|].
  apply (check_header_fail _ _ _ _ _ _ (constructed_made _ H)) in E. destruct E as (-> & Es & _).
  destruct (Hn eq_refl) as (n & Hd). apply stoul_denotes in Hd. congruence.
Qed.

Lemma check_headers_total w r : constructed w -> numeric r -> exists b, check_headers w (r_headers r) = Val b.
Proof.
  intros H. unfold numeric. generalize (r_headers r) as hs. induction hs as [|(h, v) t IH]; intros Hn; [simpl; eauto|].
  cbn [check_headers]. destruct (check_header_total w h v H) as (b & E).
  { intros ->. apply Hn. left. reflexivity. }
  rewrite E. cbn [rbind]. destruct b; [|eauto]. apply IH. intros v' Hv'. apply Hn. right. exact Hv'.
Qed.

(* ---- the searches return when all requests concerned are numeric ---- *)

Section Totality.
Context (ws : list worker) (Hws : forall w, In w ws -> constructed w).

Lemma assignable_total r l : incl l ws -> numeric r -> exists b, assignable r l = Val b.
Proof.
  intros Hl Hn. induction l as [|w t IH]; simpl; [eauto|].
  destruct (check_headers_total w r (Hws w (Hl w (or_introl eq_refl))) Hn) as (b & E). rewrite E. simpl.
  destruct b; [eauto|]. apply IH. intros x Hx. apply Hl. right. exact Hx.
Qed.

Lemma select_idle_total r m : incl (keys m) ws -> numeric r -> exists x, select_idle r m = Val x.
Proof.
  intros Hl Hn. induction m as [|(w, [c|]) t IH]; simpl; [eauto| |].
  - apply IH. intros x Hx. apply Hl. right. exact Hx.
  - destruct (check_headers_total w r (Hws w (Hl w (or_introl eq_refl))) Hn) as (b & E). rewrite E. simpl.
    destruct b; [eauto|]. apply IH. intros x Hx. apply Hl. right. exact Hx.
Qed.

Lemma multi_select_total r l : incl l ws -> numeric r -> exists x, multi_select (r_headers r) l = Val x.
Proof.
  intros Hl Hn. induction l as [|w t IH]; simpl; [eauto|].
  destruct (check_headers_total w r (Hws w (Hl w (or_introl eq_refl))) Hn) as (b & E). rewrite E. simpl.
  destruct b; [eauto|]. apply IH. intros x Hx. apply Hl. right. exact Hx.
Qed.

Lemma take_first_total w l : constructed w -> (forall e, In e l -> numeric (e_request e)) -> exists x, take_first w l = Val x.
Proof.
  intros Hc. induction l as [|e t IH]; simpl; intros Hn; [eauto|].
  destruct (check_headers_total w (e_request e) Hc (Hn e (or_introl eq_refl))) as (b & E). rewrite E. simpl.
  destruct b; [eauto|]. destruct IH as (x & Ex); [auto|]. rewrite Ex. simpl. destruct x as [(r, rest)|]; eauto.
Qed.

Lemma split_jobs_total l js : incl l ws -> (forall e, In e js -> numeric (e_request e)) -> exists x, split_jobs l js = Val x.
Proof.
  intros Hl. induction js as [|e t IH]; simpl; intros Hn; [eauto|].
  destruct (assignable_total (e_request e) l Hl (Hn e (or_introl eq_refl))) as (b & E). rewrite E. simpl.
  destruct IH as ((k, g) & Ex); [auto|]. rewrite Ex. simpl. destruct b; eauto.
Qed.

End Totality.

Section Contracts.
Context (o : oracle).

Lemma q_enqueue_total m ws r : qinv m ws -> (forall w, In w ws -> constructed w) -> numeric r ->
  exists x m', q_enqueue_request o r m = Val (x, m').
Proof.
  intros H Hws Hn. destruct m as [q|q]; simpl.
  - destruct (qi_impl _ _ H) as [S1 S2 S3 S4]. unfold single_enqueue.
    destruct (select_idle_total ws Hws r (sq_worker_jobs q)) as (x & E); [|exact Hn|].
    { intros w Hw. eapply Permutation_in; [exact S2|exact Hw]. }
    rewrite E. simpl. destruct x as [w|]; [simpl; eauto|].
    destruct (assignable_total ws Hws r (sq_workers q)) as (b & Eb); [rewrite S1; apply incl_refl|exact Hn|].
    rewrite Eb. simpl. destruct b; simpl; eauto.
  - destruct (qi_impl _ _ H) as [S1 S2 S3 S4]. unfold multi_enqueue.
    destruct (multi_select_total ws Hws r (mq_order q)) as (x & E); [|exact Hn|].
    { intros w Hw. eapply Permutation_in; [exact S1|exact Hw]. }
    rewrite E. unfold lift_multi. simpl. destruct x as [w|]; [|simpl; eauto].
    destruct (pm_index None w (mq_current q)) as ([c|], c1); [|simpl; eauto].
    destruct (pm_index [] w (mq_queues q)) as (qs, q1). simpl. eauto.
Qed.

Lemma queued_numeric m ws : qinv m ws -> (forall w, In w ws -> constructed w) ->
  match m with QSingle q => forall e, In e (sq_jobs q) -> numeric (e_request e) | QMulti _ => True end.
Proof.
  intros H Hws. destruct m as [q|q]; [|exact I]. destruct (qi_impl _ _ H) as [S1 S2 S3 S4].
  intros e He. destruct (S4 e He) as (w & Hw & Hc). eapply fits_numeric. apply (fits_capable w); auto.
Qed.

Lemma q_assign_total m ws w : qinv m ws -> (forall w, In w ws -> constructed w) -> constructed w ->
  exists x m', q_assign_request o w m = Val (x, m').
Proof.
  intros H Hws Hw. pose proof (queued_numeric _ _ H Hws) as Hn. destruct m as [q|q]; simpl.
  - unfold single_assign.
    destruct (take_first_total w (sort_entries (o_tie o (sq_sorts q)) (sq_jobs q)) Hw) as (x & E).
    { intros e He. apply Hn. eapply Permutation_in; [apply sort_entries_perm|exact He]. }
    rewrite E. simpl. destruct x as [(r, rest)|]; simpl; eauto.
  - unfold lift_multi. eauto.
Qed.

Lemma q_finished_total m ws w : qinv m ws -> (forall w, In w ws -> constructed w) -> In w ws ->
  exists x m', q_worker_finished o w m = Val (x, m').
Proof.
  intros H Hws Hw. destruct (q_finished_eq o m ws w H Hw) as (m1 & _ & H1 & _ & _ & E). rewrite E.
  apply (q_assign_total m1 ws); auto.
Qed.

Lemma q_terminated_total m ws w : qinv m ws -> (forall w, In w ws -> constructed w) -> In w ws ->
  exists x m', q_worker_terminated w m = Val (x, m').
Proof.
  intros H Hws Hw. pose proof (queued_numeric _ _ H Hws) as Hn. destruct m as [q|q]; simpl.
  - destruct (qi_impl _ _ H) as [S1 S2 S3 S4]. unfold single_worker_terminated.
    destruct (pm_index None w (sq_worker_jobs q)) as (c, wj).
    destruct (split_jobs_total ws Hws (list_remove w (sq_workers q)) (sq_jobs q)) as ((k, g) & E); [|exact Hn|].
    { intros x Hx. unfold list_remove in Hx. apply filter_In in Hx. rewrite <- S1. apply Hx. }
    rewrite E. simpl. eauto.
  - unfold lift_multi. eauto.
Qed.

Lemma q_add_total m ws w cur : qinv m ws -> (forall w, In w ws -> constructed w) -> constructed w ->
  exists x m', q_add_worker o w cur m = Val (x, m').
Proof.
  intros H Hws Hw. pose proof (queued_numeric _ _ H Hws) as Hn. destruct m as [q|q]; simpl.
  - unfold single_add_worker. destruct cur as [r|]; [simpl; eauto|]. unfold single_assign. cbn [sq_jobs sq_sorts].
    destruct (take_first_total w (sort_entries (o_tie o (sq_sorts q)) (sq_jobs q)) Hw) as (x & E).
    { intros e He. apply Hn. eapply Permutation_in; [apply sort_entries_perm|exact He]. }
    rewrite E. simpl. destruct x as [(r, rest)|]; simpl; eauto.
  - unfold lift_multi. eauto.
Qed.

(* ---- valid use keeps the invariant ---- *)

Lemma given_inv log m ws : given o log m ws -> qinv m ws /\ forall w, In w ws -> constructed w.
Proof.
  induction 1 as [k|log m ws w cur x m' _ (HI & HC) Hw Hnew Hcur E|log m ws w x m' _ (HI & HC) Hw Hid E
                 |log m ws w x m' _ (HI & HC) Hw E|log m ws r x m' w _ (HI & HC) Hr E _ _|log m ws r x m' _ (HI & HC) Hr E _
                 |log m ws w x m' _ (HI & HC) Hw E|log m ws w x m' _ (HI & HC) Hw E|log m ws w x m' _ (HI & HC) Hw E].
  - split; [|intros w []]. destruct k; (constructor; [constructor|intros w r []|]); simpl; constructor; simpl;
      try reflexivity; try tauto; intros; contradiction.
  - split.
    + assert (Hni : ~ In (w_id w) (ids ws)).
      { intros Hc. apply in_ids_inv in Hc. destruct Hc as (w' & Hi & Ei). exact (Hnew w' Hi Ei). }
      apply (q_add_spec o _ _ _ _ _ _ HI Hni Hcur E).
    + intros w' Hw'. apply in_app_iff in Hw'. destruct Hw' as [Hw'|[<-|[]]]; auto.
  - split; [|exact HC]. apply (q_assign_spec o _ _ _ _ _ HI Hw Hid E).
  - destruct (q_terminated_spec _ _ _ _ _ HI Hw E) as (gone & _ & H' & _).
    rewrite reg_remove_eq by apply (qi_nodup _ _ HI). split; [exact H'|].
    intros w' Hw'. apply HC. eapply reg_remove_subset; eauto.
  - split; [|exact HC]. apply (q_enqueue_spec o _ _ _ _ _ HI Hr E).
  - split; [|exact HC]. apply (q_enqueue_spec o _ _ _ _ _ HI Hr E).
  - split; [|exact HC]. rewrite (q_get_current_spec _ _ _ HI Hw) in E. injection E as _ <-. exact HI.
  - split; [|exact HC]. destruct (q_finished_eq o _ _ _ HI Hw) as (m1 & _ & H1 & _ & Hc & Ef). rewrite Ef in E.
    assert (Hi : current_of m1 w = None) by (rewrite Hc; unfold upd; rewrite Nat.eqb_refl; reflexivity).
    apply (q_assign_spec o _ _ _ _ _ H1 Hw Hi E).
  - split; [|exact HC]. destruct (q_cancelled_spec _ _ _ HI Hw) as (m1 & E1 & H1 & _). rewrite E1 in E.
    injection E as _ <-. exact H1.
Qed.
Lemma used_inv m ws : used o m ws -> qinv m ws /\ forall w, In w ws -> constructed w.
Proof. intros (log & H). eapply given_inv; eauto. Qed.

Lemma owned_ext m m' w : current_of m' w = current_of m w -> own_queue m' w = own_queue m w -> owned m' w = owned m w.
Proof. intros E1 E2. unfold owned. rewrite E1, E2. reflexivity. Qed.

(* whose jobs an enqueued request joins *)
Lemma enqueue_owner m ws r x m' : qinv m ws -> r_complete r = true -> q_enqueue_request o r m = Val (x, m') ->
  (exists w, In w ws /\ capable w r /\ Permutation (owned m' w) (r :: owned m w) /\
             forall w', w_id w' <> w_id w -> owned m' w' = owned m w') \/
  (forall w, owned m' w = owned m w) /\ match m with QSingle _ => True | QMulti _ => enqueued x = false end.
Proof.
  intros HI Hr E. destruct (q_enqueue_spec o _ _ _ _ _ HI Hr E) as (HI' & HP).
  assert (HO := fun w' => own_enqueue o m ws r x m' w' HI E).
  destruct x as [[w|] [|]]; try contradiction.
  - destruct HP as (Hw & Hi & Hcap & Hu & Hq).
    assert (HO' : forall w', own_queue m' w' = own_queue m w').
    { intros w'. destruct (HO w') as [?|(_ & ? & _)]; [assumption|discriminate]. }
    left. exists w. split; [exact Hw|]. split; [exact Hcap|]. unfold owned. rewrite HO', Hu, Hi. unfold upd at 1.
    rewrite Nat.eqb_refl. split; [reflexivity|]. intros w' Hne. rewrite HO', Hu. unfold upd.
    destruct (Nat.eqb_spec (w_id w) (w_id w')); [congruence|reflexivity].
  - destruct HP as (_ & Hu & Hq). destruct m as [q|q].
    + right. split; [|exact I]. intros w. apply owned_ext; [apply Hu|].
      destruct (HO w) as [?|(Ha & _)]; [assumption|]. simpl in E. unfold lift_single in E.
      destruct (single_enqueue o r q) as [(y, q')|f]; simpl in E; [|discriminate]. injection E as _ <-. reflexivity.
    + left. pose proof (qi_nodup _ _ HI) as Hnd. destruct (qi_impl _ _ HI) as [S1 S2 S3 S4].
      simpl in E. unfold multi_enqueue in E.
      destruct (multi_select (r_headers r) (mq_order q)) as [[w|]|f] eqn:Es; simpl in E; [|discriminate|discriminate].
      apply multi_select_spec in Es. destruct Es as (o1 & o2 & Eo & Hcap & _).
      assert (Hin : In w ws) by (eapply Permutation_in; [exact S1|rewrite Eo, in_app_iff; simpl; auto]).
      destruct (keys_around ws w _ Hnd S3 Hin) as (c1 & a & c2 & A). rewrite (ar_index _ _ _ _ _ A) in E.
      destruct a as [r0|]; [|discriminate].
      destruct (keys_around ws w _ Hnd S2 Hin) as (k1 & b & k2 & B). rewrite (ar_index _ _ _ _ _ B) in E.
      injection E as <-. exists w. split; [exact Hin|]. split; [exact Hcap|].
      assert (HF : forall w', find_list (pm_set w (b ++ [r]) (mq_queues q)) w' =
                     if Nat.eqb (w_id w) (w_id w') then b ++ [r] else find_list (mq_queues q) w').
      { intros w'. apply (find_list_set ws); assumption. }
      assert (Eb : own_queue (QMulti q) w = b) by (simpl; rewrite (ar_find _ _ _ _ _ B); reflexivity).
      split.
      * unfold owned. rewrite Hu, Eb.
        match goal with |- context [own_queue ?mm w] => change (own_queue mm w) with (find_list (pm_set w (b ++ [r]) (mq_queues q)) w) end.
        rewrite HF, Nat.eqb_refl. rewrite app_assoc. symmetry. apply Permutation_cons_append.
      * intros w' Hne. apply owned_ext; [apply Hu|].
        match goal with |- own_queue ?mm w' = _ => change (own_queue mm w') with (find_list (pm_set w (b ++ [r]) (mq_queues q)) w') end.
        rewrite HF. destruct (Nat.eqb_spec (w_id w) (w_id w')); [congruence|reflexivity].
  - destruct HP as (-> & _). right. split; [reflexivity|]. destruct m; reflexivity.
Qed.

(* where an enqueued request waits *)
Lemma enqueue_waiting m ws r x m' : qinv m ws -> (forall w, In w ws -> constructed w) -> r_complete r = true ->
  q_enqueue_request o r m = Val (x, m') ->
  match x with
  | mkEnq (Some _) _ => still_wait m m'
  | mkEnq None true => lines_up m m' r
  | mkEnq None false => m' = m
  end.
Proof.
  intros HI HC Hr E. destruct (q_enqueue_spec o _ _ _ _ _ HI Hr E) as (HI' & HP).
  assert (HO := fun w' => own_enqueue o m ws r x m' w' HI E).
  destruct x as [[w|] [|]]; try contradiction.
  - destruct HP as (_ & _ & _ & _ & Hq). split; [exact Hq|]. split.
    + intros w'. destruct (HO w') as [?|(_ & ? & _)]; [assumption|discriminate].
    + destruct m as [q|q]; simpl in E.
      * unfold lift_single, single_enqueue in E. destruct (select_idle r (sq_worker_jobs q)) as [[w1|]|]; simpl in E; [injection E as _ <-; reflexivity| |discriminate].
        destruct (assignable r (sq_workers q)) as [[|]|]; simpl in E; discriminate.
      * destruct (multi_enqueue r q) as [(y, q')|]; simpl in E; [injection E as _ <-; reflexivity|discriminate].
  - destruct HP as (_ & Hu & Hq). split; [exact Hq|]. destruct m as [q|q].
    + simpl in E. unfold lift_single, single_enqueue in E. destruct (select_idle r (sq_worker_jobs q)) as [[w1|]|]; simpl in E; [discriminate| |discriminate].
      destruct (assignable r (sq_workers q)) as [[|]|]; simpl in E; try discriminate. injection E as <-. simpl. split; [apply map_app|].
      exists (o_clock o (sq_clock q)). intros r' t'. rewrite in_app_iff. cbn [In]. split.
      * intros [H|[[= -> ->]|[]]]; auto.
      * intros [H|(-> & ->)]; auto.
    + destruct (enqueue_owner _ _ _ _ _ HI Hr E) as [(w & Hw & Hcap & HPo & Hoth)|(_ & Hf)]; [|discriminate].
      exists w. destruct (HO w) as [Hs|(Ho & _ & Hb)].
      * exfalso. unfold owned in HPo. rewrite Hs, Hu in HPo. apply Permutation_length in HPo. simpl in HPo. lia.
      * split; [apply fits_capable; auto|]. split; [exact Hb|]. split; [exact Ho|]. intros w' Hne. specialize (Hoth w' Hne). unfold owned in Hoth.
        rewrite Hu in Hoth. apply app_inv_head in Hoth. exact Hoth.
  - destruct HP as (-> & _). reflexivity.
Qed.

Lemma us_add m ws w cur x m' : used o m ws -> constructed w -> (forall w', In w' ws -> w_id w' <> w_id w) ->
  (forall r, cur = Some r -> r_complete r = false) -> q_add_worker o w cur m = Val (x, m') -> used o m' (ws ++ [w]).
Proof. intros (log & H) H1 H2 H3 H4. exists log. eapply gi_add; eauto. Qed.
Lemma us_assign m ws w x m' : used o m ws -> In w ws -> current_of m w = None ->
  q_assign_request o w m = Val (x, m') -> used o m' ws.
Proof. intros (log & H) H1 H2 H3. exists log. eapply gi_assign; eauto. Qed.
Lemma us_terminated m ws w x m' : used o m ws -> In w ws ->
  q_worker_terminated w m = Val (x, m') -> used o m' (list_remove w ws).
Proof. intros (log & H) H1 H2. exists (list_remove w log). eapply gi_terminated; eauto. Qed.
Lemma us_enqueue m ws r x m' : used o m ws -> r_complete r = true ->
  q_enqueue_request o r m = Val (x, m') -> used o m' ws.
Proof.
  intros (log & H) H1 H2. destruct (given_inv _ _ _ H) as (HI & _).
  destruct (enqueue_owner _ _ _ _ _ HI H1 H2) as [(w & Hw & _ & HP & _)|(HN & _)].
  - exists (log ++ [w]). eapply gi_enqueue_to; eauto.
  - exists log. eapply gi_enqueue; eauto.
Qed.
Lemma us_current m ws w x m' : used o m ws -> In w ws -> q_get_current w m = Val (x, m') -> used o m' ws.
Proof. intros (log & H) H1 H2. exists log. eapply gi_current; eauto. Qed.
Lemma us_finished m ws w x m' : used o m ws -> In w ws -> q_worker_finished o w m = Val (x, m') -> used o m' ws.
Proof. intros (log & H) H1 H2. exists log. eapply gi_finished; eauto. Qed.
Lemma us_cancelled m ws w x m' : used o m ws -> In w ws -> q_worker_cancelled w m = Val (x, m') -> used o m' ws.
Proof. intros (log & H) H1 H2. exists log. eapply gi_cancelled; eauto. Qed.

Lemma upd_now m m' w x : (forall w', current_of m' w' = upd (current_of m) w x w') -> now_has m m' w x.
Proof.
  intros H. split; [rewrite H; unfold upd; rewrite Nat.eqb_refl; reflexivity|].
  intros w' Hne. rewrite H. unfold upd. destruct (Nat.eqb_spec (w_id w) (w_id w')); [congruence|reflexivity].
Qed.

(* ---- the contracts ---- *)

Theorem enqueue_contract m ws r : used o m ws -> r_complete r = true -> numeric r ->
  exists x m', q_enqueue_request o r m = Val (x, m') /\ used o m' ws /\
    (enqueued x = true <-> exists w, In w ws /\ fits w r) /\
    match assigned_to x with
    | Some w => In w ws /\ fits w r /\ current_of m w = None /\ now_has m m' w (Some r) /\ still_wait m m'
    | None => (forall w, current_of m' w = current_of m w) /\ (if enqueued x then lines_up m m' r else m' = m)
    end.
Proof.
  intros HU Hr Hn. destruct (used_inv _ _ HU) as (HI & HC).
  destruct (q_enqueue_total m ws r HI HC Hn) as (x & m' & E). exists x, m'. split; [exact E|].
  split; [eapply us_enqueue; eauto|]. destruct (q_enqueue_spec o _ _ _ _ _ HI Hr E) as (HI' & HP).
  pose proof (enqueue_waiting _ _ _ _ _ HI HC Hr E) as HW.
  destruct x as [[w|] [|]]; cbn [assigned_to enqueued]; try contradiction.
  - destruct HP as (Hw & Hi & Hcap & Hu & Hq). apply (fits_capable w) in Hcap; [|auto]. split.
    + split; [eauto|reflexivity].
    + split; [exact Hw|]. split; [exact Hcap|]. split; [exact Hi|]. split; [apply upd_now; exact Hu|exact HW].
  - destruct HP as ((w & Hw & Hcap) & Hu & Hq). apply (fits_capable w) in Hcap; [|auto]. split; [split; eauto|]. split; [exact Hu|exact HW].
  - destruct HP as (-> & Hno). split; [split; [discriminate|]|split; reflexivity].
    intros (w & Hw & Hf). apply (fits_capable w r (HC w Hw)) in Hf. unfold capable in Hf. rewrite (Hno w Hw) in Hf. discriminate.
Qed.

Theorem assign_contract m ws w : used o m ws -> In w ws -> current_of m w = None ->
  exists x m', q_assign_request o w m = Val (x, m') /\ used o m' ws /\ now_has m m' w x /\ handed_out m m' w x.
Proof.
  intros HU Hw Hi. destruct (used_inv _ _ HU) as (HI & HC).
  destruct (q_assign_total m ws w HI HC (HC w Hw)) as (x & m' & E). exists x, m'. split; [exact E|].
  split; [eapply us_assign; eauto|]. destruct (q_assign_spec o _ _ _ _ _ HI Hw Hi E) as (HI' & Hu & Hq & Hx).
  split; [apply upd_now; exact Hu|]. split; [exact Hq|]. intros r ->. apply fits_capable; [auto|apply Hx].
Qed.

Theorem finished_contract m ws w : used o m ws -> In w ws ->
  exists x m', q_worker_finished o w m = Val (x, m') /\ used o m' ws /\ now_has m m' w x /\ handed_out m m' w x.
Proof.
  intros HU Hw. destruct (used_inv _ _ HU) as (HI & HC).
  destruct (q_finished_total m ws w HI HC Hw) as (x & m' & E). exists x, m'. split; [exact E|].
  split; [eapply us_finished; eauto|].
  destruct (q_finished_eq o _ _ _ HI Hw) as (m1 & _ & H1 & Hq1 & Hc & Ef). rewrite Ef in E.
  assert (Hi : current_of m1 w = None) by (rewrite Hc; unfold upd; rewrite Nat.eqb_refl; reflexivity).
  destruct (q_assign_spec o _ _ _ _ _ H1 Hw Hi E) as (HI' & Hu & Hq & Hx). split; [|split].
  - apply upd_now. intros w'. rewrite Hu. unfold upd. destruct (Nat.eqb_spec (w_id w) (w_id w')) as [|Hne]; [reflexivity|].
    rewrite Hc. unfold upd. destruct (Nat.eqb_spec (w_id w) (w_id w')); [contradiction|reflexivity].
  - rewrite <- Hq1. exact Hq.
  - intros r ->. apply fits_capable; [auto|apply Hx].
Qed.

Theorem cancelled_contract m ws w : used o m ws -> In w ws ->
  exists m', q_worker_cancelled w m = Val (current_of m w, m') /\ used o m' ws /\ now_has m m' w None /\ still_wait m m'.
Proof.
  intros HU Hw. destruct (used_inv _ _ HU) as (HI & HC).
  destruct (q_cancelled_spec _ _ _ HI Hw) as (m' & E & H1 & Hq & Hc). exists m'. split; [exact E|].
  split; [eapply us_cancelled; eauto|]. split; [apply upd_now; exact Hc|].
  split; [exact Hq|]. split; [exact (own_cancelled _ _ _ _ E)|]. destruct m; simpl in E; unfold lift_single, lift_multi, single_worker_cancelled, multi_worker_cancelled in E;
    destruct (pm_index _ _ _); simpl in E; injection E as _ <-; reflexivity.
Qed.

Theorem current_contract m ws w : used o m ws -> In w ws -> q_get_current w m = Val (current_of m w, m).
Proof. intros HU Hw. destruct (used_inv _ _ HU) as (HI & HC). apply (q_get_current_spec _ ws); assumption. Qed.

Lemma fold_len (m : pmap (list request)) n : fold_left (fun acc p => acc + length (snd p)) m n = n + length (concat (map snd m)).
Proof.
  revert n. induction m as [|(w, l) t IH]; intros n; simpl; [lia|]. rewrite IH, app_length. lia.
Qed.

Theorem count_contract m : q_queued_count m = length (queued m).
Proof.
  destruct m as [q|q]; simpl; [unfold single_queued_count; rewrite map_length; reflexivity|].
  unfold multi_queued_count. rewrite fold_len. reflexivity.
Qed.

Theorem add_contract m ws w cur : used o m ws -> constructed w -> (forall w', In w' ws -> w_id w' <> w_id w) ->
  (forall r, cur = Some r -> r_complete r = false) ->
  exists x m', q_add_worker o w cur m = Val (x, m') /\ used o m' (ws ++ [w]) /\
  match cur with
  | Some r => now_has m m' w (Some r) /\ still_wait m m' /\
              x = match m with QSingle _ => Some r | QMulti _ => None end
  | None => now_has m m' w x /\ handed_out m m' w x
  end.
Proof.
  intros HU Hc Hnew Hcur. destruct (used_inv _ _ HU) as (HI & HC).
  destruct (q_add_total m ws w cur HI HC Hc) as (x & m' & E). exists x, m'. split; [exact E|].
  split; [eapply us_add; eauto|].
  assert (Hni : ~ In (w_id w) (ids ws)).
  { intros Hx. apply in_ids_inv in Hx. destruct Hx as (w' & Hi & Ei). exact (Hnew w' Hi Ei). }
  destruct (q_add_spec o _ _ _ _ _ _ HI Hni Hcur E) as (HI' & HP). destruct cur as [r|].
  - destruct HP as (Hu & Hq & Hx). split; [apply upd_now; exact Hu|]. split; [|exact Hx]. split; [exact Hq|].
    split; [intros w'; apply (own_add o _ _ _ _ _ _ HI Hni E w')|]. destruct m; simpl in E; injection E as _ <-; reflexivity.
  - destruct HP as (Hu & Hq & Hx). split; [apply upd_now; exact Hu|]. split; [exact Hq|].
    intros r ->. apply fits_capable; [exact Hc|apply Hx].
Qed.

Lemma split_jobs_entries ws l : forall kept gone, split_jobs ws l = Val (kept, gone) ->
  forall r t, In (mkEntry r t) l <-> In (mkEntry r t) kept \/ In (mkEntry r t) l /\ In r gone.
Proof.
  induction l as [|e l IH]; intros kept gone H r t; cbn [split_jobs] in H; [injection H as <- <-; simpl; tauto|].
  destruct (assignable (e_request e) ws) as [b|]; cbn in H; [|discriminate].
  destruct (split_jobs ws l) as [(kept1, gone1)|]; cbn in H; [|discriminate]. specialize (IH _ _ eq_refl r t).
  destruct b; injection H as <- <-; cbn [In]; split; try tauto.
  intros [->|Hin]; [right; split; [left; reflexivity|left; reflexivity]|tauto].
Qed.

Theorem terminated_contract m ws w : used o m ws -> In w ws ->
  exists gone m', q_worker_terminated w m = Val (olist (current_of m w) ++ gone, m') /\
    used o m' (list_remove w ws) /\ now_has m m' w None /\ leave m m' w gone /\
    match m with
    | QSingle _ => (forall r, In r gone -> forall w', In w' ws -> fits w' r -> w' = w) /\
                   (forall r, In r (queued m') -> exists w', In w' ws /\ w' <> w /\ fits w' r)
    | QMulti _ => gone = own_queue m w
    end.
Proof.
  intros HU Hw. destruct (used_inv _ _ HU) as (HI & HC).
  destruct (q_terminated_total m ws w HI HC Hw) as (x & m' & E).
  pose proof (us_terminated _ _ _ _ _ HU Hw E) as HU'. destruct (used_inv _ _ HU') as (HI' & HC').
  destruct (q_terminated_spec _ _ _ _ _ HI Hw E) as (gone & -> & H' & Hu & Hq & _). exists gone, m'. split; [exact E|].
  split; [exact HU'|].
  assert (Hnone : current_of m' w = None).
  { unfold current_of. destruct (pm_find w (current_map m')) as [[r|]|] eqn:Ef; try reflexivity. exfalso.
    assert (Hin : In (w_id w) (ids (keys (current_map m')))).
    { clear -Ef. induction (current_map m') as [|(y, b) t IH]; simpl in *; [discriminate|].
      destruct (same_worker y w) eqn:Es; [left; apply same_worker_id; exact Es|right; auto]. }
    assert (Hin2 : In (w_id w) (ids (list_remove w ws))).
    { eapply Permutation_in; [apply ids_perm; apply (qi_keys _ _ HI')|exact Hin]. }
    apply in_ids_inv in Hin2. destruct Hin2 as (y & Hy & Ey). unfold list_remove in Hy. apply filter_In in Hy.
    destruct Hy as (_ & Hy). apply negb_true_iff, same_worker_neq in Hy. contradiction. }
  split; [split; [exact Hnone|exact Hu]|].
  assert (HL : forall r t, waiting_since m r t <-> waiting_since m' r t \/ waiting_since m r t /\ In r gone).
  { intros r t. destruct m as [q|q]; simpl in E.
    - unfold lift_single, single_worker_terminated in E. destruct (qi_impl _ _ HI) as [S1 S2 S3 S4].
      destruct (keys_around ws w _ (qi_nodup _ _ HI) S2 Hw) as (l1 & a & l2 & A). rewrite (ar_index _ _ _ _ _ A) in E.
      assert (Ea : current_of (QSingle q) w = a) by (unfold current_of; simpl; rewrite (ar_find _ _ _ _ _ A); destruct a; reflexivity).
      destruct (split_jobs (list_remove w (sq_workers q)) (sq_jobs q)) as [(kept, gone')|f] eqn:Es; simpl in E; [|discriminate].
      injection E as Eg <-. rewrite Ea in Eg. apply app_inv_head in Eg. subst gone'. cbn [waiting_since sq_jobs]. exact (split_jobs_entries _ _ _ _ Es r t).
    - destruct (multi_worker_terminated w q) as (y, q'). injection E as _ <-. simpl. tauto. }
  split; [split; [exact Hq|]; split; [exact (proj1 (own_terminated _ _ _ _ _ HI Hw E))|exact HL]|].
  destruct m as [q|q]; simpl in E.
  - pose proof E as E0. unfold single_worker_terminated in E. destruct (qi_impl _ _ HI) as [S1 S2 S3 S4].
    destruct (pm_index None w (sq_worker_jobs q)) as (c, wj) eqn:Ei.
    assert (Ec : c = current_of (QSingle q) w).
    { destruct (keys_around ws w _ (qi_nodup _ _ HI) S2 Hw) as (l1 & a & l2 & A).
      rewrite (ar_index _ _ _ _ _ A) in Ei. injection Ei as <- _. unfold current_of. simpl.
      rewrite (ar_find _ _ _ _ _ A). destruct a; reflexivity. }
    destruct (split_jobs (list_remove w (sq_workers q)) (sq_jobs q)) as [(kept, gone')|f] eqn:Es; simpl in E; [|discriminate].
    injection E as Eg <-. apply split_jobs_spec in Es. destruct Es as (HPj & Hk & Hg).
    assert (gone' = gone) as ->.
    { subst c. destruct (current_of (QSingle q) w) as [r|]; simpl in Eg; [injection Eg as Eg|]; exact Eg. }
    rewrite S1 in *. split.
    + intros r Hr w' Hw' Hf. destruct (Hg r Hr) as (_ & Hno).
      destruct (Nat.eq_dec (w_id w') (w_id w)) as [Ed|Ed]; [eapply ids_inj; [apply (qi_nodup _ _ HI)| | |]; eassumption|].
      exfalso. assert (Hin : In w' (list_remove w ws)).
      { apply filter_In. split; [exact Hw'|]. apply negb_true_iff, same_worker_neq. exact Ed. }
      apply (fits_capable w' r (HC w' Hw')) in Hf. unfold capable in Hf. rewrite (Hno w' Hin) in Hf. discriminate.
    + intros r Hr. simpl in Hr. apply in_map_iff in Hr. destruct Hr as (e & <- & He). destruct (Hk e He) as (_ & w' & Hw' & Hcap).
      apply filter_In in Hw'. destruct Hw' as (Hw' & Hne). apply negb_true_iff, same_worker_neq in Hne.
      exists w'. split; [exact Hw'|]. split; [congruence|]. apply fits_capable; auto.
  - destruct (own_terminated _ _ _ _ _ HI Hw E) as (_ & more & Em).
    apply app_inv_head in Em. unfold lift_multi, multi_worker_terminated in E.
    destruct (qi_impl _ _ HI) as [S1 S2 S3 S4].
    destruct (keys_around ws w _ (qi_nodup _ _ HI) S3 Hw) as (l1 & a & l2 & A). rewrite (ar_index _ _ _ _ _ A) in E.
    destruct (keys_around ws w _ (qi_nodup _ _ HI) S2 Hw) as (k1 & b & k2 & B). rewrite (ar_index _ _ _ _ _ B) in E.
    simpl in E. injection E as E _. simpl. rewrite (ar_find _ _ _ _ _ B).
    unfold current_of in E. simpl in E. rewrite (ar_find _ _ _ _ _ A) in E.
    destruct a as [r|]; simpl in E; [injection E as E|]; symmetry; exact E.
Qed.

End Contracts.
