(* The two queue managers under two environments. *)
From Verif Require Import Base Bytes Containers Worker Multi Single Queue Handler SpecText Spec SpecOracle Facts Blind Oracle.
Local Open Scope list_scope.

Section Env.
Context (o1 o2 : oracle).
Notation wr := (wr o1 o2).
Notation pmr := (pmr o2).

(* ---- per-worker queues: only the order of the maps differs ---- *)
Record rmulti (q1 q2 : multi) : Prop := mkRM {
  rm_queues : pmr (mq_queues q1) (mq_queues q2);
  rm_current : pmr (mq_current q1) (mq_current q2);
  rm_order : Forall2 wr (mq_order q1) (mq_order q2) }.
Definition Rm (m1 m2 : manager) : Prop := match m1, m2 with QMulti q1, QMulti q2 => rmulti q1 q2 | _, _ => False end.

Ltac rm := match goal with H : Rm ?m1 ?m2 |- _ => destruct m1 as [|q1], m2 as [|q2]; simpl in H; try contradiction; destruct H as [HQ HC HO] end.

Lemma m_add m1 m2 w1 w2 cur : Rm m1 m2 -> wr w1 w2 -> rres (pr eq Rm) (q_add_worker o1 w1 cur m1) (q_add_worker o2 w2 cur m2).
Proof.
  intros H Hw. rm. split; [reflexivity|]. simpl. constructor; simpl; [eapply pmr_emplace; eassumption|eapply pmr_emplace; eassumption|constructor; assumption].
Qed.
Lemma take_rel q1 q2 w1 w2 : rmulti q1 q2 -> wr w1 w2 -> pr eq rmulti (multi_take w1 q1) (multi_take w2 q2).
Proof.
  intros [HQ HC HO] Hw. unfold multi_take. pose proof (pmr_index _ _ [] _ _ _ _ HQ Hw) as HI.
  destruct (pm_index [] w1 (mq_queues q1)) as (l1, m1), (pm_index [] w2 (mq_queues q2)) as (l2, m2). destruct HI as (E & HI). simpl in E, HI. subst l2.
  destruct l1 as [|r rest]; (split; [reflexivity|]); constructor; simpl; try assumption; eapply pmr_set; eassumption.
Qed.
Lemma lift_multi_rel {A} (R : A -> A -> Prop) x y : pr R rmulti x y -> rres (pr R Rm) (lift_multi x) (lift_multi y).
Proof. intros H. exact H. Qed.
Lemma m_assign m1 m2 w1 w2 : Rm m1 m2 -> wr w1 w2 -> rres (pr eq Rm) (q_assign_request o1 w1 m1) (q_assign_request o2 w2 m2).
Proof. intros H Hw. rm. apply lift_multi_rel. apply take_rel; [constructor|]; assumption. Qed.
Lemma m_finished m1 m2 w1 w2 : Rm m1 m2 -> wr w1 w2 -> rres (pr eq Rm) (q_worker_finished o1 w1 m1) (q_worker_finished o2 w2 m2).
Proof. intros H Hw. rm. apply lift_multi_rel. apply take_rel; [constructor; simpl; try assumption; eapply pmr_set; eassumption|assumption]. Qed.
Lemma m_terminated m1 m2 w1 w2 : Rm m1 m2 -> wr w1 w2 -> rres (pr eq Rm) (q_worker_terminated w1 m1) (q_worker_terminated w2 m2).
Proof.
  intros H Hw. rm. apply lift_multi_rel. unfold multi_worker_terminated.
  pose proof (pmr_index _ _ None _ _ _ _ HC Hw) as HI. destruct (pm_index None w1 _) as (c1, n1), (pm_index None w2 _) as (c2, n2).
  pose proof (pmr_index _ _ [] _ _ _ _ HQ Hw) as HJ. destruct (pm_index [] w1 _) as (l1, k1), (pm_index [] w2 _) as (l2, k2).
  destruct HI as (E & HI), HJ as (E' & HJ). simpl in *. subst. split; [reflexivity|].
  constructor; simpl; [eapply pmr_erase; eassumption|eapply pmr_erase; eassumption|eapply list_remove_rel; eassumption].
Qed.
Lemma m_current m1 m2 w1 w2 : Rm m1 m2 -> wr w1 w2 -> rres (pr eq Rm) (q_get_current w1 m1) (q_get_current w2 m2).
Proof.
  intros H Hw. rm. apply lift_multi_rel. unfold multi_get_current.
  pose proof (pmr_index _ _ None _ _ _ _ HC Hw) as HI. destruct (pm_index None w1 _) as (c1, n1), (pm_index None w2 _) as (c2, n2).
  destruct HI as (E & HI). simpl in *. subst. split; [reflexivity|]. constructor; assumption.
Qed.
Lemma m_cancelled m1 m2 w1 w2 : Rm m1 m2 -> wr w1 w2 -> rres (pr eq Rm) (q_worker_cancelled w1 m1) (q_worker_cancelled w2 m2).
Proof.
  intros H Hw. rm. apply lift_multi_rel. unfold multi_worker_cancelled.
  pose proof (pmr_index _ _ None _ _ _ _ HC Hw) as HI. destruct (pm_index None w1 _) as (c1, n1), (pm_index None w2 _) as (c2, n2).
  destruct HI as (E & HI). simpl in *. subst. split; [reflexivity|]. constructor; simpl; try assumption. eapply pmr_set; eassumption.
Qed.
Lemma select_rel h ws1 ws2 : Forall2 wr ws1 ws2 -> rres (opt wr) (multi_select h ws1) (multi_select h ws2).
Proof.
  induction 1 as [|a b t t' H _ IH]; cbn [multi_select]; [exact I|]. rewrite (wr_check _ _ _ _ h H).
  eapply rres_bind; [apply rres_eq|]. intros x y <-. destruct x; [exact H|exact IH].
Qed.
Lemma m_enqueue m1 m2 r : Rm m1 m2 -> rres (pr (renq o1 o2) Rm) (q_enqueue_request o1 r m1) (q_enqueue_request o2 r m2).
Proof.
  intros H. rm. unfold q_enqueue_request. eapply (rres_bind (pr (renq o1 o2) rmulti)); [|intros; assumption].
  unfold multi_enqueue. eapply rres_bind; [apply select_rel; exact HO|]. intros [w1|] [w2|] Hw; simpl in Hw; try contradiction.
  - pose proof (pmr_index _ _ None _ _ _ _ HC Hw) as HI. destruct (pm_index None w1 _) as (c1, n1), (pm_index None w2 _) as (c2, n2).
    destruct HI as (E & HI). simpl in E, HI. subst c2.
    assert (HO' : Forall2 wr (list_remove w1 (mq_order q1) ++ [w1]) (list_remove w2 (mq_order q2) ++ [w2])).
    { apply Forall2_app; [eapply list_remove_rel; eassumption|constructor; [exact Hw|constructor]]. }
    destruct c1 as [c|].
    + pose proof (pmr_index _ _ [] _ _ _ _ HQ Hw) as HJ. destruct (pm_index [] w1 _) as (l1, k1), (pm_index [] w2 _) as (l2, k2).
      destruct HJ as (E & HJ). simpl in E, HJ. subst l2. split; [split; [exact I|reflexivity]|]. constructor; simpl; try assumption. eapply pmr_set; eassumption.
    + split; [split; [exact Hw|reflexivity]|]. constructor; simpl; try assumption. eapply pmr_set; eassumption.
  - split; [split; [exact I|reflexivity]|]. constructor; assumption.
Qed.
Lemma fold_count {A} (l : list (A * list request)) : forall n, fold_left (fun acc p => acc + length (snd p)) l n = n + total (fun p => length (snd p)) l.
Proof. induction l as [|p t IH]; intros n; simpl; [lia|]. rewrite IH. lia. Qed.
Lemma m_count m1 m2 : Rm m1 m2 -> q_queued_count m2 = q_queued_count m1.
Proof.
  intros H. rm. simpl. unfold multi_queued_count. rewrite !fold_count. destruct HQ as (P & _). rewrite <- (total_perm _ _ _ P).
  clear. induction (mq_queues q1) as [|p t IH]; simpl; lia.
Qed.
Lemma m_start : Rm (empty_manager KMulti) (empty_manager KMulti).
Proof. constructor; simpl; [split; constructor|split; constructor|constructor]. Qed.

(* ---- one queue: the order of workers and of arrivals matters ---- *)
Hypothesis HA : same_addresses o1 o2.
Hypothesis HK : same_clocks o1 o2.
Hypothesis HT : no_ties o1 \/ same_ties o1 o2.

Definition pme {A} (m1 m2 : pmap A) : Prop := Forall2 (fun p1 p2 => wr (fst p1) (fst p2) /\ snd p2 = snd p1) m1 m2.
Definition ent (o : oracle) (x : request * nat) : entry := mkEntry (fst x) (o_clock o (snd x)).
Record rsingle (q1 q2 : single) : Prop := mkRSi {
  rg_jobs : exists l, sq_jobs q1 = map (ent o1) l /\ sq_jobs q2 = map (ent o2) l /\ NoDup (map snd l) /\ Forall (fun x => snd x < sq_clock q1) l;
  rg_wj : pme (sq_worker_jobs q1) (sq_worker_jobs q2);
  rg_workers : Forall2 wr (sq_workers q1) (sq_workers q2);
  rg_clock : sq_clock q2 = sq_clock q1;
  rg_sorts : sq_sorts q2 = sq_sorts q1 }.
Definition Rg (m1 m2 : manager) : Prop := match m1, m2 with QSingle q1, QSingle q2 => rsingle q1 q2 | _, _ => False end.

Lemma wr_lt a b a' b' : wr a a' -> wr b b' -> addr_lt a' b' = addr_lt a b.
Proof.
  intros (Ea & ->) (Eb & ->). unfold addr_lt. simpl. rewrite Ea, Eb. pose proof (HA (w_id a) (w_id b)) as H1. pose proof (HA (w_id b) (w_id a)) as H2.
  f_equal; [|try f_equal].
  - destruct (N.ltb_spec (o_addr o1 (w_id a)) (o_addr o1 (w_id b))), (N.ltb_spec (o_addr o2 (w_id a)) (o_addr o2 (w_id b))); (reflexivity || lia).
  - destruct (N.eqb_spec (o_addr o1 (w_id a)) (o_addr o1 (w_id b))), (N.eqb_spec (o_addr o2 (w_id a)) (o_addr o2 (w_id b))); (reflexivity || lia).
Qed.
Lemma pme_find {A} (m1 m2 : pmap A) w1 w2 : pme m1 m2 -> wr w1 w2 -> pm_find w2 m2 = pm_find w1 m1.
Proof.
  intros H Hw. induction H as [|(x, a) (y, b) t t' (Hx & E) _ IH]; [reflexivity|]. simpl in *. rewrite (wr_same _ _ _ _ _ _ Hx Hw), E, IH. reflexivity.
Qed.
Lemma pme_mem {A} (m1 m2 : pmap A) w1 w2 : pme m1 m2 -> wr w1 w2 -> pm_mem w2 m2 = pm_mem w1 m1.
Proof.
  intros H Hw. unfold pm_mem. induction H as [|(x, a) (y, b) t t' (Hx & E) _ IH]; [reflexivity|]. simpl in *. rewrite (wr_same _ _ _ _ _ _ Hx Hw), IH. reflexivity.
Qed.
Lemma pme_insert {A} (m1 m2 : pmap A) w1 w2 a : pme m1 m2 -> wr w1 w2 -> pme (pm_insert w1 a m1) (pm_insert w2 a m2).
Proof.
  intros H Hw. induction H as [|(x, b) (y, c) t t' (Hx & E) HT' IH]; simpl; [constructor; [split; [exact Hw|reflexivity]|constructor]|].
  simpl in Hx, E. rewrite (wr_lt _ _ _ _ Hw Hx). destruct (addr_lt w1 x); constructor; try (split; [assumption|reflexivity || exact E]); [|exact IH].
  constructor; [split; assumption|exact HT'].
Qed.
Lemma pme_set {A} (m1 m2 : pmap A) w1 w2 a : pme m1 m2 -> wr w1 w2 -> pme (pm_set w1 a m1) (pm_set w2 a m2).
Proof.
  intros H Hw. unfold pm_set. rewrite (pme_mem _ _ _ _ H Hw). destruct (pm_mem w1 m1); [|apply pme_insert; assumption].
  induction H as [|(x, b) (y, c) t t' (Hx & E) _ IH]; simpl; constructor; [|exact IH]. simpl in Hx, E. rewrite (wr_same _ _ _ _ _ _ Hx Hw).
  destruct (same_worker x w1); split; simpl; auto.
Qed.
Lemma pme_index {A} d (m1 m2 : pmap A) w1 w2 : pme m1 m2 -> wr w1 w2 -> pr eq pme (pm_index d w1 m1) (pm_index d w2 m2).
Proof.
  intros H Hw. unfold pm_index. rewrite (pme_find _ _ _ _ H Hw). destruct (pm_find w1 m1); (split; [reflexivity|]); [exact H|]. apply pme_insert; assumption.
Qed.
Lemma pme_erase {A} (m1 m2 : pmap A) w1 w2 : pme m1 m2 -> wr w1 w2 -> pme (pm_erase w1 m1) (pm_erase w2 m2).
Proof.
  intros H Hw. unfold pm_erase. induction H as [|(x, b) (y, c) t t' (Hx & E) _ IH]; simpl; [constructor|]. simpl in Hx, E.
  rewrite (wr_same _ _ _ _ _ _ Hx Hw). destruct (same_worker x w1); simpl; [exact IH|]. constructor; [split; assumption|exact IH].
Qed.

Lemma ent_le_rel n a b : snd a <> snd b -> entry_le (o_tie o2 n) (ent o2 a) (ent o2 b) = entry_le (o_tie o1 n) (ent o1 a) (ent o1 b).
Proof.
  intros Hn. unfold entry_le. simpl. pose proof (HK (snd a) (snd b)) as H1. pose proof (HK (snd b) (snd a)) as H2.
  f_equal.
  - destruct (Z.ltb_spec (o_clock o1 (snd a)) (o_clock o1 (snd b))), (Z.ltb_spec (o_clock o2 (snd a)) (o_clock o2 (snd b))); (reflexivity || lia).
  - destruct (Z.eqb_spec (o_clock o1 (snd a)) (o_clock o1 (snd b))) as [E|E], (Z.eqb_spec (o_clock o2 (snd a)) (o_clock o2 (snd b))) as [E'|E']; simpl; try lia.
    destruct HT as [H|H]; [exfalso; apply Hn; apply H; exact E|]. pose proof (H n (r_id (fst a)) (r_id (fst b))) as H3.
    destruct (N.leb_spec (o_tie o1 n (r_id (fst a))) (o_tie o1 n (r_id (fst b)))), (N.leb_spec (o_tie o2 n (r_id (fst a))) (o_tie o2 n (r_id (fst b)))); (reflexivity || lia).
Qed.
Lemma insert_rel n x l : ~ In (snd x) (map snd l) -> exists l', sort_insert (o_tie o1 n) (ent o1 x) (map (ent o1) l) = map (ent o1) l' /\
  sort_insert (o_tie o2 n) (ent o2 x) (map (ent o2) l) = map (ent o2) l' /\ Permutation l' (x :: l).
Proof.
  induction l as [|y t IH]; simpl; intros H; [exists [x]; auto|]. rewrite ent_le_rel by (intros E; apply H; left; congruence).
  destruct (entry_le (o_tie o1 n) (ent o1 x) (ent o1 y)); [exists (x :: y :: t); auto|]. destruct IH as (l' & -> & -> & P); [tauto|].
  exists (y :: l'). split; [reflexivity|]. split; [reflexivity|]. rewrite P. apply perm_swap.
Qed.
Lemma sort_rel n l : NoDup (map snd l) -> exists l', sort_entries (o_tie o1 n) (map (ent o1) l) = map (ent o1) l' /\
  sort_entries (o_tie o2 n) (map (ent o2) l) = map (ent o2) l' /\ Permutation l' l.
Proof.
  induction l as [|x t IH]; simpl; intros H; [exists []; auto|]. inversion H as [|? ? Hx Ht]; subst. destruct (IH Ht) as (l1 & -> & -> & P).
  destruct (insert_rel n x l1) as (l2 & -> & -> & P2).
  { intros Hc. apply Hx. eapply Permutation_in; [apply Permutation_map; exact P|exact Hc]. }
  exists l2. split; [reflexivity|]. split; [reflexivity|]. rewrite P2, P. reflexivity.
Qed.

Definition rtake (x : option (request * list entry)) (y : option (request * list entry)) (l : list (request * nat)) : Prop :=
  match x, y with
  | Some (r, e1), Some (r', e2) => r' = r /\ exists l' k, e1 = map (ent o1) l' /\ e2 = map (ent o2) l' /\ Permutation l ((r, k) :: l')
  | None, None => True
  | _, _ => False
  end.
Lemma take_first_rel w1 w2 l : wr w1 w2 -> rres (fun x y => rtake x y l) (take_first w1 (map (ent o1) l)) (take_first w2 (map (ent o2) l)).
Proof.
  intros Hw. induction l as [|(r, k) t IH]; [exact I|]. cbn [take_first map]. rewrite (wr_check _ _ _ _ _ Hw).
  eapply rres_bind; [apply rres_eq|]. intros b ? <-. destruct b.
  - simpl. split; [reflexivity|]. exists t, k. auto.
  - eapply rres_bind; [exact IH|]. intros [(r1, e1)|] [(r2, e2)|] H; simpl in H; try contradiction; [|exact I].
    destruct H as (-> & l' & j & -> & -> & P). simpl. split; [reflexivity|]. exists ((r, k) :: l'), j.
    split; [reflexivity|]. split; [reflexivity|]. rewrite P. apply perm_swap.
Qed.
Lemma assignable_rel r ws1 ws2 : Forall2 wr ws1 ws2 -> assignable r ws2 = assignable r ws1.
Proof. induction 1 as [|a b t t' H _ IH]; simpl; [reflexivity|]. rewrite (wr_check _ _ _ _ _ H), IH. reflexivity. Qed.
Lemma idle_rel r m1 m2 : pme m1 m2 -> rres (opt wr) (select_idle r m1) (select_idle r m2).
Proof.
  induction 1 as [|(x, a) (y, b) t t' (Hx & E) _ IH]; [exact I|]. simpl in Hx, E. subst b. destruct a as [c|]; cbn [select_idle]; [exact IH|].
  rewrite (wr_check _ _ _ _ _ Hx). eapply rres_bind; [apply rres_eq|]. intros b ? <-. destruct b; [exact Hx|exact IH].
Qed.
Lemma split_rel ws1 ws2 l : Forall2 wr ws1 ws2 ->
  rres (fun x y => snd y = snd x /\ exists l', fst x = map (ent o1) l' /\ fst y = map (ent o2) l' /\ (NoDup (map snd l) -> NoDup (map snd l')) /\ incl l' l)
    (split_jobs ws1 (map (ent o1) l)) (split_jobs ws2 (map (ent o2) l)).
Proof.
  intros Hw. induction l as [|(r, k) t IH].
  { simpl. split; [reflexivity|]. exists []. repeat split; auto. intros x []. }
  cbn [split_jobs map]. change (e_request (ent o2 (r, k))) with (e_request (ent o1 (r, k))). rewrite (assignable_rel _ _ _ Hw).
  eapply rres_bind; [apply rres_eq|]. intros b ? <-. eapply rres_bind; [exact IH|]. intros (k1, g1) (k2, g2) (E & l' & E1 & E2 & HN & HI).
  simpl in E, E1, E2. subst. destruct b; simpl.
  - split; [reflexivity|]. exists ((r, k) :: l'). split; [reflexivity|]. split; [reflexivity|]. split.
    + simpl. intros H. inversion H as [|? ? Hx Ht]; subst. constructor; [|auto]. intros Hc. apply Hx. apply in_map_iff in Hc. destruct Hc as (z & Ez & Hz).
      rewrite <- Ez. apply in_map. apply HI. exact Hz.
    + intros z [<-|Hz]; [left; reflexivity|right; apply HI; exact Hz].
  - split; [reflexivity|]. exists l'. split; [reflexivity|]. split; [reflexivity|]. split.
    + simpl. intros H. inversion H; subst. auto.
    + intros z Hz. right. apply HI. exact Hz.
Qed.

Ltac rg := match goal with H : Rg ?m1 ?m2 |- _ => destruct m1 as [q1|], m2 as [q2|]; simpl in H; try contradiction end.
Lemma lift_single_rel {A} (R : A -> A -> Prop) x y : rres (pr R rsingle) x y -> rres (pr R Rg) (lift_single x) (lift_single y).
Proof. destruct x as [(a, q)|e], y as [(b, q')|f]; simpl; intros H; exact H. Qed.

Lemma assign_rel q1 q2 w1 w2 : rsingle q1 q2 -> wr w1 w2 -> rres (pr eq rsingle) (single_assign o1 w1 q1) (single_assign o2 w2 q2).
Proof.
  intros [(l & J1 & J2 & ND & LT) HW HO HC HS] Hw. unfold single_assign. rewrite J1, J2, HS.
  destruct (sort_rel (sq_sorts q1) l ND) as (l1 & -> & -> & P).
  assert (ND1 : NoDup (map snd l1)) by (apply (Permutation_NoDup (Permutation_map snd (Permutation_sym P))); exact ND).
  assert (LT1 : Forall (fun x => snd x < sq_clock q1) l1) by (rewrite Forall_forall in *; intros x Hx; apply LT; eapply Permutation_in; eauto).
  eapply rres_bind; [apply take_first_rel; exact Hw|]. intros [(r1, e1)|] [(r2, e2)|] H; simpl in H; try contradiction.
  - destruct H as (-> & l' & k & -> & -> & P'). split; [reflexivity|]. constructor; simpl; try assumption; try congruence.
    + exists l'. split; [reflexivity|]. split; [reflexivity|]. split.
      * apply (Permutation_NoDup (Permutation_map snd P')) in ND1. inversion ND1; assumption.
      * rewrite Forall_forall in *. intros x Hx. apply LT1. eapply Permutation_in; [apply Permutation_sym; exact P'|right; exact Hx].
    + apply pme_set; [apply pme_set; assumption|exact Hw].
  - split; [reflexivity|]. constructor; simpl; try assumption; try congruence; [exists l1; auto|apply pme_set; assumption].
Qed.
Lemma g_assign m1 m2 w1 w2 : Rg m1 m2 -> wr w1 w2 -> rres (pr eq Rg) (q_assign_request o1 w1 m1) (q_assign_request o2 w2 m2).
Proof. intros H Hw. rg. apply lift_single_rel. apply assign_rel; assumption. Qed.
Lemma g_finished m1 m2 w1 w2 : Rg m1 m2 -> wr w1 w2 -> rres (pr eq Rg) (q_worker_finished o1 w1 m1) (q_worker_finished o2 w2 m2).
Proof. intros H Hw. rg. apply lift_single_rel. apply assign_rel; assumption. Qed.
Lemma g_add m1 m2 w1 w2 cur : Rg m1 m2 -> wr w1 w2 -> rres (pr eq Rg) (q_add_worker o1 w1 cur m1) (q_add_worker o2 w2 cur m2).
Proof.
  intros H Hw. rg. apply lift_single_rel. unfold single_add_worker.
  assert (H' : rsingle (mkSingle (sq_jobs q1) (pm_set w1 cur (sq_worker_jobs q1)) (sq_workers q1 ++ [w1]) (sq_clock q1) (sq_sorts q1))
                       (mkSingle (sq_jobs q2) (pm_set w2 cur (sq_worker_jobs q2)) (sq_workers q2 ++ [w2]) (sq_clock q2) (sq_sorts q2))).
  { destruct H as [HJ HW HO HC HS]. constructor; simpl; try assumption; [apply pme_set; assumption|apply Forall2_app; [assumption|constructor; [exact Hw|constructor]]]. }
  destruct cur; [split; [reflexivity|exact H']|apply assign_rel; assumption].
Qed.
Lemma g_terminated m1 m2 w1 w2 : Rg m1 m2 -> wr w1 w2 -> rres (pr eq Rg) (q_worker_terminated w1 m1) (q_worker_terminated w2 m2).
Proof.
  intros H Hw. rg. apply lift_single_rel. destruct H as [(l & J1 & J2 & ND & LT) HW HO HC HS]. unfold single_worker_terminated.
  pose proof (pme_index None _ _ _ _ HW Hw) as HI. destruct (pm_index None w1 _) as (c1, n1), (pm_index None w2 _) as (c2, n2).
  destruct HI as (E & HI). simpl in E, HI. subst c2. pose proof (list_remove_rel _ _ _ _ _ _ Hw HO) as HO'. rewrite J1, J2.
  eapply rres_bind; [apply split_rel; exact HO'|]. intros (k1, g1) (k2, g2) (E & l' & E1 & E2 & HN & HL). simpl in E, E1, E2. subst.
  split; [reflexivity|]. constructor; simpl; try assumption.
  - exists l'. split; [reflexivity|]. split; [reflexivity|]. split; [auto|]. rewrite Forall_forall in *. intros x Hx. apply LT, HL, Hx.
  - apply pme_erase; assumption.
Qed.
Lemma g_current m1 m2 w1 w2 : Rg m1 m2 -> wr w1 w2 -> rres (pr eq Rg) (q_get_current w1 m1) (q_get_current w2 m2).
Proof.
  intros H Hw. rg. apply lift_single_rel. destruct H as [HJ HW HO HC HS]. unfold single_get_current.
  pose proof (pme_index None _ _ _ _ HW Hw) as HI. destruct (pm_index None w1 _) as (c1, n1), (pm_index None w2 _) as (c2, n2).
  destruct HI as (E & HI). simpl in E, HI. subst c2. split; [reflexivity|]. constructor; simpl; assumption.
Qed.
Lemma g_cancelled m1 m2 w1 w2 : Rg m1 m2 -> wr w1 w2 -> rres (pr eq Rg) (q_worker_cancelled w1 m1) (q_worker_cancelled w2 m2).
Proof.
  intros H Hw. rg. apply lift_single_rel. destruct H as [HJ HW HO HC HS]. unfold single_worker_cancelled.
  pose proof (pme_index None _ _ _ _ HW Hw) as HI. destruct (pm_index None w1 _) as (c1, n1), (pm_index None w2 _) as (c2, n2).
  destruct HI as (E & HI). simpl in E, HI. subst c2. split; [reflexivity|]. constructor; simpl; try assumption. apply pme_set; assumption.
Qed.
Lemma g_enqueue m1 m2 r : Rg m1 m2 -> rres (pr (renq o1 o2) Rg) (q_enqueue_request o1 r m1) (q_enqueue_request o2 r m2).
Proof.
  intros H. rg. apply lift_single_rel. pose proof H as [(l & J1 & J2 & ND & LT) HW HO HC HS]. unfold single_enqueue.
  eapply rres_bind; [apply idle_rel; exact HW|]. intros [w1|] [w2|] Hw; simpl in Hw; try contradiction.
  - split; [split; [exact Hw|reflexivity]|]. constructor; simpl; try assumption; [exists l; auto|apply pme_set; assumption].
  - rewrite (assignable_rel r _ _ HO). eapply rres_bind; [apply rres_eq|]. intros b ? <-. destruct b; [|split; [split; [exact I|reflexivity]|exact H]].
    split; [split; [exact I|reflexivity]|]. rewrite HC. constructor; simpl; try assumption; [|reflexivity].
    exists (l ++ [(r, sq_clock q1)]). rewrite !map_app, J1, J2. split; [reflexivity|]. split; [reflexivity|]. split.
    + apply (Permutation_NoDup (Permutation_cons_append _ _)). constructor; [|exact ND]. intros Hc. apply in_map_iff in Hc.
      destruct Hc as (x & E & Hx). rewrite Forall_forall in LT. apply LT in Hx. simpl in E. lia.
    + apply Forall_app. split; [|repeat constructor]. eapply Forall_impl; [|exact LT]. simpl. intros; lia.
Qed.
Lemma g_count m1 m2 : Rg m1 m2 -> q_queued_count m2 = q_queued_count m1.
Proof. intros H. rg. simpl. unfold single_queued_count. destruct H as [(l & -> & -> & _) _ _ _ _]. rewrite !map_length. reflexivity. Qed.
Lemma g_start : Rg (empty_manager KSingle) (empty_manager KSingle).
Proof. constructor; simpl; try reflexivity; [exists []; repeat split; constructor|constructor|constructor]. Qed.
End Env.

Theorem multi_environment o1 o2 cfg tr s : run o1 cfg KMulti tr s -> exists tr' s', run o2 cfg KMulti tr' s' /\ seen tr' = seen tr.
Proof.
  intros H. destruct (run_rel o1 o2 cfg (Rm o1 o2) (m_add o1 o2) (m_assign o1 o2) (m_finished o1 o2) (m_terminated o1 o2) (m_current o1 o2)
    (m_cancelled o1 o2) (m_enqueue o1 o2) (m_count o1 o2) KMulti (m_start o1 o2) _ _ H) as (tr' & s' & H1 & H2 & _). eauto.
Qed.
Theorem multi_environment_crash o1 o2 cfg tr s m outs f : run o1 cfg KMulti tr s -> crashes o1 cfg s m outs f ->
  exists tr' s', run o2 cfg KMulti tr' s' /\ seen tr' = seen tr /\ crashes o2 cfg s' m outs f.
Proof.
  exact (crash_rel o1 o2 cfg (Rm o1 o2) (m_add o1 o2) (m_assign o1 o2) (m_finished o1 o2) (m_terminated o1 o2) (m_current o1 o2)
    (m_cancelled o1 o2) (m_enqueue o1 o2) (m_count o1 o2) KMulti (m_start o1 o2) tr s m outs f).
Qed.
Theorem single_environment o1 o2 cfg tr s : same_addresses o1 o2 -> same_clocks o1 o2 -> no_ties o1 \/ same_ties o1 o2 ->
  run o1 cfg KSingle tr s -> exists tr' s', run o2 cfg KSingle tr' s' /\ seen tr' = seen tr.
Proof.
  intros HA HK HT H. destruct (run_rel o1 o2 cfg (Rg o1 o2) (g_add o1 o2 HA HK HT) (g_assign o1 o2 HA HK HT) (g_finished o1 o2 HA HK HT)
    (g_terminated o1 o2 HA) (g_current o1 o2 HA) (g_cancelled o1 o2 HA) (g_enqueue o1 o2 HA) (g_count o1 o2) KSingle (g_start o1 o2) _ _ H)
    as (tr' & s' & H1 & H2 & _). eauto.
Qed.
Theorem single_environment_crash o1 o2 cfg tr s m outs f : same_addresses o1 o2 -> same_clocks o1 o2 -> no_ties o1 \/ same_ties o1 o2 ->
  run o1 cfg KSingle tr s -> crashes o1 cfg s m outs f ->
  exists tr' s', run o2 cfg KSingle tr' s' /\ seen tr' = seen tr /\ crashes o2 cfg s' m outs f.
Proof.
  intros HA HK HT. exact (crash_rel o1 o2 cfg (Rg o1 o2) (g_add o1 o2 HA HK HT) (g_assign o1 o2 HA HK HT) (g_finished o1 o2 HA HK HT)
    (g_terminated o1 o2 HA) (g_current o1 o2 HA) (g_cancelled o1 o2 HA) (g_enqueue o1 o2 HA) (g_count o1 o2) KSingle (g_start o1 o2) tr s m outs f).
Qed.

Theorem multi_determined o1 o2 cfg tr1 s1 tr2 s2 : run o1 cfg KMulti tr1 s1 -> run o2 cfg KMulti tr2 s2 ->
  map ev_in tr1 = map ev_in tr2 -> map ev_out tr1 = map ev_out tr2.
Proof.
  intros H1 H2 E. destruct (multi_environment o1 o2 cfg tr1 s1 H1) as (tr' & s' & H' & ES).
  assert (EI : map ev_in tr' = map ev_in tr1) by (pose proof (f_equal (map fst) ES) as X; unfold seen in X; rewrite !map_map in X; exact X).
  assert (EO : map ev_out tr' = map ev_out tr1) by (pose proof (f_equal (map snd) ES) as X; unfold seen in X; rewrite !map_map in X; exact X).
  destruct (run_inputs o2 cfg _ _ _ H2 _ _ H' (eq_trans EI E)) as (-> & _). symmetry. exact EO.
Qed.
