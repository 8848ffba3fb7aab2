(* Runs under two environments. *)
From Verif Require Import Base Bytes Containers Worker Multi Single Queue Handler SpecText Spec SpecOracle Facts.
Local Open Scope string_scope.
Local Open Scope list_scope.

Section Env.
Context (o1 o2 : oracle) (cfg : config).

(* the same worker in the second environment *)
Definition rew (w : worker) : worker :=
  mkWorker (w_id w) (o_addr o2 (w_id w)) (w_identity w) (w_description w) (w_hwgroup w) (w_headers_copy w) (w_headers w).
Definition wr (w1 w2 : worker) : Prop := w_addr w1 = o_addr o1 (w_id w1) /\ w2 = rew w1.

Lemma wr_id w1 w2 : wr w1 w2 -> w_id w2 = w_id w1. Proof. intros (_ & ->). reflexivity. Qed.
Lemma wr_identity w1 w2 : wr w1 w2 -> w_identity w2 = w_identity w1. Proof. intros (_ & ->). reflexivity. Qed.
Lemma wr_desc w1 w2 : wr w1 w2 -> get_description w2 = get_description w1. Proof. intros (_ & ->). reflexivity. Qed.
Lemma wr_equal w1 w2 h : wr w1 w2 -> headers_equal w2 h = headers_equal w1 h. Proof. intros (_ & ->). reflexivity. Qed.
Lemma wr_check w1 w2 h : wr w1 w2 -> check_headers w2 h = check_headers w1 h.
Proof. intros (_ & ->). induction h as [|(k, v) t IH]; simpl; [reflexivity|]. rewrite IH. reflexivity. Qed.
Lemma wr_same a b a' b' : wr a a' -> wr b b' -> same_worker a' b' = same_worker a b.
Proof. intros Ha Hb. unfold same_worker. rewrite (wr_id _ _ Ha), (wr_id _ _ Hb). reflexivity. Qed.

(* ---- results ---- *)
Definition rres {A B} (R : A -> B -> Prop) (x : res A) (y : res B) : Prop :=
  match x, y with Val a, Val b => R a b | Fail e, Fail f => e = f | _, _ => False end.
Lemma rres_bind {A B C D} (R : A -> B -> Prop) (S : C -> D -> Prop) x y k l :
  rres R x y -> (forall a b, R a b -> rres S (k a) (l b)) -> rres S (let? a := x in k a) (let? b := y in l b).
Proof. destruct x, y; simpl; intros H K; try contradiction; auto. Qed.
Lemma rres_eq {A} (x : res A) : rres eq x x.
Proof. destruct x; reflexivity. Qed.
Definition opt {A B} (R : A -> B -> Prop) (x : option A) (y : option B) : Prop :=
  match x, y with Some a, Some b => R a b | None, None => True | _, _ => False end.
Definition pr {A B C D} (R : A -> B -> Prop) (S : C -> D -> Prop) (x : A * C) (y : B * D) : Prop := R (fst x) (fst y) /\ S (snd x) (snd y).

(* ---- registry ---- *)
Lemma find_rel i ws1 ws2 : Forall2 wr ws1 ws2 -> opt wr (find_worker_by_identity i ws1) (find_worker_by_identity i ws2).
Proof. induction 1 as [|a b t t' H _ IH]; simpl; [exact I|]. rewrite (wr_identity _ _ H). destruct (String.eqb _ i); [exact H|exact IH]. Qed.
Lemma remove_rel w1 w2 ws1 ws2 : wr w1 w2 -> Forall2 wr ws1 ws2 -> Forall2 wr (reg_remove w1 ws1) (reg_remove w2 ws2).
Proof.
  intros Hw. induction 1 as [|a b t t' H HT IH]; simpl; [constructor|]. rewrite (wr_same _ _ _ _ H Hw).
  destruct (same_worker a w1); [exact HT|constructor; assumption].
Qed.
Lemma list_remove_rel w1 w2 ws1 ws2 : wr w1 w2 -> Forall2 wr ws1 ws2 -> Forall2 wr (list_remove w1 ws1) (list_remove w2 ws2).
Proof.
  intros Hw. induction 1 as [|a b t t' H HT IH]; simpl; [constructor|]. rewrite (wr_same _ _ _ _ H Hw).
  destruct (same_worker a w1); simpl; [exact IH|constructor; assumption].
Qed.
Lemma length_rel ws1 ws2 : Forall2 wr ws1 ws2 -> length ws2 = length ws1.
Proof. induction 1; simpl; congruence. Qed.

(* ---- maps up to order ---- *)
Definition me {A} (p : worker * A) : worker * A := (rew (fst p), snd p).
Definition pmr {A} (m1 m2 : pmap A) : Prop := Permutation (map me m1) m2 /\ NoDup (ids (keys m1)).

Lemma ids_me {A} (m : pmap A) : ids (keys (map me m)) = ids (keys m).
Proof. unfold ids, keys. rewrite !map_map. reflexivity. Qed.
Lemma find_id {A} w w' (m : pmap A) : w_id w = w_id w' -> pm_find w m = pm_find w' m.
Proof. intros E. induction m as [|(x, a) t IH]; simpl; [reflexivity|]. unfold same_worker. rewrite E, IH. reflexivity. Qed.
Lemma mem_id {A} w w' (m : pmap A) : w_id w = w_id w' -> pm_mem w m = pm_mem w' m.
Proof. intros E. unfold pm_mem, same_worker. rewrite E. reflexivity. Qed.
Lemma find_me {A} w (m : pmap A) : pm_find w (map me m) = pm_find w m.
Proof. induction m as [|(x, a) t IH]; simpl; [reflexivity|]. unfold same_worker. simpl. rewrite IH. reflexivity. Qed.
Lemma mem_me {A} w (m : pmap A) : pm_mem w (map me m) = pm_mem w m.
Proof. unfold pm_mem. induction m as [|(x, a) t IH]; simpl; [reflexivity|]. rewrite IH. reflexivity. Qed.
Lemma find_perm {A} w (m m' : pmap A) : Permutation m m' -> NoDup (ids (keys m)) -> pm_find w m' = pm_find w m.
Proof.
  induction 1 as [|(x, a) l l' HP IH|(x, a) (y, b) l|l l' l'' H1 IH1 H2 IH2]; intros Hn; [reflexivity| | |].
  - simpl. rewrite IH; [reflexivity|]. inversion Hn; assumption.
  - simpl. destruct (same_worker y w) eqn:E1, (same_worker x w) eqn:E2; try reflexivity.
    exfalso. apply same_worker_id in E1, E2. inversion Hn as [|? ? Hx _]; subst. apply Hx. left. simpl. congruence.
  - rewrite IH2, IH1; [reflexivity|assumption|]. apply (Permutation_NoDup (l := ids (keys l))); [|exact Hn].
    unfold ids, keys. do 2 apply Permutation_map. exact H1.
Qed.
Lemma mem_perm {A} w (m m' : pmap A) : Permutation m m' -> pm_mem w m' = pm_mem w m.
Proof.
  intros HP. unfold pm_mem. destruct (existsb _ m) eqn:E.
  - apply existsb_exists in E. destruct E as (p & Hp & E). apply existsb_exists. exists p. split; [|exact E]. eapply Permutation_in; eauto.
  - destruct (existsb _ m') eqn:E'; [|reflexivity]. apply existsb_exists in E'. destruct E' as (p & Hp & E').
    assert (E'' : existsb (fun p => same_worker (fst p) w) m = true); [|congruence].
    apply existsb_exists. exists p. split; [|exact E']. eapply Permutation_in; [apply Permutation_sym; exact HP|exact Hp].
Qed.

Lemma pmr_find {A} (m1 m2 : pmap A) w1 w2 : pmr m1 m2 -> wr w1 w2 -> pm_find w2 m2 = pm_find w1 m1.
Proof.
  intros (P & N) Hw. rewrite (find_perm w2 _ _ P) by (rewrite ids_me; exact N). rewrite find_me. apply find_id. exact (wr_id _ _ Hw).
Qed.
Lemma pmr_mem {A} (m1 m2 : pmap A) w1 w2 : pmr m1 m2 -> wr w1 w2 -> pm_mem w2 m2 = pm_mem w1 m1.
Proof. intros (P & N) Hw. rewrite (mem_perm w2 _ _ P), mem_me. apply mem_id. exact (wr_id _ _ Hw). Qed.
Lemma mem_false_id {A} w (m : pmap A) : pm_mem w m = false -> ~ In (w_id w) (ids (keys m)).
Proof.
  intros H Hc. unfold ids, keys in Hc. rewrite map_map in Hc. apply in_map_iff in Hc. destruct Hc as (p & E & Hp).
  assert (pm_mem w m = true); [|congruence]. apply existsb_exists. exists p. split; [exact Hp|]. unfold same_worker. apply Nat.eqb_eq. exact E.
Qed.
Lemma pmr_insert {A} (m1 m2 : pmap A) w1 w2 a : pmr m1 m2 -> wr w1 w2 -> pm_mem w1 m1 = false -> pmr (pm_insert w1 a m1) (pm_insert w2 a m2).
Proof.
  intros (P & N) (Ha & ->) Hm. split.
  - rewrite pm_insert_perm, pm_insert_perm. simpl. apply perm_skip. exact P.
  - unfold ids. apply (Permutation_NoDup (l := w_id w1 :: ids (keys m1))).
    + symmetry. exact (Permutation_map w_id (keys_insert_perm w1 a m1)).
    + constructor; [apply mem_false_id; exact Hm|exact N].
Qed.
Lemma pmr_emplace {A} (m1 m2 : pmap A) w1 w2 a : pmr m1 m2 -> wr w1 w2 -> pmr (pm_emplace w1 a m1) (pm_emplace w2 a m2).
Proof.
  intros H Hw. unfold pm_emplace. rewrite (pmr_mem _ _ _ _ H Hw). destruct (pm_mem w1 m1) eqn:E; [exact H|]. apply pmr_insert; assumption.
Qed.
Lemma pmr_set {A} (m1 m2 : pmap A) w1 w2 a : pmr m1 m2 -> wr w1 w2 -> pmr (pm_set w1 a m1) (pm_set w2 a m2).
Proof.
  intros H Hw. unfold pm_set. rewrite (pmr_mem _ _ _ _ H Hw). destruct (pm_mem w1 m1) eqn:E; [|apply pmr_insert; assumption].
  destruct H as (P & N). destruct Hw as (_ & ->). split.
  - rewrite <- P. rewrite !map_map. apply Permutation_refl'. apply map_ext. intros (x, b). simpl. unfold same_worker. simpl.
    destruct (Nat.eqb (w_id x) (w_id w1)); reflexivity.
  - unfold ids, keys. rewrite !map_map. erewrite map_ext; [unfold ids, keys in N; rewrite map_map in N; exact N|].
    intros (x, b). simpl. destruct (same_worker x w1); reflexivity.
Qed.
Lemma pmr_index {A} d (m1 m2 : pmap A) w1 w2 : pmr m1 m2 -> wr w1 w2 -> pr eq pmr (pm_index d w1 m1) (pm_index d w2 m2).
Proof.
  intros H Hw. unfold pm_index. rewrite (pmr_find _ _ _ _ H Hw). destruct (pm_find w1 m1) eqn:E; [split; [reflexivity|exact H]|].
  split; [reflexivity|]. simpl. apply pmr_insert; [exact H|exact Hw|]. destruct (pm_mem w1 m1) eqn:E'; [|reflexivity].
  exfalso. clear - E E'. induction m1 as [|(x, a) t IH]; [discriminate|]. simpl in *. destruct (same_worker x w1); [discriminate|]. apply IH; assumption.
Qed.
Lemma perm_filter {A} (f : A -> bool) l l' : Permutation l l' -> Permutation (filter f l) (filter f l').
Proof.
  induction 1 as [|x l l' H IH|x y l|l l' l'' H1 IH1 H2 IH2]; simpl; [constructor| | |eapply perm_trans; eassumption].
  - destruct (f x); [apply perm_skip|]; exact IH.
  - destruct (f x), (f y); try apply Permutation_refl. apply perm_swap.
Qed.
Lemma pmr_erase {A} (m1 m2 : pmap A) w1 w2 : pmr m1 m2 -> wr w1 w2 -> pmr (pm_erase w1 m1) (pm_erase w2 m2).
Proof.
  intros (P & N) (_ & ->). split.
  - unfold pm_erase. rewrite <- (perm_filter _ _ _ P). clear. apply Permutation_refl'. induction m1 as [|(x, a) t IH]; simpl; [reflexivity|].
    unfold same_worker in *. simpl in *. destruct (Nat.eqb (w_id x) (w_id w1)); simpl; [exact IH|]. f_equal. exact IH.
  - clear P. unfold ids, keys, pm_erase in *. induction m1 as [|(x, a) t IH]; simpl in *; [constructor|]. inversion N as [|? ? Hx N']; subst.
    destruct (same_worker x w1); simpl; [auto|]. constructor; [|auto]. intros Hc. apply Hx. rewrite map_map in *. apply in_map_iff in Hc.
    destruct Hc as (p & E & Hp). apply filter_In in Hp. rewrite <- E. change (w_id (fst p)) with ((fun q : worker * A => w_id (fst q)) p).
    apply in_map. apply Hp.
Qed.

(* ---- the handler, for any relation of queue managers that their operations respect ---- *)
Definition renq (x y : enqueue_result) : Prop := opt wr (assigned_to x) (assigned_to y) /\ enqueued y = enqueued x.

Section Generic.
Context (Rq : manager -> manager -> Prop).
Hypothesis H_add : forall m1 m2 w1 w2 cur, Rq m1 m2 -> wr w1 w2 -> rres (pr eq Rq) (q_add_worker o1 w1 cur m1) (q_add_worker o2 w2 cur m2).
Hypothesis H_assign : forall m1 m2 w1 w2, Rq m1 m2 -> wr w1 w2 -> rres (pr eq Rq) (q_assign_request o1 w1 m1) (q_assign_request o2 w2 m2).
Hypothesis H_finished : forall m1 m2 w1 w2, Rq m1 m2 -> wr w1 w2 -> rres (pr eq Rq) (q_worker_finished o1 w1 m1) (q_worker_finished o2 w2 m2).
Hypothesis H_terminated : forall m1 m2 w1 w2, Rq m1 m2 -> wr w1 w2 -> rres (pr eq Rq) (q_worker_terminated w1 m1) (q_worker_terminated w2 m2).
Hypothesis H_current : forall m1 m2 w1 w2, Rq m1 m2 -> wr w1 w2 -> rres (pr eq Rq) (q_get_current w1 m1) (q_get_current w2 m2).
Hypothesis H_cancelled : forall m1 m2 w1 w2, Rq m1 m2 -> wr w1 w2 -> rres (pr eq Rq) (q_worker_cancelled w1 m1) (q_worker_cancelled w2 m2).
Hypothesis H_enqueue : forall m1 m2 r, Rq m1 m2 -> rres (pr renq Rq) (q_enqueue_request o1 r m1) (q_enqueue_request o2 r m2).
Hypothesis H_count : forall m1 m2, Rq m1 m2 -> q_queued_count m2 = q_queued_count m1.

Record Rs (s1 s2 : state) : Prop := mkRs {
  rs_reg : Forall2 wr (s_reg s1) (s_reg s2);
  rs_queue : Rq (s_queue s1) (s_queue s2);
  rs_timers : pmr (s_timers s1) (s_timers s2);
  rs_live : s_live s2 = s_live s1;
  rs_fails : s_fails s2 = s_fails s1;
  rs_stats : s_stats s2 = s_stats s1;
  rs_frozen : s_frozen s2 = s_frozen s1;
  rs_next_w : s_next_w s2 = s_next_w s1;
  rs_next_r : s_next_r s2 = s_next_r s1 }.

Definition rout {A B} (R : A -> B -> Prop) (x : list msg * (fault + A * state)) (y : list msg * (fault + B * state)) : Prop :=
  fst y = fst x /\ match snd x, snd y with inl e, inl f => f = e | inr (a, s), inr (b, t) => R a b /\ Rs s t | _, _ => False end.
Definition rel {A B} (R : A -> B -> Prop) (c1 : M A) (c2 : M B) : Prop := forall s1 s2, Rs s1 s2 -> rout R (c1 s1) (c2 s2).

Lemma rel_bind {A B C D} (R : A -> B -> Prop) (S : C -> D -> Prop) c1 c2 k1 k2 :
  rel R c1 c2 -> (forall a b, R a b -> rel S (k1 a) (k2 b)) -> rel S (bind c1 k1) (bind c2 k2).
Proof.
  intros Hc Hk s1 s2 Hs. unfold bind. specialize (Hc _ _ Hs). unfold rout in Hc.
  destruct (c1 s1) as (x1, [e1|(a, t1)]), (c2 s2) as (x2, [e2|(b, t2)]); simpl in Hc; destruct Hc as (-> & Hc); try contradiction.
  - split; [reflexivity|exact Hc].
  - destruct Hc as (Hab & Ht). specialize (Hk _ _ Hab _ _ Ht). unfold rout in *.
    destruct (k1 a t1) as (y1, r1), (k2 b t2) as (y2, r2). simpl in *. destruct Hk as (-> & Hk). split; [reflexivity|exact Hk].
Qed.
Lemma rel_ret {A B} (R : A -> B -> Prop) a b : R a b -> rel R (ret a) (ret b).
Proof. intros H s1 s2 Hs. split; [reflexivity|]. simpl. auto. Qed.
Lemma rel_fail {A B} (R : A -> B -> Prop) e : rel R (fail e) (fail e).
Proof. intros s1 s2 Hs. split; reflexivity. Qed.
Lemma rel_get : rel Rs get get.
Proof. intros s1 s2 Hs. split; [reflexivity|]. simpl. auto. Qed.
Lemma rel_modify f g : (forall s1 s2, Rs s1 s2 -> Rs (f s1) (g s2)) -> rel eq (modify f) (modify g).
Proof. intros H s1 s2 Hs. split; [reflexivity|]. simpl. auto. Qed.
Lemma rel_respond m : rel eq (respond m) (respond m).
Proof. intros s1 s2 Hs. split; [reflexivity|]. simpl. auto. Qed.
Lemma rel_lift {A B} (R : A -> B -> Prop) x y : rres R x y -> rel R (lift x) (lift y).
Proof. destruct x, y; simpl; intros H; try contradiction; [apply rel_ret; exact H|rewrite H; apply rel_fail]. Qed.
Lemma rel_at v i : rel eq (at_ v i) (at_ v i).
Proof. unfold at_. destruct (nth_error v i); [apply rel_ret; reflexivity|apply rel_fail]. Qed.
Lemma rel_queue {A B} (R : A -> B -> Prop) c1 c2 :
  (forall m1 m2, Rq m1 m2 -> rres (pr R Rq) (c1 m1) (c2 m2)) -> rel R (queue_call c1) (queue_call c2).
Proof.
  intros H s1 s2 Hs. unfold queue_call. specialize (H _ _ (rs_queue _ _ Hs)).
  destruct (c1 (s_queue s1)) as [(a, m1)|e1], (c2 (s_queue s2)) as [(b, m2)|e2]; simpl in H; try contradiction.
  - destruct H as (Hab & Hm). split; [reflexivity|]. simpl. split; [exact Hab|]. destruct Hs. constructor; simpl; assumption.
  - subst. split; reflexivity.
Qed.
Lemma rel_when (b : bool) c1 c2 : rel eq c1 c2 -> rel eq (when b c1) (when b c2).
Proof. destruct b; simpl; auto. intros _. apply rel_ret. reflexivity. Qed.

Ltac field := let HS := fresh "HF" in intros ? ? HS; destruct HS as [S1 S2 S3 S4 S5 S6 S7 S8 S9]; constructor; simpl; try assumption.

Lemma rel_send w1 w2 r : wr w1 w2 -> rel eq (send_request w1 r) (send_request w2 r).
Proof. intros H. unfold send_request. rewrite (wr_identity _ _ H). apply rel_respond. Qed.
Lemma rel_send_if w1 w2 x : wr w1 w2 -> rel eq (send_if w1 x) (send_if w2 x).
Proof. intros H. destruct x; [apply rel_send; exact H|apply rel_ret; reflexivity]. Qed.
Lemma rel_assigned x y r : opt wr x y -> rel eq (match x with Some w => send_request w r | None => ret tt end)
  (match y with Some w => send_request w r | None => ret tt end).
Proof. destruct x, y; simpl; intros H; try contradiction; [apply rel_send; exact H|apply rel_ret; reflexivity]. Qed.
Lemma stat_rel k s1 s2 : Rs s1 s2 -> stat k s2 = stat k s1.
Proof. intros H. unfold stat. rewrite (rs_stats _ _ H). reflexivity. Qed.
Lemma failures_rel r s1 s2 : Rs s1 s2 -> failures r s2 = failures r s1.
Proof. intros H. unfold failures. rewrite (rs_fails _ _ H). reflexivity. Qed.
Lemma rel_incr k : rel eq (stat_incr k) (stat_incr k).
Proof. apply rel_modify. intros s1 s2 HS. rewrite (stat_rel k _ _ HS), (rs_stats _ _ HS). revert s1 s2 HS. field. reflexivity. Qed.
Lemma rel_stat k v : rel eq (stat_set k v) (stat_set k v).
Proof. apply rel_modify. field. rewrite S6. reflexivity. Qed.
Lemma rel_fails r : rel eq (failures_incr r) (failures_incr r).
Proof. apply rel_modify. intros s1 s2 HS. rewrite (failures_rel r _ _ HS), (rs_fails _ _ HS). revert s1 s2 HS. field. reflexivity. Qed.

Ltac step1 := match goal with
  | |- rel _ (bind (queue_call (q_get_current _)) _) _ => eapply rel_bind; [apply rel_queue; intros; apply H_current; assumption|intros ? ? <-]
  | |- rel _ (bind (queue_call (q_worker_cancelled _)) _) _ => eapply rel_bind; [apply rel_queue; intros; apply H_cancelled; assumption|intros ? ? <-]
  | |- rel _ (bind (queue_call (q_assign_request _ _)) _) _ => eapply rel_bind; [apply rel_queue; intros; apply H_assign; assumption|intros ? ? <-]
  | |- rel _ (bind (queue_call (q_worker_finished _ _)) _) _ => eapply rel_bind; [apply rel_queue; intros; apply H_finished; assumption|intros ? ? <-]
  | |- rel _ (bind (queue_call (q_worker_terminated _)) _) _ => eapply rel_bind; [apply rel_queue; intros; apply H_terminated; assumption|intros ? ? <-]
  | |- rel _ (bind (queue_call (q_enqueue_request _ _)) _) _ => eapply rel_bind; [apply rel_queue; intros; apply H_enqueue; assumption|let HE1 := fresh "HE1" in let HE2 := fresh "HE2" in intros ? ? (HE1 & HE2)]
  | |- rel _ (bind get _) _ => eapply rel_bind; [apply rel_get|let s := fresh "s" in let t := fresh "t" in let HS := fresh "HS" in intros s t HS]
  | |- rel _ (bind (ret _) _) _ => eapply rel_bind; [apply rel_ret; reflexivity|intros ? ? <-]
  | |- rel _ (bind (send_if _ _) _) _ => eapply rel_bind; [apply rel_send_if; assumption|intros _ _ _]
  | |- rel _ (bind (match _ with Some w => send_request w _ | None => _ end) _) _ => eapply rel_bind; [apply rel_assigned; assumption|intros _ _ _]
  | |- rel _ (bind (notify_monitor _ _) _) _ => eapply rel_bind; [apply rel_respond|intros _ _ _]
  | |- rel _ (bind (rejected_job _ _) _) _ => eapply rel_bind; [apply rel_respond|intros _ _ _]
  | |- rel _ (bind (job_failed _ _) _) _ => eapply rel_bind; [apply rel_respond|intros _ _ _]
  | |- rel _ (bind (job_done _) _) _ => eapply rel_bind; [apply rel_respond|intros _ _ _]
  | |- rel _ (bind (notify_error _) _) _ => eapply rel_bind; [apply rel_respond|intros _ _ _]
  | |- rel _ (bind (stat_incr _) _) _ => eapply rel_bind; [apply rel_incr|intros _ _ _]
  | |- rel _ (bind (stat_set _ _) _) _ => eapply rel_bind; [apply rel_stat|intros _ _ _]
  | |- rel _ (bind (failures_incr _) _) _ => eapply rel_bind; [apply rel_fails|intros _ _ _]
  | |- rel _ (bind (modify _) _) _ => eapply rel_bind; [apply rel_modify; solve [field; try reflexivity; try congruence]|intros _ _ _]
  | |- rel _ (bind (respond _) _) _ => eapply rel_bind; [apply rel_respond|intros _ _ _]
  | |- rel _ (bind (at_ _ _) _) _ => eapply rel_bind; [apply rel_at|intros ? ? <-]
  | |- rel _ (bind (lift ?x) _) (bind (lift ?x) _) => eapply rel_bind; [apply rel_lift; apply rres_eq|intros ? ? <-]
  | |- rel _ (ret _) _ => apply rel_ret; reflexivity
  | |- rel _ (fail _) _ => apply rel_fail
  | |- rel _ (send_if _ _) _ => apply rel_send_if; assumption
  | |- rel _ (stat_set _ _) _ => apply rel_stat
  | |- rel _ (respond _) _ => apply rel_respond
  | |- rel _ (rejected_job _ _) _ => apply rel_respond
  | |- rel _ (notify_monitor _ _) _ => apply rel_respond
  | |- rel _ (stat_incr _) _ => apply rel_incr
  | |- rel _ (failures_incr _) _ => apply rel_fails
  end.

Lemma rel_check r t : rel eq (check_failure_count cfg r t) (check_failure_count cfg r t).
Proof.
  unfold check_failure_count. step1. rewrite (failures_rel r _ _ HS).
  destruct (N.leb (c_max_failures cfg) (failures r s)); repeat step1.
Qed.
Lemma rel_reassign r : rel eq (reassign_request o1 r) (reassign_request o2 r).
Proof. unfold reassign_request. step1. rewrite HE2. destruct (negb (enqueued a)); repeat step1. Qed.

Lemma rel_scan time ws1 ws2 : Forall2 wr ws1 ws2 -> rel (Forall2 wr) (timer_scan cfg time ws1) (timer_scan cfg time ws2).
Proof.
  induction 1 as [|w1 w2 t1 t2 Hw HT IH]; cbn [timer_scan]; [apply rel_ret; constructor|].
  step1. rewrite (pmr_find _ _ _ _ (rs_timers _ _ HS) Hw), (rs_live _ _ HS), (wr_id _ _ Hw). destruct (negb _); [step1|].
  destruct (Z.ltb _ _).
  - eapply rel_bind; [apply rel_modify; field; rewrite S4; reflexivity|intros _ _ _].
    eapply rel_bind; [apply rel_modify; field; apply pmr_set; assumption|intros _ _ _].
    eapply rel_bind; [exact IH|intros a b Hab]. apply rel_ret. destruct (N.leb _ _); [constructor; assumption|exact Hab].
  - eapply rel_bind; [apply rel_modify; field; apply pmr_set; assumption|intros _ _ _]. exact IH.
Qed.
Lemma rel_expire_requests rs : rel eq (expire_requests o1 cfg rs) (expire_requests o2 cfg rs).
Proof.
  induction rs as [|r t IH]; cbn [expire_requests]; [step1|]. destruct (negb (r_complete r)).
  - step1. step1. exact IH.
  - eapply rel_bind; [apply rel_check|intros ok ? <-]. destruct (negb ok); [exact IH|].
    eapply rel_bind; [apply rel_reassign|intros d ? <-]. destruct (negb d).
    + eapply rel_bind; [exact IH|intros rest ? <-]. step1.
    + step1. exact IH.
Qed.
Lemma rel_reject_all d rs : rel eq (reject_all d rs) (reject_all d rs).
Proof. induction rs as [|r t IH]; cbn [reject_all]; [step1|]. step1. exact IH. Qed.
Lemma rel_expire_workers ws1 ws2 : Forall2 wr ws1 ws2 -> rel eq (expire_workers o1 cfg ws1) (expire_workers o2 cfg ws2).
Proof.
  induction 1 as [|w1 w2 t1 t2 Hw HT IH]; cbn [expire_workers]; [step1|].
  eapply rel_bind; [apply rel_modify; field; apply remove_rel; assumption|intros _ _ _]. step1.
  eapply rel_bind; [destruct a; step1|intros _ _ _]. step1. eapply rel_bind; [apply rel_expire_requests|intros un ? <-].
  rewrite (wr_desc _ _ Hw). eapply rel_bind; [apply rel_reject_all|intros _ _ _]. exact IH.
Qed.
Lemma rel_idle ws1 ws2 : Forall2 wr ws1 ws2 -> rel eq (count_idle ws1) (count_idle ws2).
Proof.
  induction 1 as [|w1 w2 t1 t2 Hw HT IH]; cbn [count_idle]; [step1|]. step1. eapply rel_bind; [destruct a; step1|intros _ _ _]. exact IH.
Qed.
Lemma rel_timer m : rel eq (process_timer o1 cfg m) (process_timer o2 cfg m).
Proof.
  unfold process_timer. destruct (m_data m) as [|front t]; [step1|]. step1. step1.
  eapply rel_bind; [apply rel_scan; exact (rs_reg _ _ HS)|intros rm1 rm2 Hrm].
  eapply rel_bind; [apply rel_expire_workers; exact Hrm|intros _ _ _]. step1.
  rewrite (H_count _ _ (rs_queue _ _ HS0)), (length_rel _ _ (rs_reg _ _ HS0)). step1. step1. step1.
  eapply rel_bind; [apply rel_idle; exact (rs_reg _ _ HS0)|intros _ _ _]. step1. rewrite !(stat_rel _ _ _ HS1). step1.
Qed.

Lemma rel_eval i m : rel eq (process_client_eval o1 i m) (process_client_eval o2 i m).
Proof.
  unfold process_client_eval. step1. step1. step1. destruct a0 as [((h, md), add)|]; [|step1]. step1.
  rewrite (rs_frozen _ _ HS), (rs_next_r _ _ HS). destruct (s_frozen s); [step1|]. step1. step1. rewrite HE2. destruct (enqueued a0); repeat step1.
Qed.
Lemma rel_make n i hw h : rres wr (make_worker n (o_addr o1 n) i hw h) (make_worker n (o_addr o2 n) i hw h).
Proof. unfold make_worker. destruct (make_matchers _ _) as [ms|e]; simpl; [split; reflexivity|reflexivity]. Qed.
Lemma rel_init i m : rel eq (process_worker_init o1 i m) (process_worker_init o2 i m).
Proof.
  unfold process_worker_init. destruct (Nat.ltb _ _); [step1|]. step1. destruct (parse_init_headers (skipn 2 m) []) as (h, rest). step1. cbv zeta.
  match goal with |- rel eq (match _ with Some c => if _ then _ else _ ;; ?R1 | None => _ end) (match _ with Some d => if _ then _ else _ ;; ?R2 | None => _ end) =>
    assert (HREG : rel eq R1 R2) end.
  { rewrite (rs_next_w _ _ HS), (rs_next_r _ _ HS). eapply rel_bind; [apply rel_lift; apply rel_make|intros w1 w2 Hw]. step1.
    destruct (parse_init_extra rest "" None (s_next_r s)) as ((d, cur), next). step1.
    assert (Hw' : wr (set_description d w1) (set_description d w2)) by (destruct Hw as (H1 & ->); split; [exact H1|reflexivity]).
    eapply rel_bind; [apply rel_modify; field; apply Forall2_app; [assumption|constructor; [exact Hw'|constructor]]|intros _ _ _].
    eapply rel_bind; [apply rel_queue; intros; apply H_add; assumption|intros x ? <-]. step1. apply rel_modify. field. apply pmr_emplace; assumption. }
  pose proof (find_rel i _ _ (rs_reg _ _ HS)) as HF.
  destruct (find_worker_by_identity i (s_reg s)) as [c1|], (find_worker_by_identity i (s_reg t)) as [c2|]; simpl in HF; try contradiction; [|exact HREG].
  rewrite (wr_equal _ _ _ HF), (wr_desc _ _ HF). destruct (headers_equal c1 h); [step1|]. step1. exact HREG.
Qed.
Lemma rel_done i m : rel eq (process_worker_done o1 cfg i m) (process_worker_done o2 cfg i m).
Proof.
  unfold process_worker_done. step1. pose proof (find_rel i _ _ (rs_reg _ _ HS)) as HF.
  destruct (find_worker_by_identity i (s_reg s)) as [w1|], (find_worker_by_identity i (s_reg t)) as [w2|]; simpl in HF; try contradiction; [|step1].
  destruct (Nat.ltb _ _); [step1|]. step1. step1. destruct a as [r|]; [|step1]. destruct (negb _); [step1|]. step1.
  destruct (String.eqb a "OK"); [repeat step1|]. destruct (String.eqb a "INTERNAL_ERROR").
  { destruct (negb _); [step1|]. step1. destruct a1 as [r0|]; [|step1]. step1. step1. eapply rel_bind with (R := eq).
    - destruct (negb (r_complete r0)); [step1|]. eapply rel_bind; [apply rel_check|intros ok ? <-]. destruct ok.
      + eapply rel_bind; [apply rel_reassign|intros _ _ _]. step1.
      + step1. step1.
    - intros ? ? _. repeat step1. }
  destruct (String.eqb a "FAILED"); [|repeat step1].
  destruct (negb _); [step1|]. step1. step1. step1. match goal with |- rel _ (match ?x with Some _ => _ | None => _ end) _ => destruct x as [r0|] end; [|step1]. repeat step1.
Qed.

Lemma rel_ping i m : rel eq (process_worker_ping i m) (process_worker_ping i m).
Proof.
  unfold process_worker_ping. step1. pose proof (find_rel i _ _ (rs_reg _ _ HS)) as HF.
  destruct (find_worker_by_identity i (s_reg s)), (find_worker_by_identity i (s_reg t)); simpl in HF; try contradiction; step1.
Qed.

Theorem rel_request m : rel eq (on_request o1 cfg m) (on_request o2 cfg m).
Proof.
  unfold on_request. eapply rel_bind; [apply rel_when|intros _ _ _; eapply rel_bind; [apply rel_when|intros _ _ _; apply rel_when; apply rel_timer]].
  - step1. eapply rel_bind with (R := eq).
    + pose proof (find_rel (m_ident m) _ _ (rs_reg _ _ HS)) as HF.
      destruct (find_worker_by_identity (m_ident m) (s_reg s)) as [w1|], (find_worker_by_identity (m_ident m) (s_reg t)) as [w2|]; simpl in HF; try contradiction; [|step1].
      rewrite (wr_id _ _ HF). eapply rel_bind; [apply rel_modify; field; rewrite S4; reflexivity|intros _ _ _].
      apply rel_modify. field. apply pmr_set; assumption.
    + intros _ _ _. step1. unfold call_function, worker_commands. cbn [sm_find].
      destruct (String.eqb "init" a); [apply rel_init|]. destruct (String.eqb "done" a); [apply rel_done|].
      destruct (String.eqb "ping" a); [apply rel_ping|]. destruct (String.eqb "progress" a); [apply rel_respond|]. step1.
  - step1. unfold call_function, client_commands. cbn [sm_find].
    destruct (String.eqb "eval" a); [apply rel_eval|]. destruct (String.eqb "get-runtime-stats" a).
    { unfold process_client_get_runtime_stats. step1. rewrite (rs_stats _ _ HS), (rs_frozen _ _ HS). step1. }
    destruct (String.eqb "freeze" a); [unfold process_client_freeze; repeat step1|].
    destruct (String.eqb "unfreeze" a); [unfold process_client_unfreeze; repeat step1|]. step1.
Qed.

Context (k : kind).
Hypothesis H_start : Rq (empty_manager k) (empty_manager k).

Lemma start_rel : Rs (init_state (empty_manager k)) (init_state (empty_manager k)).
Proof. constructor; simpl; try reflexivity; [constructor|exact H_start|split; constructor]. Qed.

Lemma run_rel tr s : run o1 cfg k tr s -> exists tr' s', run o2 cfg k tr' s' /\ seen tr' = seen tr /\ Rs s s'.
Proof.
  induction 1 as [|tr s m outs s1 HR (tr' & s' & HR' & HS & HRS) Hm]; [exists [], (init_state (empty_manager k)); repeat split; [constructor|apply start_rel..]|].
  pose proof (rel_request m _ _ HRS) as HO. rewrite Hm in HO. unfold rout in HO.
  destruct (on_request o2 cfg m s') as (outs', [f|([], s1')]) eqn:E; simpl in HO; destruct HO as (-> & HO); [contradiction|].
  exists (tr' ++ [mkEvent s' m outs s1']), s1'. split; [apply run_snoc; assumption|]. split; [|apply HO].
  unfold seen in *. rewrite !map_app, HS. reflexivity.
Qed.
Lemma crash_rel tr s m outs f : run o1 cfg k tr s -> crashes o1 cfg s m outs f ->
  exists tr' s', run o2 cfg k tr' s' /\ seen tr' = seen tr /\ crashes o2 cfg s' m outs f.
Proof.
  intros HR HC. destruct (run_rel _ _ HR) as (tr' & s' & HR' & HS & HRS). exists tr', s'. split; [exact HR'|]. split; [exact HS|].
  pose proof (rel_request m _ _ HRS) as HO. unfold crashes in *. rewrite HC in HO. unfold rout in HO.
  destruct (on_request o2 cfg m s') as (outs', [f'|([], s1')]); simpl in HO; destruct HO as (-> & HO); [subst; reflexivity|contradiction].
Qed.
End Generic.
End Env.
