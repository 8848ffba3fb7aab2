(* The queue of the broker with one queue for all workers is the pool of SpecPool (C73). *)
From Coq Require Import Permutation Sorted Lia.
From Verif Require Import Base Bytes Containers Worker Multi Single Queue Handler SpecText Spec SpecRun SpecMsg SpecQueue SpecPings SpecOutcome SpecJoin SpecTick SpecFront SpecBook SpecLedger SpecPool
  Facts TextFacts QueueInv Atoms HandlerSim Keeps Conserve Provenance Members HeaderFacts OrderFacts QueueOrder Messages Pings Blind Outcome Joining Front Book LedgerFloor LedgerTick Ledger.
Local Open Scope string_scope.
Local Open Scope list_scope.

Definition prel (t : table) (x : task * Z) (e : entry) : Prop := krel t (fst x) (e_request e) /\ e_arrived e = snd x.

(* the workers of a map in the order of their addresses *)
Definition placed (o : oracle) (ws : list worker) : Prop :=
  StronglySorted (fun a b => ahead (o_addr o) (w_id a) (w_id b)) ws /\ Forall (fun w => w_addr w = o_addr o (w_id w)) ws.

Record hrel (o : oracle) (s : state) (H : hall) : Prop := mkHrel {
  hr_single : exists q, s_queue s = QSingle q /\ Forall2 (prel (s_fails s)) (h_pool H) (sq_jobs q) /\ h_read H = sq_clock q /\ placed o (keys (sq_worker_jobs q));
  hr_desks : Forall2 (drel s) (h_desks H) (s_reg s) }.

Lemma hrel_ext o s s' H : s_reg s' = s_reg s -> s_queue s' = s_queue s -> s_fails s' = s_fails s -> s_live s' = s_live s -> s_timers s' = s_timers s ->
  hrel o s H -> hrel o s' H.
Proof.
  intros E1 E2 E3 E4 E5 [H1 H2]. constructor; rewrite ?E1, ?E2, ?E3; auto.
  eapply Forall2_impl; [|exact H2]. intros d w. apply drel_fields; congruence.
Qed.

Lemma ahead_addr o a b : w_addr a = o_addr o (w_id a) -> w_addr b = o_addr o (w_id b) ->
  (if addr_lt a b then ahead (o_addr o) (w_id a) (w_id b) else ahead (o_addr o) (w_id b) (w_id a)).
Proof.
  intros Ea Eb. unfold addr_lt, ahead. rewrite Ea, Eb.
  destruct (N.ltb_spec (o_addr o (w_id a)) (o_addr o (w_id b))); cbn [orb]; [left; assumption|].
  destruct (N.eqb_spec (o_addr o (w_id a)) (o_addr o (w_id b))) as [E|E]; cbn [andb].
  - destruct (Nat.ltb_spec (w_id a) (w_id b)); right; split; (congruence || lia).
  - left. lia.
Qed.
Lemma ahead_trans rank a b c : ahead rank a b -> ahead rank b c -> ahead rank a c.
Proof. unfold ahead. intros [H1|(H1 & H2)] [H3|(H3 & H4)]; [left; lia|left; lia|left; lia|right; split; [congruence|lia]]. Qed.

Lemma placed_insert {A} o w (a : A) m : placed o (keys m) -> w_addr w = o_addr o (w_id w) -> placed o (keys (pm_insert w a m)).
Proof.
  intros (H1 & H2) Hw. induction m as [|(u, b) m IH]; cbn [pm_insert keys map fst] in *; [split; repeat constructor; exact Hw|].
  inversion H1 as [|? ? S1 S2]; subst. inversion H2 as [|? ? F1 F2]; subst. pose proof (ahead_addr o w u Hw F1) as HA. destruct (addr_lt w u).
  - split; [|constructor; [exact Hw|exact H2]]. constructor; [exact H1|]. constructor; [exact HA|]. eapply Forall_impl; [|exact S2]. intros v. apply ahead_trans. exact HA.
  - destruct (IH S1 F2) as (I1 & I2). split; [|constructor; assumption]. cbn [map]. constructor; [exact I1|].
    rewrite Forall_forall in S2 |- *. intros v Hv. eapply Permutation_in in Hv; [|apply keys_insert_perm]. destruct Hv as [<-|Hv]; [exact HA|apply S2; exact Hv].
Qed.
Lemma placed_erase {A} o w (m : pmap A) : placed o (keys m) -> placed o (keys (pm_erase w m)).
Proof.
  intros (H1 & H2). unfold pm_erase. induction m as [|(u, b) m IH]; cbn [filter keys map fst] in *; [split; constructor|].
  inversion H1 as [|? ? S1 S2]; subst. inversion H2 as [|? ? F1 F2]; subst. destruct (IH S1 F2) as (I1 & I2). destruct (same_worker u w); cbn [negb]; [split; assumption|].
  split; constructor; try assumption. rewrite Forall_forall in S2 |- *. intros v Hv. apply S2. apply in_map_iff in Hv. destruct Hv as (p & <- & Hp).
  apply in_map. apply filter_In in Hp. apply Hp.
Qed.

Lemma select_idle_first r m w : select_idle r m = Val (Some w) -> exists l1 l2, m = l1 ++ (w, None) :: l2 /\ capable w r /\
  forall u, In (u, None) l1 -> check_headers u (r_headers r) = Val false.
Proof.
  induction m as [|(u, [c|]) t IH]; cbn [select_idle]; intros H; [discriminate| |].
  - destruct (IH H) as (l1 & l2 & -> & Hc & Hn). exists ((u, Some c) :: l1), l2. split; [reflexivity|]. split; [exact Hc|]. intros v [E|Hv]; [discriminate|auto].
  - destruct (check_headers u (r_headers r)) as [b|f] eqn:Ec; cbn in H; [|discriminate]. destruct b.
    + injection H as ->. exists [], t. split; [reflexivity|]. split; [exact Ec|]. intros v [].
    + destruct (IH H) as (l1 & l2 & -> & Hc & Hn). exists ((u, None) :: l1), l2. split; [reflexivity|]. split; [exact Hc|]. intros v [E|Hv]; [congruence|auto].
Qed.

Lemma sorted_tail {A} (R : A -> A -> Prop) l1 x l2 : StronglySorted R (l1 ++ x :: l2) -> forall y, In y l2 -> R x y.
Proof.
  induction l1 as [|a t IH]; cbn [app]; intros H y Hy; inversion H as [|? ? H1 H2]; subst.
  - rewrite Forall_forall in H2. auto.
  - exact (IH H1 y Hy).
Qed.

Lemma can_serves s1 t d k w r : rel s1 (d_guest d) w -> krel t k r -> r_complete r = true -> (capable w r <-> can d k).
Proof. intros Hr HK Hc. unfold can, capable. eapply provides_serves; [exact Hr|]. apply (kr_need _ _ _ HK Hc). Qed.

Lemma desk_worker s ds ws d : Forall2 (drel s) ds ws -> In d ds -> exists w, In w ws /\ drel s d w.
Proof. induction 1 as [|d' w ds ws H _ IH]; [intros []|]. intros [->|Hd]; [exists w; split; [left; reflexivity|exact H]|]. destruct (IH Hd) as (e & ? & ?). exists e. split; [right; assumption|assumption]. Qed.
Lemma worker_desk s ds ws w : Forall2 (drel s) ds ws -> In w ws -> exists d, In d ds /\ drel s d w.
Proof. induction 1 as [|d w' ds ws H _ IH]; [intros []|]. intros [->|Hw]; [exists d; split; [left; reflexivity|exact H]|]. destruct (IH Hw) as (e & ? & ?). exists e. split; [right; assumption|assumption]. Qed.

Lemma Forall2_swap {A B} (R : A -> B -> Prop) l l' : Forall2 R l l' -> Forall2 (fun b a => R a b) l' l.
Proof. induction 1; constructor; auto. Qed.

Lemma pool_perm t pool jobs jobs' : Forall2 (prel t) pool jobs -> Permutation jobs jobs' -> exists pool', Permutation pool pool' /\ Forall2 (prel t) pool' jobs'.
Proof.
  intros HF HP. apply Forall2_swap in HF. destruct (Permutation_Forall2 HP HF) as (pool' & P1 & P2). exists pool'. split; [exact P1|]. apply Forall2_swap in P2. exact P2.
Qed.
Lemma pool_in t pool jobs x : Forall2 (prel t) pool jobs -> In x pool -> exists e, In e jobs /\ prel t x e.
Proof. induction 1 as [|y e pool jobs H _ IH]; [intros []|]. intros [->|Hx]; [exists e; split; [left; reflexivity|exact H]|]. destruct (IH Hx) as (e' & ? & ?). exists e'. split; [right; assumption|assumption]. Qed.

Lemma sift_sim s t ds ws pool l : Forall2 (drel s) ds ws -> Forall2 (prel t) pool l -> (forall e, In e l -> r_complete (e_request e) = true) ->
  forall kept gone, split_jobs ws l = Val (kept, gone) ->
  exists kept' gone', sift ds pool kept' gone' /\ Forall2 (prel t) kept' kept /\ Forall2 (krel t) gone' gone.
Proof.
  intros HD HP. induction HP as [|(k, z) e pool l (H1 & H2) _ IH]; cbn [split_jobs]; intros HC kept gone E.
  - injection E as <- <-. exists [], []. split; [constructor|]. split; constructor.
  - cbn [fst snd] in *. destruct (assignable (e_request e) ws) as [b|f] eqn:Ea; cbn in E; [|discriminate].
    destruct (split_jobs ws l) as [(kp, gn)|f] eqn:Es; cbn in E; [|discriminate].
    destruct (IH (fun e' He' => HC e' (or_intror He')) _ _ eq_refl) as (kept' & gone' & S1 & S2 & S3). apply assignable_spec in Ea.
    pose proof (HC e (or_introl eq_refl)) as Hce. destruct b; injection E as <- <-.
    + destruct Ea as (w & Hw & Hcap). destruct (worker_desk _ _ _ _ HD Hw) as (d & Hd & Hr).
      exists ((k, z) :: kept'), gone'. split; [|split; [constructor; [split; assumption|exact S2]|exact S3]].
      eapply sf_keep; [exact Hd| |exact S1]. apply (can_serves _ _ _ _ _ _ (dr_guest _ _ _ Hr) H1 Hce). exact Hcap.
    + exists kept', (k :: gone'). split; [|split; [exact S2|constructor; assumption]]. apply sf_drop; [|exact S1].
      intros d Hd Hcan. destruct (desk_worker _ _ _ _ HD Hd) as (w & Hw & Hr). apply (can_serves _ _ _ _ _ _ (dr_guest _ _ _ Hr) H1 Hce) in Hcan.
      unfold capable in Hcan. rewrite (Ea w Hw) in Hcan. discriminate.
Qed.

Section WithConfig.
Context (o : oracle) (cfg : config).

(* the desks after the current request of one worker has been replaced *)
Lemma desks_set s ds w x q jobs cl so r : Forall2 (drel s) ds (s_reg s) -> s_queue s = QSingle q -> may_be (krel (s_fails s)) x r ->
  Forall2 (drel (set_queue (QSingle (mkSingle jobs (pm_set w r (sq_worker_jobs q)) (sq_workers q) cl so)) s)) (change (w_id w) (has x) ds) (s_reg s).
Proof.
  intros HD Eq HK. apply (drel_change s); [exact HD| |].
  - intros e u Hu He Eu. destruct He as [E1 E2 E3 E4]. constructor; cbn [set_queue s_queue s_fails has d_key d_guest d_now d_line].
    + exact E1.
    + eapply rel_pings; [| |exact E2]; reflexivity.
    + unfold current_of. cbn [current_map sq_worker_jobs]. rewrite pm_find_set, Eu, Nat.eqb_refl. destruct r; exact HK.
    + rewrite Eq in E4. exact E4.
  - intros e u Hu He Eu. eapply drel_fields; [| | | | |exact He]; try reflexivity; cbn [set_queue s_queue]; rewrite Eq; [|reflexivity].
    unfold current_of. cbn [current_map sq_worker_jobs]. rewrite pm_find_set. destruct (Nat.eqb_spec (w_id w) (w_id u)); [congruence|reflexivity].
Qed.

(* ---- placing a request ---- *)
Lemma join_sim s H r k x m' : qinv (s_queue s) (s_reg s) -> hrel o s H -> krel (s_fails s) k r -> r_complete r = true ->
  q_enqueue_request o r (s_queue s) = Val (x, m') ->
  exists H', join (o_addr o) (o_clock o) H k (enqueued x) (match assigned_to x with Some w => [Msg "workers" (w_identity w) (r_frames r)] | None => [] end) H' /\
    hrel o (set_queue m' s) H'.
Proof.
  intros HQ [(q & Eq & HP & HCl & HPl) HD] HK Hc E. rewrite Eq in *. pose proof (qi_nodup _ _ HQ) as Hnd.
  destruct (qi_impl _ _ HQ) as [S1 S2 S3 S4]. cbn [q_enqueue_request] in E.
  destruct (single_enqueue o r q) as [(y, q')|] eqn:Em; [|discriminate]. cbn in E. injection E as <- <-. cbn [fst snd] in *.
  destruct H as (ds, pool, n). cbn [h_desks h_pool h_read] in *. unfold single_enqueue in Em.
  assert (HC : forall d w, drel s d w -> (capable w r <-> can d k)) by (intros d w Hd; exact (can_serves _ _ _ _ _ _ (dr_guest _ _ _ Hd) HK Hc)).
  assert (HI : forall d w, In w (s_reg s) -> drel s d w -> d_now d = None -> In (w, None) (sq_worker_jobs q)).
  { intros d w Hw Hd Hn. destruct (index_known None _ w _ Hnd S2 Hw) as (a & Ef & _). pose proof (dr_now _ _ _ Hd) as HN. rewrite Hn, Eq in HN.
    unfold current_of in HN. cbn [current_map] in HN. rewrite Ef in HN. destruct a; [inversion HN|]. apply pm_find_some_in in Ef. destruct Ef as (w' & Hi & Ei).
    assert (In w' (s_reg s)). { eapply Permutation_in; [exact S2|]. apply in_map_iff. exists (w', None). auto. }
    assert (w' = w) as ->; [|exact Hi]. apply (ids_inj (s_reg s)); auto. }
  destruct (select_idle r (sq_worker_jobs q)) as [[w|]|f] eqn:Es; cbn in Em; [| |discriminate].
  - injection Em as <- <-. destruct (select_idle_first _ _ _ Es) as (l1 & l2 & El & Hcap & Hfst). cbn [enqueued assigned_to].
    assert (Hin : In (w, None) (sq_worker_jobs q)) by (rewrite El; apply in_or_app; right; left; reflexivity).
    assert (Hw : In w (s_reg s)). { eapply Permutation_in; [exact S2|]. apply in_map_iff. exists (w, None). auto. }
    destruct (worker_desk _ _ _ _ HD Hw) as (d & Hd & Hr).
    assert (Hn : d_now d = None).
    { pose proof (dr_now _ _ _ Hr) as HN. rewrite Eq in HN. unfold current_of in HN. cbn [current_map] in HN.
      destruct (index_known None _ w _ Hnd S2 Hw) as (a & Ef & _). rewrite Ef in HN.
      assert (a = None) as ->; [|inversion HN; reflexivity]. apply pm_find_some_in in Ef. destruct Ef as (w' & Hi & Ei).
      assert (Hk : NoDup (ids (keys (sq_worker_jobs q)))) by (eapply Permutation_NoDup; [symmetry; apply ids_perm; exact S2|exact Hnd]).
      clear - Hi Hin Ei Hk. induction (sq_worker_jobs q) as [|(u, b) l IH]; [contradiction|]. cbn [keys ids map fst] in Hk. inversion Hk as [|? ? Hni Hk']; subst.
      assert (HX : forall (v : worker) (c : option request), In (v, c) l -> In (w_id v) (map w_id (map fst l))).
      { intros v c Hv. apply in_map. apply in_map_iff. exists (v, c). auto. }
      destruct Hi as [Ea|Hi]; destruct Hin as [Eb|Hin].
      - congruence.
      - injection Ea as -> ->. exfalso. apply Hni. unfold keys. rewrite Ei. eapply HX. exact Hin.
      - injection Eb as -> ->. exfalso. apply Hni. unfold keys. rewrite <- Ei. eapply HX. exact Hi.
      - exact (IH Hin Hi Hk'). }
    exists (Hall (change (w_id w) (has (Some k)) ds) pool n). split.
    + assert (Eh : Msg "workers" (w_identity w) (r_frames r) = hand d k).
      { unfold hand. rewrite (drel_name _ _ _ Hr), (kr_text _ _ _ HK Hc). reflexivity. }
      rewrite Eh, <- (dr_key _ _ _ Hr). apply jn_now; [exact Hd|exact Hn|apply (HC _ _ Hr); exact Hcap|].
      intros e He Hne Hce. destruct (desk_worker _ _ _ _ HD He) as (u & Hu & Hru). rewrite (dr_key _ _ _ Hr), (dr_key _ _ _ Hru).
      apply (HC _ _ Hru) in Hce. pose proof (HI _ _ Hu Hru Hne) as Hiu. rewrite El in Hiu. apply in_app_or in Hiu. destruct Hiu as [Hiu|[E|Hiu]].
      * unfold capable in Hce. rewrite (Hfst _ Hiu) in Hce. discriminate.
      * injection E as ->. right. split; [reflexivity|lia].
      * destruct HPl as (HPl & _). rewrite El in HPl. unfold keys in HPl. rewrite map_app in HPl. cbn [map fst] in HPl.
        apply (sorted_tail _ _ _ _ HPl). apply in_map_iff. exists (u, None). auto.
    + constructor; cbn [set_queue s_queue s_reg s_fails h_desks h_pool h_read].
      { eexists. split; [reflexivity|]. cbn [sq_jobs sq_clock sq_worker_jobs]. rewrite (keys_set (s_reg s)) by assumption. auto. }
      apply desks_set; [exact HD|exact Eq|constructor; exact HK].
  - apply select_idle_spec in Es. assert (Hno : forall e, In e ds -> d_now e = None -> ~ can e k).
    { intros e He Hn Hca. destruct (desk_worker _ _ _ _ HD He) as (u & Hu & Hr). apply (HC _ _ Hr) in Hca. unfold capable in Hca.
      rewrite (Es u (HI _ _ Hu Hr Hn)) in Hca. discriminate. }
    destruct (assignable r (sq_workers q)) as [b|f] eqn:Ea; cbn in Em; [|discriminate]. apply assignable_spec in Ea. rewrite S1 in Ea.
    destruct b; injection Em as <- <-; cbn [enqueued assigned_to].
    + destruct Ea as (w & Hw & Hcap). destruct (worker_desk _ _ _ _ HD Hw) as (d & Hd & Hr).
      exists (Hall ds (pool ++ [(k, o_clock o n)]) (S n)). split; [eapply jn_wait; [exact Hno|exact Hd|apply (HC _ _ Hr); exact Hcap]|].
      constructor; cbn [set_queue s_queue s_reg s_fails h_desks h_pool h_read].
      * eexists. split; [reflexivity|]. cbn [sq_jobs sq_clock sq_worker_jobs]. split; [|split; [congruence|exact HPl]].
        apply Forall2_app; [exact HP|]. constructor; [split; [exact HK|cbn; congruence]|constructor].
      * eapply Forall2_impl; [|exact HD]. intros e u He. eapply drel_fields; [| | | | |exact He]; try reflexivity; cbn [set_queue s_queue]; rewrite Eq; reflexivity.
    + exists (Hall ds pool n). split.
      * apply jn_nobody. intros d Hd Hca. destruct (desk_worker _ _ _ _ HD Hd) as (u & Hu & Hr). apply (HC _ _ Hr) in Hca. unfold capable in Hca.
        rewrite (Ea u Hu) in Hca. discriminate.
      * rewrite <- Eq, set_queue_id. constructor; [exists q; auto|exact HD].
Qed.

(* ---- giving up the current request, taking the next one ---- *)
Lemma pool_cancel s ds pool n w x m' : qinv (s_queue s) (s_reg s) -> hrel o s (Hall ds pool n) -> In w (s_reg s) ->
  q_worker_cancelled w (s_queue s) = Val (x, m') -> hrel o (set_queue m' s) (Hall (change (w_id w) (has None) ds) pool n).
Proof.
  intros HQ [(q & Eq & HP & HCl & HPl) HD] Hin E. rewrite Eq in *. pose proof (qi_nodup _ _ HQ) as Hnd.
  destruct (qi_impl _ _ HQ) as [S1 S2 S3 S4]. cbn [q_worker_cancelled] in E. unfold single_worker_cancelled in E.
  destruct (index_known None _ w _ Hnd S2 Hin) as (cur & Ef & Ei). rewrite Ei in E. cbn in E. injection E as <- <-.
  constructor; cbn [set_queue s_queue s_reg s_fails h_desks h_pool h_read] in *.
  { eexists. split; [reflexivity|]. cbn [sq_jobs sq_clock sq_worker_jobs]. rewrite (keys_set (s_reg s)) by assumption. auto. }
  apply desks_set; [exact HD|exact Eq|constructor].
Qed.

Lemma prel_sorted t pool jobs : Forall2 (prel t) pool jobs -> StronglySorted arrived_le jobs -> by_time pool.
Proof.
  induction 1 as [|x e pool jobs (H1 & H2) HF IH]; intros HS; [constructor|]. inversion HS as [|? ? S1 S2]; subst. constructor; [exact (IH S1)|].
  rewrite Forall_forall in S2 |- *. intros y Hy. destruct (pool_in _ _ _ _ HF Hy) as (e' & He' & (_ & E)). pose proof (S2 _ He') as Hle. unfold arrived_le in Hle. congruence.
Qed.

(* the sort that comes next puts the queue in an order the pool may be put in *)
Definition arranging (arranged : list (task * Z) -> list (task * Z) -> Prop) (m : manager) : Prop :=
  forall q, m = QSingle q -> forall t pool, Forall2 (prel t) pool (sq_jobs q) ->
  exists order, arranged pool order /\ Forall2 (prel t) order (sort_entries (o_tie o (sq_sorts q)) (sq_jobs q)).
Lemma arranging_in_time m : arranging in_time m.
Proof.
  intros q _ t pool HP. pose proof (sort_entries_perm (o_tie o (sq_sorts q)) (sq_jobs q)) as HPj. pose proof (sort_sorted (o_tie o (sq_sorts q)) (sq_jobs q)) as HS.
  destruct (pool_perm _ _ _ _ HP (Permutation_sym HPj)) as (order & P1 & P2). exists order. split; [split; [exact P1|exact (prel_sorted _ _ _ P2 HS)]|exact P2].
Qed.
Lemma arranging_ext arranged m m' : (forall q', m' = QSingle q' -> exists q, m = QSingle q /\ sq_jobs q' = sq_jobs q /\ sq_sorts q' = sq_sorts q) ->
  arranging arranged m -> arranging arranged m'.
Proof. intros HE HA q' E t pool HP. destruct (HE q' E) as (q & -> & E1 & E2). rewrite E1, E2 in *. exact (HA q eq_refl t pool HP). Qed.
Lemma arranging_cancelled arranged w m x m' : q_worker_cancelled w m = Val (x, m') -> arranging arranged m -> arranging arranged m'.
Proof.
  intros E. apply arranging_ext. intros q' ->. destruct m as [q|q]; cbn [q_worker_cancelled] in E.
  - exists q. unfold lift_single, single_worker_cancelled in E. destruct (pm_index _ _ _) as (c, wj). cbn in E. injection E as <- <-. split; [reflexivity|]. split; reflexivity.
  - exfalso. unfold lift_multi in E. destruct (multi_worker_cancelled w q) as (c, q9). discriminate.
Qed.

Lemma pool_take arranged s s1 d ds pool n w x m' : arranging arranged (s_queue s) -> qinv (s_queue s) (s_reg s) -> hrel o s (Hall (change (w_id w) (has None) ds) pool n) -> In w (s_reg s) ->
  d_key d = w_id w -> rel s1 (d_guest d) w ->
  q_assign_request o w (s_queue s) = Val (x, m') ->
  exists H', takes arranged d (Hall ds pool n) (match x with Some r => [Msg "workers" (w_identity w) (r_frames r)] | None => [] end) H' /\ hrel o (set_queue m' s) H'.
Proof.
  intros HArr HQ [(q & Eq & HP & HCl & HPl) HD] Hin Hk Hr E. rewrite Eq in *. pose proof (qi_nodup _ _ HQ) as Hnd. cbn [h_desks h_pool h_read] in *.
  destruct (qi_impl _ _ HQ) as [S1 S2 S3 S4]. cbn [q_assign_request] in E.
  destruct (single_assign o w q) as [(y, q')|f] eqn:Ea; cbn in E; [|discriminate]. injection E as <- <-.
  assert (Hcc : forall x0, change (w_id w) (has x0) (change (w_id w) (has None) ds) = change (w_id w) (has x0) ds) by (intros x0; rewrite change_change by reflexivity; reflexivity).
  unfold single_assign in Ea. pose proof (sort_entries_perm (o_tie o (sq_sorts q)) (sq_jobs q)) as HPj. destruct (HArr q eq_refl _ _ HP) as (order & P1 & P2).
  set (jobs := sort_entries _ _) in *. destruct (take_first w jobs) as [z|f] eqn:Et; cbn in Ea; [|discriminate]. apply take_first_spec in Et.
  assert (HX : forall x e, In e jobs -> prel (s_fails s) x e -> (capable w (e_request e) <-> can d (fst x))).
  { intros x0 e He (E1 & E2). apply (can_serves _ _ _ _ _ _ Hr E1). apply S3. eapply Permutation_in; [exact HPj|exact He]. }
  destruct z as [(r, rest)|]; injection Ea as <- <-.
  - destruct Et as (l1 & e & l2 & Ej & -> & <- & Hcap & Hno). rewrite Ej in P2. apply Forall2_app_inv_r in P2. destruct P2 as (before & tl & B1 & B2 & ->).
    inversion B2 as [|(k, t) e0 after l0 (K1 & K2) B3]; subst. cbn [fst snd] in K1, K2.
    assert (Hine : In e jobs) by (rewrite Ej; apply in_or_app; right; left; reflexivity).
    exists (Hall (change (w_id w) (has (Some k)) ds) (before ++ after) (sq_clock q)). split.
    + assert (Eh : Msg "workers" (w_identity w) (r_frames (e_request e)) = hand d k).
      { unfold hand, name_of. rewrite (rl_name _ _ _ Hr), (kr_text _ _ _ K1); [reflexivity|]. apply S3. eapply Permutation_in; [exact HPj|exact Hine]. }
      rewrite Eh, <- Hk. eapply tk_some; [exact P1| |].
      * intros x0 Hx Hc. destruct (pool_in _ _ _ _ B1 Hx) as (e' & He' & Hp'). apply (HX x0 e') in Hc; [|rewrite Ej; apply in_or_app; left; exact He'|exact Hp'].
        unfold capable in Hc. rewrite (Hno _ He') in Hc. discriminate.
      * apply (HX (k, t) e Hine); [split; [exact K1|exact K2]|exact Hcap].
    + constructor; cbn [set_queue s_queue s_reg s_fails h_desks h_pool h_read].
      { eexists. split; [reflexivity|]. cbn [sq_jobs sq_clock sq_worker_jobs]. rewrite (pm_set_set (s_reg s)), (keys_set (s_reg s)) by assumption.
        split; [apply Forall2_app; assumption|auto]. }
      rewrite <- Hcc, (pm_set_set (s_reg s)) by assumption. apply desks_set; [exact HD|exact Eq|constructor; exact K1].
  - exists (Hall (change (w_id w) (has None) ds) order n). split.
    + rewrite <- Hk. apply tk_none; [exact P1|]. intros x0 Hx Hc. destruct (pool_in _ _ _ _ P2 Hx) as (e' & He' & Hp').
      apply (HX x0 e' He' Hp') in Hc. unfold capable in Hc. rewrite (Et _ He') in Hc. discriminate.
    + constructor; cbn [set_queue s_queue s_reg s_fails h_desks h_pool h_read].
      { eexists. split; [reflexivity|]. cbn [sq_jobs sq_clock sq_worker_jobs]. rewrite (keys_set (s_reg s)) by assumption. auto. }
      rewrite <- Hcc. apply desks_set; [exact HD|exact Eq|constructor].
Qed.

(* ---- counting a failed attempt ---- *)
Lemma pool_incr s r H h : qinv (s_queue s) (s_reg s) -> NoDup (map r_id (held (s_queue s) ++ r :: h)) -> hrel o s H -> hrel o (incr_fails r s) H.
Proof.
  intros HQ Hnd [(q & Eq & HP & HCl & HPl) HD].
  assert (HA : forall r', In r' (held (s_queue s)) -> r_id r' <> r_id r).
  { intros r' Hr' E. rewrite map_app in Hnd. cbn [map] in Hnd. apply NoDup_remove_2 in Hnd. apply Hnd. apply in_or_app. left. rewrite <- E. apply in_map. exact Hr'. }
  constructor.
  - exists q. split; [exact Eq|]. split; [|auto].
    assert (HJ : forall e, In e (sq_jobs q) -> r_id (e_request e) <> r_id r).
    { intros e He. apply HA. rewrite Eq. unfold held. apply in_or_app. right. cbn [queued]. apply in_map. exact He. }
    clear - HP HJ. induction HP as [|x e pool jobs (H1 & H2) _ IH]; constructor.
    + split; [|exact H2]. apply krel_incr; [apply HJ; left; reflexivity|exact H1].
    + apply IH. intros e' He'. apply HJ. right. exact He'.
  - assert (HG : forall ds ws, incl ws (s_reg s) -> Forall2 (drel s) ds ws -> Forall2 (drel (incr_fails r s)) ds ws).
    { intros ds ws Hi HH. induction HH as [|d w ds ws Hr _ IH]; constructor.
      - destruct Hr as [H1 H2 H3 H4]. constructor; [exact H1|eapply rel_pings; [| |exact H2]; reflexivity| |]; cbn [incr_fails s_queue set_fails].
        + inversion H3 as [E1 E2|k r' HK E1 E2]; constructor. apply krel_incr; [|exact HK]. apply HA.
          eapply in_held_current; [exact HQ| |symmetry; exact E2]. apply Hi. left. reflexivity.
        + rewrite Eq in *. cbn [own_queue] in *. inversion H4. constructor.
      - apply IH. intros u Hu. apply Hi. right. exact Hu. }
    apply HG; [apply incl_refl|exact HD].
Qed.
End WithConfig.
