(* When a sign of life arrives between two ticks does not matter (C70). *)
From Coq Require Import Lia.
From Verif Require Import Base Bytes Containers Worker Multi Single Queue Handler SpecText Spec SpecRun SpecMsg SpecLife
  Facts QueueInv Atoms HandlerSim Keeps Members Provenance Messages Pings Front.
Local Open Scope string_scope.
Local Open Scope list_scope.

(* s with other ping tables *)
Definition wp (L : table) (T : pmap Z) (s : state) : state := set_timers T (set_live L s).
Definition emps (E : list worker) (T : pmap Z) : pmap Z := fold_left (fun T w => pm_emplace w 0%Z T) E T.

Lemma wp_self s : wp (s_live s) (s_timers s) s = s.
Proof. destruct s. reflexivity. Qed.
Lemma emps_app E F T : emps (E ++ F) T = emps F (emps E T).
Proof. unfold emps. apply fold_left_app. Qed.

(* code that does not look at the ping tables and at most adds fresh timers *)
Definition moves {A} (c : M A) : Prop := forall s, exists E, forall L T,
  c (wp L T s) = (fst (c s), match snd (c s) with inl f => inl f | inr (a, s') => inr (a, wp L (emps E T) s') end).

Lemma moves_bind {A B} (m : M A) (k : A -> M B) : moves m -> (forall a, moves (k a)) -> moves (bind m k).
Proof.
  intros Hm Hk s. destruct (Hm s) as (E1 & H1). destruct (m s) as (o1, [f|(a, s1)]) eqn:Em; cbn [fst snd] in H1.
  - exists []. intros L T. unfold bind. rewrite H1, Em. reflexivity.
  - destruct (Hk a s1) as (E2 & H2). exists (E1 ++ E2). intros L T. unfold bind. rewrite H1, Em, H2.
    destruct (k a s1) as (o2, [f|(b, s2)]); cbn [fst snd]; rewrite ?emps_app; reflexivity.
Qed.
Lemma moves_get {A} (k : state -> M A) : (forall s L T, k (wp L T s) = k s) -> (forall s, moves (k s)) -> moves (bind get k).
Proof.
  intros Hk Hm s. destruct (Hm s s) as (E & H). exists E. intros L T. unfold bind, get. rewrite Hk, H.
  destruct (k s s) as (o1, [f|(a, s1)]); reflexivity.
Qed.
Lemma moves_ret {A} (a : A) : moves (ret a).
Proof. intros s. exists []. reflexivity. Qed.
Lemma moves_fail {A} e : moves (@fail A e).
Proof. intros s. exists []. reflexivity. Qed.
Lemma moves_respond m : moves (respond m).
Proof. intros s. exists []. reflexivity. Qed.
Lemma moves_lift {A} (x : res A) : moves (lift x).
Proof. destruct x; [apply moves_ret|apply moves_fail]. Qed.
Lemma moves_at v i : moves (at_ v i).
Proof. unfold at_. destruct (nth_error v i); [apply moves_ret|apply moves_fail]. Qed.
Lemma moves_modify g : (forall s L T, g (wp L T s) = wp L T (g s)) -> moves (modify g).
Proof. intros Hg s. exists []. intros L T. unfold modify. rewrite Hg. reflexivity. Qed.
Lemma moves_emplace w : moves (modify (fun s => set_timers (pm_emplace w 0%Z (s_timers s)) s)).
Proof. intros s. exists [w]. intros L T. reflexivity. Qed.
Lemma moves_queue_call {A} (g : manager -> res (A * manager)) : moves (queue_call g).
Proof. intros s. exists []. intros L T. unfold queue_call. cbn [wp set_timers set_live s_queue]. destruct (g (s_queue s)) as [(a, m)|f]; reflexivity. Qed.

Ltac moving :=
  repeat (intros; cbv zeta; lazymatch goal with
  | |- moves (bind get _) => apply moves_get; [intros; reflexivity|]
  | |- moves (bind _ _) => apply moves_bind
  | |- moves (ret _) => apply moves_ret
  | |- moves (fail _) => apply moves_fail
  | |- moves (respond _) => apply moves_respond
  | |- moves (lift _) => apply moves_lift
  | |- moves (at_ _ _) => apply moves_at
  | |- moves (modify (fun s => set_timers (pm_emplace _ _ _) _)) => apply moves_emplace
  | |- moves (modify _) => apply moves_modify; intros; reflexivity
  | |- moves (queue_call _) => apply moves_queue_call
  | |- moves (let '(_, _) := ?x in _) => destruct x
  | |- moves (match ?x with _ => _ end) => destruct x
  | |- moves _ => solve [auto]
  end).

(* the same state, but for the way the ping tables are written down *)
Record alike (s t : state) : Prop := {
  al_wp : t = wp (s_live t) (s_timers t) s;
  al_live : forall n, tbl_get n (s_live t) = tbl_get n (s_live s);
  al_timers : forall w, pm_find w (s_timers t) = pm_find w (s_timers s) }.

Lemma alike_refl s : alike s s.
Proof. constructor; auto. symmetry. apply wp_self. Qed.
Lemma alike_trans s t u : alike s t -> alike t u -> alike s u.
Proof.
  intros [A1 A2 A3] [B1 B2 B3]. constructor; [|congruence|congruence]. rewrite B1 at 1. rewrite A1 at 1. reflexivity.
Qed.
Lemma alike_knowledge s t : alike s t -> same_knowledge s t.
Proof.
  intros [A1 A2 A3]. split; [|intros w; split; [apply A2|apply A3]].
  unfold same_but_pings. rewrite A1. cbn [wp set_timers set_live s_reg s_queue s_fails s_stats s_frozen s_next_w s_next_r]. repeat split.
Qed.

Lemma emps_find E : forall T T', (forall w, pm_find w T = pm_find w T') -> forall w, pm_find w (emps E T) = pm_find w (emps E T').
Proof.
  induction E as [|x E IH]; intros T T' H w; [apply H|]. cbn [emps fold_left]. apply IH. intros u. rewrite !pm_find_emplaced, H. reflexivity.
Qed.
Lemma emps_set E : forall T x z w, pm_find w (emps E (pm_set x z T)) = pm_find w (pm_set x z (emps E T)).
Proof.
  induction E as [|y E IH]; intros T x z w; [reflexivity|]. cbn [emps fold_left].
  change (pm_find w (emps E (pm_emplace y 0%Z (pm_set x z T))) = pm_find w (pm_set x z (emps E (pm_emplace y 0%Z T)))).
  rewrite <- IH. apply emps_find. intros u. rewrite pm_find_emplaced, !pm_find_set, pm_find_emplaced. destruct (Nat.eqb _ _); reflexivity.
Qed.

Lemma moves_alike {A} (c : M A) s t outs a s' : moves c -> alike s t -> c s = (outs, inr (a, s')) ->
  exists t', c t = (outs, inr (a, t')) /\ alike s' t'.
Proof.
  intros Hc [A1 A2 A3] H. destruct (Hc s) as (E & HE). pose proof (HE (s_live s) (s_timers s)) as H0. rewrite wp_self, H in H0. cbn [fst snd] in H0.
  rewrite A1, HE, H. cbn [fst snd]. eexists. split; [reflexivity|].
  assert (E0 : s' = wp (s_live s) (emps E (s_timers s)) s') by congruence.
  constructor; cbn [wp set_timers set_live s_live s_timers]; [reflexivity|rewrite E0; exact A2|].
  rewrite E0. cbn [wp set_timers set_live s_timers]. apply emps_find. exact A3.
Qed.
Lemma moves_tables {A} (c : M A) s outs a s' : moves c -> c s = (outs, inr (a, s')) ->
  s_live s' = s_live s /\ exists E, s_timers s' = emps E (s_timers s).
Proof.
  intros Hc H. destruct (Hc s) as (E & HE). pose proof (HE (s_live s) (s_timers s)) as H0. rewrite wp_self, H in H0. cbn [fst snd] in H0.
  assert (E0 : s' = wp (s_live s) (emps E (s_timers s)) s') by congruence. rewrite E0. split; [reflexivity|exists E; reflexivity].
Qed.

Lemma bind_does {A B} (m : M A) (k : A -> M B) s o1 a s1 o2 r : m s = (o1, inr (a, s1)) -> k a s1 = (o2, r) -> bind m k s = (o1 ++ o2, r).
Proof. intros H1 H2. unfold bind. rewrite H1, H2. reflexivity. Qed.

Section WithConfig.
Context (o : oracle) (cfg : config).
Local Notation refresh := (refresh cfg).

Ltac loops := unfold check_failure_count, reassign_request, rejected_job, job_failed, job_done, notify_error, send_if,
  notify_monitor, send_request, failures_incr, stat_incr, stat_set; moving.

Lemma moves_requests rs : moves (expire_requests o cfg rs).
Proof. induction rs; cbn [expire_requests]; loops. Qed.
Lemma moves_reject d rs : moves (reject_all d rs).
Proof. induction rs; cbn [reject_all]; loops. Qed.
Lemma moves_workers ws : moves (expire_workers o cfg ws).
Proof. pose proof moves_requests. pose proof moves_reject. induction ws; cbn [expire_workers]; loops. Qed.
Lemma moves_idle ws : moves (count_idle ws).
Proof. induction ws; cbn [count_idle]; loops. Qed.
Lemma moves_done i d : moves (process_worker_done o cfg i d).
Proof. unfold process_worker_done. loops. Qed.
Lemma moves_init i d : moves (process_worker_init o i d).
Proof. unfold process_worker_init. loops. Qed.
Lemma moves_ping i d : moves (process_worker_ping i d).
Proof. unfold process_worker_ping. loops. Qed.
Lemma moves_progress i d : moves (process_worker_progress i d).
Proof. unfold process_worker_progress. loops. Qed.
Lemma moves_eval i d : moves (process_client_eval o i d).
Proof. unfold process_client_eval. loops. Qed.
Lemma moves_stats i d : moves (process_client_get_runtime_stats i d).
Proof. unfold process_client_get_runtime_stats. loops. Qed.
Lemma moves_freeze i d : moves (process_client_freeze i d).
Proof. unfold process_client_freeze. loops. Qed.
Lemma moves_unfreeze i d : moves (process_client_unfreeze i d).
Proof. unfold process_client_unfreeze. loops. Qed.
Lemma moves_worker_call c i d : moves (call_function (worker_commands o cfg) c i d).
Proof.
  pose proof moves_done. pose proof moves_init. pose proof moves_ping. pose proof moves_progress.
  unfold call_function, worker_commands. cbn [sm_find]. repeat (destruct (String.eqb _ c); [auto|]). apply moves_ret.
Qed.
Lemma moves_client_call c i d : moves (call_function (client_commands o) c i d).
Proof.
  pose proof moves_eval. pose proof moves_stats. pose proof moves_freeze. pose proof moves_unfreeze.
  unfold call_function, client_commands. cbn [sm_find]. repeat (destruct (String.eqb _ c); [auto|]). apply moves_ret.
Qed.

(* ticks only look entries up *)
Lemma scan_alike z ws : forall s t outs rm s', alike s t -> timer_scan cfg z ws s = (outs, inr (rm, s')) ->
  exists t', timer_scan cfg z ws t = (outs, inr (rm, t')) /\ alike s' t'.
Proof.
  induction ws as [|w ws IH]; intros s t outs rm s' HA H; cbn [timer_scan] in *.
  - minv1 H. exists t. split; [reflexivity|exact HA].
  - pose proof HA as [A1 A2 A3]. unfold bind at 1, get in H. unfold bind at 1, get. rewrite (A3 w), (A2 (w_id w)).
    set (old := match pm_find w (s_timers s) with Some z0 => z0 | None => 0%Z end) in *. cbv zeta in *.
    destruct (negb (in_i64 (old + z))); [discriminate|]. destruct (Z.ltb (c_ping_interval cfg) (old + z)).
    + set (l := size_pred (tbl_get (w_id w) (s_live s))) in *. unfold bind at 1 2, modify in H. unfold bind at 1 2, modify.
      cbn [set_live s_timers] in *.
      assert (HA' : alike (set_timers (pm_set w 0%Z (s_timers s)) (set_live (tbl_set (w_id w) l (s_live s)) s))
                          (set_timers (pm_set w 0%Z (s_timers t)) (set_live (tbl_set (w_id w) l (s_live t)) t))).
      { constructor; cbn [set_timers set_live s_live s_timers].
        - rewrite A1. reflexivity.
        - intros n. rewrite !tbl_get_set, A2. reflexivity.
        - intros u. rewrite !pm_find_set, A3. reflexivity. }
      unfold bind in H. unfold bind.
      destruct (timer_scan cfg z ws (set_timers (pm_set w 0%Z (s_timers s)) (set_live (tbl_set (w_id w) l (s_live s)) s))) as (o1, [f|(r1, s1)]) eqn:E1; [discriminate|].
      destruct (IH _ _ _ _ _ HA' E1) as (t1 & E2 & HA1). rewrite E2. unfold ret in *. cbn [app] in *.
      exists t1. split; [congruence|]. assert (s' = s1) as -> by congruence. exact HA1.
    + unfold bind at 1, modify in H. unfold bind at 1, modify.
      assert (HA' : alike (set_timers (pm_set w (old + z)%Z (s_timers s)) s) (set_timers (pm_set w (old + z)%Z (s_timers t)) t)).
      { constructor; cbn [set_timers s_live s_timers].
        - rewrite A1. reflexivity.
        - exact A2.
        - intros u. rewrite !pm_find_set, A3. reflexivity. }
      destruct (timer_scan cfg z ws (set_timers (pm_set w (old + z)%Z (s_timers s)) s)) as (o1, r1) eqn:E1. cbn [app] in H.
      destruct r1 as [f|(rm1, s1)]; [discriminate|]. destruct (IH _ _ _ _ _ HA' E1) as (t1 & E2 & HA1). rewrite E2. cbn [app].
      exists t1. split; [congruence|]. assert (s' = s1) as -> by congruence. exact HA1.
Qed.

Lemma timer_alike m s t outs s' : alike s t -> process_timer o cfg m s = (outs, inr (tt, s')) ->
  exists t', process_timer o cfg m t = (outs, inr (tt, t')) /\ alike s' t'.
Proof.
  intros HA H. unfold process_timer in *. destruct (m_data m) as [|x rest]; [discriminate|].
  destruct (stoll x) as [z|f]; [|discriminate].
  apply bind_inv in H. destruct H as (? & ? & s0 & ? & H1 & H & ->). apply lift_inv in H1. destruct H1 as (-> & [= <-] & ->).
  apply bind_inv in H. destruct H as (? & s1 & s2 & ? & H1 & H & ->). apply get_inv in H1. destruct H1 as (-> & -> & ->).
  apply bind_inv in H. destruct H as (? & rm & s3 & ? & H1 & H & ->).
  destruct (scan_alike _ _ _ _ _ _ _ HA H1) as (t3 & E3 & A3).
  match type of H with ?c s3 = _ => assert (HM : moves c) end.
  { pose proof moves_workers. pose proof moves_idle. loops. }
  destruct (moves_alike _ _ _ _ _ _ HM A3 H) as (t4 & E4 & A4). exists t4. split; [|exact A4].
  assert (Er : s_reg t = s_reg s) by (rewrite (al_wp _ _ HA); reflexivity).
  apply (bind_does (lift (Val z)) _ t [] z t); [reflexivity|]. apply (bind_does get _ t [] t t); [reflexivity|]. rewrite Er.
  exact (bind_does _ _ _ _ _ _ _ _ E3 E4).
Qed.

Lemma refresh_alike i s t : alike s t -> alike (refresh i s) (refresh i t).
Proof.
  intros HA. pose proof HA as [A1 A2 A3]. assert (Er : s_reg t = s_reg s) by (rewrite A1; reflexivity).
  unfold refresh. rewrite Er. destruct (find_worker_by_identity i (s_reg s)) as [w|]; [|exact HA].
  constructor; cbn [set_timers set_live s_live s_timers].
  - rewrite A1. reflexivity.
  - intros n. rewrite !tbl_get_set, A2. reflexivity.
  - intros u. rewrite !pm_find_set, A3. reflexivity.
Qed.

Theorem step_alike m s t outs s' : alike s t -> on_request o cfg m s = (outs, inr (tt, s')) ->
  exists t', on_request o cfg m t = (outs, inr (tt, t')) /\ alike s' t'.
Proof.
  intros HA H. rewrite on_request_eq in *. unfold on_request_cases in *.
  destruct (String.eqb (m_key m) "workers").
  { destruct (m_data m) as [|c rest]; [discriminate|]. eapply moves_alike; [apply moves_worker_call|apply refresh_alike; exact HA|exact H]. }
  destruct (String.eqb (m_key m) "clients").
  { destruct (m_data m) as [|c rest]; [discriminate|]. eapply moves_alike; [apply moves_client_call|exact HA|exact H]. }
  destruct (String.eqb (m_key m) "timer"); [eapply timer_alike; eassumption|]. minv1 H. exists t. auto.
Qed.

(* two signs of life *)
Lemma refresh_swap i j s : alike (refresh j (refresh i s)) (refresh i (refresh j s)).
Proof.
  unfold HandlerSim.refresh. destruct (find_worker_by_identity i (s_reg s)) as [wi|] eqn:Ei; destruct (find_worker_by_identity j (s_reg s)) as [wj|] eqn:Ej;
    cbn [set_timers set_live s_reg]; rewrite ?Ei, ?Ej; try apply alike_refl.
  constructor; cbn [set_timers set_live s_live s_timers].
  - reflexivity.
  - intros n. rewrite !tbl_get_set. destruct (Nat.eqb n (w_id wi)); destruct (Nat.eqb n (w_id wj)); reflexivity.
  - intros u. rewrite !pm_find_set. destruct (Nat.eqb (w_id wi) (w_id u)); destruct (Nat.eqb (w_id wj) (w_id u)); reflexivity.
Qed.

(* a sign of life of i moves past code that does not register i *)
Lemma cross (h : M unit) x om y i : moves h -> h (refresh i x) = (om, inr (tt, y)) ->
  (forall z, h x = (om, inr (tt, z)) -> find_worker_by_identity i (s_reg z) = find_worker_by_identity i (s_reg x)) ->
  exists z, h x = (om, inr (tt, z)) /\ alike y (refresh i z).
Proof.
  intros Hh H HF. destruct (find_worker_by_identity i (s_reg x)) as [w|] eqn:Ef.
  - destruct (Hh x) as (E & HE). unfold HandlerSim.refresh in H. rewrite Ef in H. cbn [s_timers] in H.
    change (set_timers ?T (set_live ?L x)) with (wp L T x) in H. rewrite HE in H.
    destruct (h x) as (o1, [f|([], z)]) eqn:Ex; cbn [fst snd] in H; [discriminate|]. exists z. assert (o1 = om) as -> by congruence. split; [reflexivity|].
    pose proof (HE (s_live x) (s_timers x)) as H0. rewrite wp_self, Ex in H0. cbn [fst snd] in H0.
    assert (E0 : z = wp (s_live x) (emps E (s_timers x)) z) by congruence.
    assert (Ey : y = wp (tbl_set (w_id w) (c_max_liveness cfg) (s_live x)) (emps E (pm_set w 0%Z (s_timers x))) z) by congruence.
    unfold HandlerSim.refresh. rewrite (HF z eq_refl). rewrite Ey.
    constructor; cbn [wp set_timers set_live s_live s_timers].
    + reflexivity.
    + intros n. rewrite !tbl_get_set, E0. reflexivity.
    + intros u. rewrite E0. cbn [wp set_timers set_live s_timers]. symmetry. apply emps_set.
  - unfold HandlerSim.refresh in H. rewrite Ef in H. exists y. split; [exact H|]. unfold HandlerSim.refresh. rewrite (HF y H). apply alike_refl.
Qed.

Lemma life_step p s op s1 : sign_of_life p -> on_request o cfg p s = (op, inr (tt, s1)) ->
  s1 = refresh (m_ident p) s /\
  forall t, find_worker_by_identity (m_ident p) (s_reg t) = find_worker_by_identity (m_ident p) (s_reg s) ->
    on_request o cfg p t = (op, inr (tt, refresh (m_ident p) t)).
Proof.
  intros (Ek & c & rest & Ed & N1 & N2) H. rewrite on_request_eq in H.
  assert (HE : forall t, on_request o cfg p t = call_function (worker_commands o cfg) c (m_ident p) (c :: rest) (refresh (m_ident p) t)).
  { intros t. rewrite on_request_eq. unfold on_request_cases. rewrite Ek, Ed. reflexivity. }
  unfold on_request_cases in H. rewrite Ek, Ed in H. cbn [String.eqb Ascii.eqb Bool.eqb] in H.
  unfold call_function, worker_commands in H, HE. cbn [sm_find] in H, HE.
  destruct (String.eqb_spec "init" c); [congruence|]. destruct (String.eqb_spec "done" c); [congruence|].
  destruct (String.eqb "ping" c).
  { unfold process_worker_ping in H, HE. unfold bind, get in H. rewrite refresh_reg in H.
    destruct (find_worker_by_identity (m_ident p) (s_reg s)) as [w|] eqn:Ef; unfold respond in H; cbn [app] in H;
      (split; [congruence|]); intros t Et; rewrite HE; unfold bind, get; rewrite refresh_reg, Et; unfold respond; cbn [app]; congruence. }
  destruct (String.eqb "progress" c).
  { unfold process_worker_progress, respond in *. split; [congruence|]. intros t _. rewrite HE. congruence. }
  unfold ret in *. split; [congruence|]. intros t _. rewrite HE. congruence.
Qed.

Lemma find_app_other i w ws : w_identity w <> i -> find_worker_by_identity i (ws ++ [w]) = find_worker_by_identity i ws.
Proof.
  intros Hn. induction ws as [|u ws IH]; cbn [app find_worker_by_identity].
  - rewrite (proj2 (String.eqb_neq _ _) Hn). reflexivity.
  - rewrite IH. reflexivity.
Qed.

Lemma worker_call_find c j d i s outs s' : call_function (worker_commands o cfg) c j d s = (outs, inr (tt, s')) ->
  (j = i -> c <> "init") -> find_worker_by_identity i (s_reg s') = find_worker_by_identity i (s_reg s).
Proof.
  intros H HN. destruct (String.eqb_spec c "init") as [->|Nc].
  - change (process_worker_init o j d s = (outs, inr (tt, s'))) in H. destruct (init_face _ _ _ _ _ _ H) as (_ & _ & HF).
    destruct (newcomer (o_addr o (s_next_w s)) j d (s_reg s) (s_next_w s)) as [w|] eqn:En; [|destruct HF as (-> & _); reflexivity].
    destruct HF as (-> & _). apply find_app_other. intros Ei. apply HN; [|reflexivity]. rewrite <- Ei. clear - En.
    unfold newcomer in En. destruct (Nat.ltb _ _); [discriminate|]. destruct (nth_error d 1); [|discriminate].
    destruct (parse_init_headers _ _) as (h, rest). destruct (match find_worker_by_identity j (s_reg s) with Some _ => _ | None => _ end); [discriminate|].
    destruct (make_worker _ _ _ _ _) as [w0|] eqn:Ew; [|discriminate]. injection En as <-.
    destruct (make_worker_fields _ _ _ _ _ _ Ew) as (_ & _ & W3 & _). cbn. congruence.
  - pose proof H as H0. unfold call_function, worker_commands in H. cbn [sm_find] in H.
    destruct (String.eqb_spec "init" c); [congruence|]. destruct (worker_pings _ _ _ _ _ _ _ _ H0) as (_ & [(_ & _ & ->)|(nw & W1 & W2 & W3 & W4)]); [reflexivity|].
    exfalso. assert (s_next_w s' = s_next_w s); [|lia].
    destruct (String.eqb "done" c); [pose proof (done_face _ _ _ _ _ _ _ _ H) as Ef; unfold face in Ef; congruence|].
    destruct (String.eqb "ping" c).
    { unfold process_worker_ping in H. minv1 H. minv1 Hm. destruct (find_worker_by_identity _ _); minv; reflexivity. }
    destruct (String.eqb "progress" c); [unfold process_worker_progress in H|]; minv; reflexivity.
Qed.

Theorem step_swap p m s op s1 om s2 : sign_of_life p -> passes (m_ident p) m ->
  on_request o cfg p s = (op, inr (tt, s1)) -> on_request o cfg m s1 = (om, inr (tt, s2)) ->
  exists t1 t2, on_request o cfg m s = (om, inr (tt, t1)) /\ on_request o cfg p t1 = (op, inr (tt, t2)) /\ alike s2 t2.
Proof.
  intros HP (HT & HI) H1 H2. destruct (life_step _ _ _ _ HP H1) as (-> & HL).
  assert (HG : exists t1, on_request o cfg m s = (om, inr (tt, t1)) /\
    find_worker_by_identity (m_ident p) (s_reg t1) = find_worker_by_identity (m_ident p) (s_reg s) /\ alike s2 (refresh (m_ident p) t1)).
  { rewrite on_request_eq in *. unfold on_request_cases in *. unfold is_command in HI.
    destruct (String.eqb (m_key m) "workers").
    { destruct (m_data m) as [|c rest]; [discriminate|].
      destruct (moves_alike _ _ _ _ _ _ (moves_worker_call _ _ _) (refresh_swap (m_ident p) (m_ident m) s) H2) as (y & Ey & Ay).
      assert (HF : forall z, call_function (worker_commands o cfg) c (m_ident m) (c :: rest) (refresh (m_ident m) s) = (om, inr (tt, z)) ->
        find_worker_by_identity (m_ident p) (s_reg z) = find_worker_by_identity (m_ident p) (s_reg (refresh (m_ident m) s))).
      { intros z Hz. eapply worker_call_find; [exact Hz|]. intros Ej Ec. specialize (HI Ej). subst c. discriminate. }
      destruct (cross _ _ _ _ _ (moves_worker_call _ _ _) Ey HF) as (z & Ez & Az). exists z. split; [exact Ez|].
      split; [rewrite (HF z Ez), refresh_reg; reflexivity|]. eapply alike_trans; eassumption. }
    destruct (String.eqb (m_key m) "clients").
    { destruct (m_data m) as [|c rest]; [discriminate|].
      assert (HF : forall z, call_function (client_commands o) c (m_ident m) (c :: rest) s = (om, inr (tt, z)) ->
        find_worker_by_identity (m_ident p) (s_reg z) = find_worker_by_identity (m_ident p) (s_reg s)).
      { intros z Hz. destruct (client_pings _ _ _ _ _ _ _ Hz) as (_ & _ & ->). reflexivity. }
      destruct (cross _ _ _ _ _ (moves_client_call _ _ _) H2 HF) as (z & Ez & Az). exists z. split; [exact Ez|]. split; [exact (HF z Ez)|exact Az]. }
    destruct (String.eqb_spec (m_key m) "timer"); [contradiction|]. minv1 H2. exists s. split; [reflexivity|]. split; [reflexivity|apply alike_refl]. }
  destruct HG as (t1 & G1 & G2 & G3). exists t1, (refresh (m_ident p) t1). split; [exact G1|]. split; [apply HL; exact G2|exact G3].
Qed.

(* a sign of life neither causes nor prevents that the next message is fatal *)
Lemma moves_crash (h : M unit) L T s outs f : moves h -> (h (wp L T s) = (outs, inl f) <-> h s = (outs, inl f)).
Proof.
  intros Hh. destruct (Hh s) as (E & HE). rewrite HE. destruct (h s) as (o1, [g|(a, s1)]); cbn [fst snd]; split; congruence.
Qed.
Lemma refresh_wp i j s : exists L T, refresh j (refresh i s) = wp L T (refresh j s).
Proof.
  unfold HandlerSim.refresh. destruct (find_worker_by_identity i (s_reg s)) as [wi|] eqn:Ei; destruct (find_worker_by_identity j (s_reg s)) as [wj|] eqn:Ej;
    cbn [set_timers set_live s_reg]; rewrite ?Ei, ?Ej.
  - eexists _, _. reflexivity.
  - eexists _, _. reflexivity.
  - exists (s_live (set_timers (pm_set wj 0%Z (s_timers s)) (set_live (tbl_set (w_id wj) (c_max_liveness cfg) (s_live s)) s))),
      (s_timers (set_timers (pm_set wj 0%Z (s_timers s)) (set_live (tbl_set (w_id wj) (c_max_liveness cfg) (s_live s)) s))). symmetry. apply wp_self.
  - exists (s_live s), (s_timers s). symmetry. apply wp_self.
Qed.
Lemma refresh_wp1 i s : exists L T, refresh i s = wp L T s.
Proof. unfold HandlerSim.refresh. destruct (find_worker_by_identity i (s_reg s)); [eexists _, _; reflexivity|]. exists (s_live s), (s_timers s). symmetry. apply wp_self. Qed.

Theorem crash_swap p m s op s1 outs f : sign_of_life p -> m_key m <> "timer" -> on_request o cfg p s = (op, inr (tt, s1)) ->
  (crashes o cfg s1 m outs f <-> crashes o cfg s m outs f).
Proof.
  intros HP HT H1. destruct (life_step _ _ _ _ HP H1) as (-> & _). unfold crashes. rewrite !on_request_eq. unfold on_request_cases.
  destruct (String.eqb (m_key m) "workers").
  { destruct (m_data m) as [|c rest]; [reflexivity|]. destruct (refresh_wp (m_ident p) (m_ident m) s) as (L & T & ->). apply moves_crash. apply moves_worker_call. }
  destruct (String.eqb (m_key m) "clients").
  { destruct (refresh_wp1 (m_ident p) s) as (L & T & ->). destruct (m_data m) as [|c rest]; [reflexivity|]. apply moves_crash. apply moves_client_call. }
  destruct (String.eqb_spec (m_key m) "timer"); [contradiction|]. unfold ret. split; discriminate.
Qed.

(* ---- histories ---- *)
Inductive steps : state -> list (msg * list msg) -> state -> Prop :=
| st_nil : forall s, steps s [] s
| st_cons : forall s m outs s1 l s', on_request o cfg m s = (outs, inr (tt, s1)) -> steps s1 l s' -> steps s ((m, outs) :: l) s'.

Lemma steps_snoc s l s1 m outs s' : steps s l s1 -> on_request o cfg m s1 = (outs, inr (tt, s')) -> steps s (l ++ [(m, outs)]) s'.
Proof. induction 1; intros Hs; cbn [app]; [econstructor; [exact Hs|constructor]|econstructor; eauto]. Qed.
Lemma steps_app s l1 s1 : steps s l1 s1 -> forall l2 s', steps s1 l2 s' -> steps s (l1 ++ l2) s'.
Proof. induction 1; intros l2 s2 H2; cbn [app]; [exact H2|econstructor; eauto]. Qed.
Lemma steps_split l1 : forall s l2 s', steps s (l1 ++ l2) s' -> exists s1, steps s l1 s1 /\ steps s1 l2 s'.
Proof.
  induction l1 as [|x l1 IH]; intros s l2 s' H; [exists s; split; [constructor|exact H]|]. cbn [app] in H. inversion H; subst.
  destruct (IH _ _ _ H5) as (s2 & A & B). exists s2. split; [econstructor; eassumption|exact B].
Qed.
Lemma run_steps k tr s : run o cfg k tr s -> steps (init_state (empty_manager k)) (map told tr) s.
Proof. induction 1; [constructor|]. rewrite map_app. cbn [map told ev_in ev_out]. eapply steps_snoc; eassumption. Qed.
Lemma steps_run k s l s' : steps s l s' -> forall tr, run o cfg k tr s -> exists tr', run o cfg k (tr ++ tr') s' /\ map told tr' = l.
Proof.
  induction 1 as [s|s m outs s1 l s' Hs _ IH]; intros tr HR; [exists []; rewrite app_nil_r; auto|].
  destruct (IH _ (run_snoc _ _ _ _ _ _ _ _ HR Hs)) as (tr' & H1 & H2). rewrite <- app_assoc in H1. eexists. split; [exact H1|]. cbn. rewrite H2. reflexivity.
Qed.
Lemma steps_alike s l s' : steps s l s' -> forall t, alike s t -> exists t', steps t l t' /\ alike s' t'.
Proof.
  induction 1 as [s|s m outs s1 l s' Hs _ IH]; intros t HA; [exists t; split; [constructor|exact HA]|].
  destruct (step_alike _ _ _ _ _ HA Hs) as (t1 & E1 & A1). destruct (IH _ A1) as (t' & E' & A'). exists t'. split; [econstructor; eassumption|exact A'].
Qed.
Lemma steps_swap p op l : sign_of_life p -> (forall x, In x l -> passes (m_ident p) (fst x)) -> forall s s',
  steps s ((p, op) :: l) s' -> exists t', steps s (l ++ [(p, op)]) t' /\ alike s' t'.
Proof.
  intros HP. induction l as [|(m, om) l IH]; intros HL s s' H; [exists s'; split; [exact H|apply alike_refl]|].
  inversion H as [|? ? ? s1 ? ? Hp Hr]; subst. inversion Hr as [|? ? ? s2 ? ? Hm Hr2]; subst.
  destruct (step_swap p m s op s1 om s2 HP (HL _ (or_introl eq_refl)) Hp Hm) as (t1 & t2 & E1 & E2 & A2).
  destruct (steps_alike _ _ _ Hr2 _ A2) as (t' & S' & A').
  destruct (IH (fun x Hx => HL x (or_intror Hx)) t1 t') as (u & Su & Au); [econstructor; eassumption|].
  exists u. split; [cbn [app]; econstructor; eassumption|]. eapply alike_trans; eassumption.
Qed.

Theorem run_swap k tr1 e tr2 tr3 s : run o cfg k (tr1 ++ e :: tr2 ++ tr3) s -> sign_of_life (ev_in e) ->
  (forall x, In x tr2 -> passes (m_ident (ev_in e)) (ev_in x)) ->
  exists tr' s', run o cfg k tr' s' /\ map told tr' = map told tr1 ++ map told tr2 ++ told e :: map told tr3 /\ same_knowledge s s'.
Proof.
  intros HR HP HL. apply run_steps in HR. rewrite map_app in HR. cbn [map] in HR. rewrite map_app in HR.
  apply steps_split in HR. destruct HR as (s1 & R1 & R2). rewrite app_comm_cons in R2. apply steps_split in R2. destruct R2 as (s2 & R2 & R3).
  destruct e as (pre, p, op, post). cbn [told ev_in ev_out] in *.
  destruct (steps_swap p op (map told tr2) HP) with (s := s1) (s' := s2) as (t2 & S2 & A2); [|exact R2|].
  { intros x Hx. apply in_map_iff in Hx. destruct Hx as (y & <- & Hy). exact (HL y Hy). }
  destruct (steps_alike _ _ _ R3 _ A2) as (t & S3 & A3).
  destruct (steps_run k _ _ _ (steps_app _ _ _ R1 _ _ (steps_app _ _ _ S2 _ _ S3)) [] (run_nil _ _ _)) as (tr' & T1 & T2).
  cbn [app] in T1. exists tr', t. split; [exact T1|]. split; [|apply alike_knowledge; exact A3].
  rewrite T2, <- app_assoc. reflexivity.
Qed.
End WithConfig.
