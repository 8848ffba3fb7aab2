(* The registry, the ping bookkeeping and the answers to clients do not depend on the queue manager (C68). *)
From Coq Require Import Permutation Lia.
From Verif Require Import Base Bytes Containers Worker Multi Single Queue Handler SpecText Spec SpecRun SpecMsg SpecQueue SpecFront
  Facts QueueInv Atoms HandlerSim Keeps Conserve Provenance Members Messages Pings Blind.
Local Open Scope string_scope.
Local Open Scope list_scope.

(* a worker without its address *)
Definition bare (w : worker) : worker := mkWorker (w_id w) 0 (w_identity w) (w_description w) (w_hwgroup w) (w_headers_copy w) (w_headers w).
Definition bares (ws : list worker) : list worker := map bare ws.

Record front (s t : state) : Prop := {
  fr_reg : bares (s_reg s) = bares (s_reg t);
  fr_live : forall n, tbl_get n (s_live s) = tbl_get n (s_live t);
  fr_timers : forall w w', w_id w = w_id w' -> pm_find w (s_timers s) = pm_find w' (s_timers t);
  fr_frozen : s_frozen s = s_frozen t;
  fr_next : s_next_w s = s_next_w t }.

Lemma bare_id w w' : bare w = bare w' -> w_id w = w_id w'.
Proof. unfold bare. congruence. Qed.
Lemma bare_identity w w' : bare w = bare w' -> w_identity w = w_identity w'.
Proof. unfold bare. congruence. Qed.
Lemma bare_check w w' h : bare w = bare w' -> check_headers w h = check_headers w' h.
Proof.
  intros E. induction h as [|(k, v) h IH]; [reflexivity|]. cbn [check_headers]. rewrite IH. unfold check_header.
  assert (w_headers w = w_headers w') as -> by (unfold bare in E; congruence). reflexivity.
Qed.

Lemma bares_find i ws ws' : bares ws = bares ws' ->
  match find_worker_by_identity i ws, find_worker_by_identity i ws' with
  | Some w, Some w' => bare w = bare w' | None, None => True | _, _ => False end.
Proof.
  revert ws'. induction ws as [|w ws IH]; intros [|w' ws'] E; try discriminate; [exact I|]. unfold bares in E; cbn [map] in E.
  assert (E1 : bare w = bare w') by congruence. assert (E2 : bares ws = bares ws') by (unfold bares; congruence).
  cbn [find_worker_by_identity]. rewrite (bare_identity _ _ E1). destruct (String.eqb (w_identity w') i); [exact E1|apply IH; exact E2].
Qed.
Lemma bares_remove w w' ws ws' : bare w = bare w' -> bares ws = bares ws' -> bares (reg_remove w ws) = bares (reg_remove w' ws').
Proof.
  intros Ew. revert ws'. induction ws as [|u ws IH]; intros [|u' ws'] E; try discriminate; [reflexivity|]. unfold bares in E; cbn [map] in E.
  assert (E1 : bare u = bare u') by congruence. assert (E2 : bares ws = bares ws') by (unfold bares; congruence).
  cbn [reg_remove]. unfold same_worker. rewrite (bare_id _ _ E1), (bare_id _ _ Ew). destruct (Nat.eqb (w_id u') (w_id w')); [exact E2|].
  unfold bares in *. cbn [map]. rewrite E1, (IH _ E2). reflexivity.
Qed.

Definition serves (h : mmap string) (w : worker) : bool := match check_headers w h with Val true => true | _ => false end.
Lemma bares_serves h ws ws' : bares ws = bares ws' -> existsb (serves h) ws = existsb (serves h) ws'.
Proof.
  revert ws'. induction ws as [|u ws IH]; intros [|u' ws'] E; try discriminate; [reflexivity|]. unfold bares in E; cbn [map] in E.
  assert (E1 : bare u = bare u') by congruence. assert (E2 : bares ws = bares ws') by (unfold bares; congruence).
  cbn [existsb]. unfold serves at 1 3. rewrite (bare_check _ _ h E1), (IH _ E2). reflexivity.
Qed.

(* ---- the effect of the single handlers ---- *)
Definition face (s : state) := (s_reg s, s_live s, s_timers s, s_frozen s, s_next_w s).

Lemma front_face s t s' t' : front s t -> face s' = face s -> face t' = face t -> front s' t'.
Proof.
  intros [H1 H2 H3 H4 H5] E F. unfold face in *. injection E as E1 E2 E3 E4 E5. injection F as F1 F2 F3 F4 F5.
  constructor; rewrite ?E1, ?E2, ?E3, ?E4, ?E5, ?F1, ?F2, ?F3, ?F4, ?F5; assumption.
Qed.

Lemma front_refresh c d i s t : c_max_liveness c = c_max_liveness d -> front s t -> front (refresh c i s) (refresh d i t).
Proof.
  intros Ec [H1 H2 H3 H4 H5]. pose proof (bares_find i _ _ H1) as HF. unfold refresh.
  destruct (find_worker_by_identity i (s_reg s)) as [w|]; destruct (find_worker_by_identity i (s_reg t)) as [w'|]; try contradiction; [|constructor; assumption].
  constructor; cbn [set_timers set_live s_reg s_live s_timers s_frozen s_next_w]; auto.
  - intros n. rewrite !tbl_get_set, (bare_id _ _ HF), Ec, H2. reflexivity.
  - intros u u' E. rewrite !pm_find_set, (bare_id _ _ HF), E, (H3 u u' E). reflexivity.
Qed.

Definition not_client (m : msg) : Prop := to_clients m = false.
Lemma filter_none outs : Forall not_client outs -> filter to_clients outs = [].
Proof. induction 1 as [|m l Hm _ IH]; [reflexivity|]. cbn [filter]. rewrite Hm. exact IH. Qed.

Section WithConfig.
Context (o : oracle) (cfg : config).
Ltac mute := unfold check_failure_count, reassign_request, rejected_job, job_failed, job_done, notify_error, send_if,
  notify_monitor, send_request, failures_incr, stat_incr, stat_set; utter; try reflexivity.

Lemma mute_requests rs : utters not_client (expire_requests o cfg rs).
Proof. induction rs; cbn [expire_requests]; mute. Qed.
Lemma mute_reject d rs : utters not_client (reject_all d rs).
Proof. induction rs; cbn [reject_all]; mute. Qed.
Lemma mute_workers ws : utters not_client (expire_workers o cfg ws).
Proof. pose proof mute_requests. pose proof mute_reject. induction ws; cbn [expire_workers]; mute. Qed.
Lemma mute_scan t ws : utters not_client (timer_scan cfg t ws).
Proof. induction ws; cbn [timer_scan]; mute. Qed.
Lemma mute_idle ws : utters not_client (count_idle ws).
Proof. induction ws; cbn [count_idle]; mute. Qed.
Lemma mute_timer m : utters not_client (process_timer o cfg m).
Proof. pose proof mute_workers. pose proof mute_scan. pose proof mute_idle. unfold process_timer. mute. Qed.
Lemma mute_init i m : utters not_client (process_worker_init o i m).
Proof. unfold process_worker_init. mute. Qed.
Lemma mute_done i m : utters not_client (process_worker_done o cfg i m).
Proof. unfold process_worker_done. mute. Qed.
Lemma mute_progress i m : utters not_client (process_worker_progress i m).
Proof. unfold process_worker_progress. mute. Qed.

(* reports *)
Lemma done_face i d : keeps face (process_worker_done o cfg i d).
Proof.
  unfold process_worker_done, check_failure_count, reassign_request, send_if, send_request, rejected_job, job_failed, job_done,
    notify_monitor, failures_incr, stat_incr. keep.
Qed.

(* submissions *)
Definition eval_answers (i : string) (d : list string) (frozen : bool) (ws : list worker) : list msg :=
  Msg "clients" i ["ack"] ::
  match parse_eval_headers (skipn 2 d) [] [] with
  | Val (Some (h, _, _)) =>
      if frozen then [Msg "clients" i ["reject"; "The broker is frozen."]]
      else if existsb (serves h) ws then [Msg "clients" i ["accept"]]
      else [Msg "clients" i ["reject"; reject_text "No worker available for given headers: " h]]
  | _ => []
  end.

Lemma eval_face i d : keeps face (process_client_eval o i d).
Proof. unfold process_client_eval, send_request, notify_monitor. keep. Qed.

Lemma eval_answered i d s outs s' : inv s [] -> process_client_eval o i d s = (outs, inr (tt, s')) ->
  filter to_clients outs = eval_answers i d (s_frozen s) (s_reg s).
Proof.
  intros HI H. unfold process_client_eval in H. unfold eval_answers.
  minv1 H. minv1 Hm. minv1 Hk. minv1 Hm. minv1 Hk0. minv1 Hm. rewrite El. cbn [app filter].
  change (to_clients (Msg KEY_CLIENTS i ["ack"])) with true. cbv iota. f_equal.
  destruct x0 as [((h, md), extra)|]; [|minv; reflexivity].
  minv1 Hk. minv1 Hm. cbn [app]. destruct (s_frozen s) eqn:Ef; [minv; reflexivity|].
  minv1 Hk0. minv1 Hm. minv1 Hk. minv1 Hm. cbn [set_next_r s_queue app] in *.
  set (r := complete_request _ _ _ _ _) in *.
  assert (Hr : r_complete r = true) by reflexivity.
  pose proof (q_enqueue_spec o _ _ _ _ _ (inv_q _ _ HI) Hr Eq) as (_ & HP).
  assert (Hh : r_headers r = h) by reflexivity. unfold capable in HP. rewrite Hh in HP. clearbody r.
  assert (HT : (exists w, In w (s_reg s) /\ check_headers w h = Val true) -> existsb (serves h) (s_reg s) = true).
  { intros (w & Hw & Hc). apply existsb_exists. exists w. split; [exact Hw|]. unfold serves. rewrite Hc. reflexivity. }
  destruct x0 as [[w|] [|]]; try contradiction; cbn [enqueued assigned_to] in Hk0.
  - rewrite HT by (exists w; tauto). unfold send_request in Hk0. minv. reflexivity.
  - rewrite HT by tauto. minv. reflexivity.
  - destruct HP as (_ & HN). assert (existsb (serves h) (s_reg s) = false) as ->.
    { destruct (existsb (serves h) (s_reg s)) eqn:Ex; [|reflexivity]. apply existsb_exists in Ex. destruct Ex as (w & Hw & Hs).
      unfold serves in Hs. rewrite (HN w Hw) in Hs. discriminate. }
    unfold notify_monitor in Hk0. minv. reflexivity.
Qed.



(* registrations *)
Definition newcomer (addr : N) (i : string) (d : list string) (ws : list worker) (n : nat) : option worker :=
  if Nat.ltb (length d) 2 then None
  else match nth_error d 1 with
  | None => None
  | Some hw =>
      let '(h, rest) := parse_init_headers (skipn 2 d) [] in
      if match find_worker_by_identity i ws with Some c => headers_equal c h | None => false end then None
      else match make_worker n addr i hw h with
           | Val w => Some (set_description (fst (fst (parse_init_extra rest "" None 0))) w)
           | Fail _ => None
           end
  end.

Lemma init_extra_desc rest : forall d c n c' n', fst (fst (parse_init_extra rest d c n)) = fst (fst (parse_init_extra rest d c' n')).
Proof.
  induction rest as [|f rest IH]; intros d c n c' n'; [reflexivity|]. cbn [parse_init_extra]. destruct (split_header f) as (k, v).
  destruct (String.eqb k "description"); [apply IH|]. destruct (String.eqb k "current_job"); apply IH.
Qed.

Lemma init_face i d s outs s' : process_worker_init o i d s = (outs, inr (tt, s')) ->
  s_live s' = s_live s /\ s_frozen s' = s_frozen s /\
  match newcomer (o_addr o (s_next_w s)) i d (s_reg s) (s_next_w s) with
  | None => s_reg s' = s_reg s /\ s_timers s' = s_timers s /\ s_next_w s' = s_next_w s
  | Some w => s_reg s' = s_reg s ++ [w] /\ s_timers s' = pm_emplace w 0%Z (s_timers s) /\ s_next_w s' = S (s_next_w s)
  end.
Proof.
  intros H. split; [exact (init_live o i d _ _ _ _ H)|]. split; [exact (init_frozen o i d _ _ _ _ H)|].
  unfold newcomer, process_worker_init in *. destruct (Nat.ltb (length d) 2); [minv; auto|].
  minv1 H. minv1 Hm. rewrite Ea. destruct (parse_init_headers (skipn 2 d) []) as (h, rest).
  minv1 Hk. minv1 Hm. set (register := bind _ _) in Hk0.
  assert (HR : forall oo se, register s = (oo, inr (tt, se)) ->
    match make_worker (s_next_w s) (o_addr o (s_next_w s)) i x h with
    | Val w => s_reg se = s_reg s ++ [set_description (fst (fst (parse_init_extra rest "" None 0))) w] /\
               s_timers se = pm_emplace (set_description (fst (fst (parse_init_extra rest "" None 0))) w) 0%Z (s_timers s) /\
               s_next_w se = S (s_next_w s)
    | Fail _ => False
    end).
  { clear. intros oo se HH. unfold register in HH. rewrite (init_extra_desc rest "" None 0 None (s_next_r s)).
    minv1 HH. minv1 Hm. rewrite El. minv1 Hk. minv1 Hm.
    destruct (parse_init_extra rest "" None (s_next_r s)) as ((desc, cur), next). cbn [fst].
    minv1 Hk0. minv1 Hm. minv1 Hk. minv1 Hm. minv1 Hk0. minv1 Hm.
    minv1 Hk. apply send_if_inv in Hm. destruct Hm as (-> & _). minv. auto. }
  destruct (find_worker_by_identity i (s_reg s)) as [c|].
  - destruct (headers_equal c h); [minv; auto|]. unfold notify_error in Hk0.
    apply bind_inv in Hk0. destruct Hk0 as (o8 & a & s1 & o9 & Hm1 & Hk1 & _). minv1 Hm1. specialize (HR _ _ Hk1).
    destruct (make_worker _ _ _ _ _); [exact HR|contradiction].
  - specialize (HR _ _ Hk0). destruct (make_worker _ _ _ _ _); [exact HR|contradiction].
Qed.

(* ticks *)
Lemma expire_workers_face ws : forall s outs s', expire_workers o cfg ws s = (outs, inr (tt, s')) ->
  s_reg s' = fold_left (fun l w => reg_remove w l) ws (s_reg s) /\ s_live s' = s_live s /\ s_timers s' = s_timers s /\
  s_frozen s' = s_frozen s /\ s_next_w s' = s_next_w s.
Proof.
  intros s outs s' H. pose proof (expire_workers_pings _ _ _ _ _ _ _ H) as HP. unfold pings in HP. injection HP as P1 P2.
  split; [|split; [exact P1|split; [exact P2|split; [exact (expire_workers_frozen _ _ _ _ _ _ _ H)|]]]].
  - clear P1 P2. revert s outs s' H. induction ws as [|x ws IH]; simpl; intros s outs s' H; [minv; reflexivity|].
    apply bind_inv in H. destruct H as (? & [] & s1 & ? & H1 & H & _). apply modify_inv in H1. destruct H1 as (_ & _ & E1).
    apply bind_inv in H. destruct H as (? & cur & s2 & ? & H2 & H & _). apply queue_call_inv in H2. destruct H2 as (? & _ & _ & E2).
    apply bind_inv in H. destruct H as (? & [] & s3 & ? & H3 & H & _).
    assert (E3 : s_reg s3 = s_reg s2) by (destruct cur; unfold failures_incr in H3; minv; reflexivity).
    apply bind_inv in H. destruct H as (? & rs & s4 & ? & H4 & H & _). apply queue_call_inv in H4. destruct H4 as (? & _ & _ & E4).
    apply bind_inv in H. destruct H as (? & un & s5 & ? & H5 & H & _). pose proof (expire_requests_reg _ _ _ _ _ _ _ H5) as E5.
    apply bind_inv in H. destruct H as (? & [] & s6 & ? & H6 & H & _). pose proof (reject_all_reg _ _ _ _ _ _ H6) as E6.
    rewrite (IH _ _ _ H), E6, E5, E4. cbn [s_reg set_queue]. rewrite E3, E2. cbn [s_reg set_queue]. rewrite E1. reflexivity.
  - assert (K1 : forall rs, keeps s_next_w (expire_requests o cfg rs)).
    { induction rs as [|r rs IH]; simpl; unfold check_failure_count, reassign_request, rejected_job, job_failed,
      notify_monitor, send_request, failures_incr; keep. }
    assert (K2 : forall d rs, keeps s_next_w (reject_all d rs)) by (induction rs; simpl; unfold rejected_job; keep).
    assert (K : keeps s_next_w (expire_workers o cfg ws)) by (clear - K1 K2; induction ws; simpl; unfold failures_incr; keep).
    exact (K _ _ _ _ H).
Qed.

Lemma timer_face m s outs s' : process_timer o cfg m s = (outs, inr (tt, s')) ->
  exists t rest z o1 rm s1, m_data m = t :: rest /\ stoll t = Val z /\ timer_scan cfg z (s_reg s) s = (o1, inr (rm, s1)) /\
    s_reg s' = fold_left (fun l w => reg_remove w l) rm (s_reg s) /\ s_live s' = s_live s1 /\ s_timers s' = s_timers s1 /\
    s_frozen s' = s_frozen s1 /\ s_next_w s' = s_next_w s1.
Proof.
  intros H. unfold process_timer in H. destruct (m_data m) as [|t rest]; [discriminate|].
  apply bind_inv in H. destruct H as (? & z & s1 & ? & H1 & H & _). apply lift_inv in H1. destruct H1 as (_ & Ez & ->).
  apply bind_inv in H. destruct H as (? & s1 & s2 & ? & H1 & H & _). apply get_inv in H1. destruct H1 as (_ & -> & ->).
  apply bind_inv in H. destruct H as (? & rm & s3 & ? & H1 & H & _).
  apply bind_inv in H. destruct H as (? & [] & s4 & ? & H2 & H & _).
  destruct (expire_workers_face _ _ _ _ H2) as (E1 & E2 & E3 & E4 & E5).
  rewrite (timer_scan_reg _ _ _ _ _ _ _ H1) in E1.
  assert (HK : face s' = face s4).
  { apply bind_inv in H. destruct H as (? & s5 & s6 & ? & H3 & H & _). apply get_inv in H3. destruct H3 as (_ & -> & ->).
    assert (forall ws, keeps face (count_idle ws)) by (induction ws; simpl; unfold stat_incr; keep).
    match type of H with ?c _ = _ => assert (K : keeps face c) by (unfold stat_set; keep) end. exact (K _ _ _ _ H). }
  unfold face in HK. injection HK as -> -> -> -> ->. eauto 15.
Qed.
End WithConfig.

(* ---- two brokers side by side ---- *)
Section Two.
Context (o1 o2 : oracle) (c1 c2 : config) (HC : same_pings c1 c2).

Lemma newcomer_bare a1 a2 i d ws ws' n : bares ws = bares ws' ->
  match newcomer a1 i d ws n, newcomer a2 i d ws' n with
  | Some w, Some w' => bare w = bare w' /\ w_id w = n | None, None => True | _, _ => False end.
Proof.
  intros E. unfold newcomer. destruct (Nat.ltb (length d) 2); [exact I|]. destruct (nth_error d 1) as [hw|]; [|exact I].
  destruct (parse_init_headers (skipn 2 d) []) as (h, rest). pose proof (bares_find i _ _ E) as HF.
  assert (match find_worker_by_identity i ws with Some c => headers_equal c h | None => false end =
          match find_worker_by_identity i ws' with Some c => headers_equal c h | None => false end) as ->.
  { destruct (find_worker_by_identity i ws) as [w|]; destruct (find_worker_by_identity i ws') as [w'|]; try contradiction; [|reflexivity].
    unfold headers_equal. assert (w_headers_copy w = w_headers_copy w') as -> by (unfold bare in HF; congruence). reflexivity. }
  destruct (match find_worker_by_identity i ws' with Some c => headers_equal c h | None => false end); [exact I|].
  unfold make_worker. destruct (make_matchers h _) as [ms|f]; [|exact I]. split; reflexivity.
Qed.

Lemma scan_front z ws : forall ws' s t outs1 outs2 rm1 rm2 s' t', bares ws = bares ws' -> front s t ->
  timer_scan c1 z ws s = (outs1, inr (rm1, s')) -> timer_scan c2 z ws' t = (outs2, inr (rm2, t')) ->
  bares rm1 = bares rm2 /\ front s' t'.
Proof.
  induction ws as [|w ws IH]; intros [|w' ws'] s t outs1 outs2 rm1 rm2 s' t' E HF H1 H2; try discriminate.
  - cbn [timer_scan] in *. minv1 H1. minv1 H2. auto.
  - unfold bares in E; cbn [map] in E.
    assert (E1 : bare w = bare w') by congruence. assert (E2 : bares ws = bares ws') by (unfold bares; congruence).
    pose proof (bare_id _ _ E1) as Ei. destruct HC as (_ & HP). destruct HF as [F1 F2 F3 F4 F5].
    cbn [timer_scan] in H1, H2.
    apply bind_inv in H1. destruct H1 as (? & x1 & s1 & ? & G1 & H1 & _). apply get_inv in G1. destruct G1 as (_ & -> & ->).
    apply bind_inv in H2. destruct H2 as (? & x2 & t1 & ? & G2 & H2 & _). apply get_inv in G2. destruct G2 as (_ & -> & ->).
    rewrite (F3 w w' Ei), HP in H1. rewrite Ei, F2 in H1.
    set (old := match pm_find w' (s_timers t) with Some z0 => z0 | None => 0%Z end) in *.
    destruct (negb (in_i64 (old + z))); [discriminate|]. destruct (Z.ltb (c_ping_interval c2) (old + z)).
    + set (l := size_pred (tbl_get (w_id w') (s_live t))) in *.
      apply bind_inv in H1. destruct H1 as (? & [] & s1 & ? & G1 & H1 & _). apply modify_inv in G1. destruct G1 as (_ & _ & ->).
      apply bind_inv in H2. destruct H2 as (? & [] & t1 & ? & G2 & H2 & _). apply modify_inv in G2. destruct G2 as (_ & _ & ->).
      apply bind_inv in H1. destruct H1 as (? & [] & s1 & ? & G1 & H1 & _). apply modify_inv in G1. destruct G1 as (_ & _ & ->).
      apply bind_inv in H2. destruct H2 as (? & [] & t1 & ? & G2 & H2 & _). apply modify_inv in G2. destruct G2 as (_ & _ & ->).
      apply bind_inv in H1. destruct H1 as (? & r1 & s1 & ? & G1 & H1 & _).
      apply bind_inv in H2. destruct H2 as (? & r2 & t1 & ? & G2 & H2 & _).
      apply ret_inv in H1. destruct H1 as (_ & -> & ->). apply ret_inv in H2. destruct H2 as (_ & -> & ->).
      assert (HF' : front (set_timers (pm_set w 0%Z (s_timers (set_live (tbl_set (w_id w') l (s_live s)) s))) (set_live (tbl_set (w_id w') l (s_live s)) s))
                          (set_timers (pm_set w' 0%Z (s_timers (set_live (tbl_set (w_id w') l (s_live t)) t))) (set_live (tbl_set (w_id w') l (s_live t)) t))).
      { constructor; cbn [set_timers set_live s_reg s_live s_timers s_frozen s_next_w]; auto.
        - intros n. rewrite !tbl_get_set, F2. reflexivity.
        - intros u u' Eu. rewrite !pm_find_set, Ei, Eu, (F3 u u' Eu). reflexivity. }
      destruct (IH _ _ _ _ _ _ _ _ _ E2 HF' G1 G2) as (R1 & R2). split; [|exact R2].
      destruct (N.leb l 0); [|exact R1]. unfold bares in *. cbn [map]. rewrite E1, R1. reflexivity.
    + apply bind_inv in H1. destruct H1 as (? & [] & s1 & ? & G1 & H1 & _). apply modify_inv in G1. destruct G1 as (_ & _ & ->).
      apply bind_inv in H2. destruct H2 as (? & [] & t1 & ? & G2 & H2 & _). apply modify_inv in G2. destruct G2 as (_ & _ & ->).
      eapply IH; [exact E2| |exact H1|exact H2].
      constructor; cbn [set_timers set_live s_reg s_live s_timers s_frozen s_next_w]; auto.
      intros u u' Eu. rewrite !pm_find_set, Ei, Eu, (F3 u u' Eu). reflexivity.
Qed.

Lemma bares_removes rm1 : forall rm2 ws ws', bares rm1 = bares rm2 -> bares ws = bares ws' ->
  bares (fold_left (fun l w => reg_remove w l) rm1 ws) = bares (fold_left (fun l w => reg_remove w l) rm2 ws').
Proof.
  induction rm1 as [|w rm1 IH]; intros [|w' rm2] ws ws' E H; try discriminate; [exact H|]. unfold bares in E. cbn [map] in E.
  cbn [fold_left]. apply IH; [unfold bares; congruence|]. apply bares_remove; [congruence|exact H].
Qed.

Lemma step_front m s t outs1 outs2 s' t' : inv s [] -> inv t [] -> front s t ->
  on_request o1 c1 m s = (outs1, inr (tt, s')) -> on_request o2 c2 m t = (outs2, inr (tt, t')) ->
  front s' t' /\ answers (mkEvent s m outs1 s') = answers (mkEvent t m outs2 t').
Proof.
  intros I1 I2 HF H1 H2. rewrite on_request_eq in H1, H2. unfold on_request_cases in *. unfold answers, is_command. cbn [ev_in ev_out].
  assert (NC : forall (c : M unit) u x outs y, utters not_client c -> c u = (outs, inr (x, y)) -> filter to_clients outs = []).
  { intros c u x outs y HU E. apply filter_none. specialize (HU u). rewrite E in HU. exact HU. }
  assert (HB : forall c l a, starts_with [c] (a :: l) = String.eqb a c && true) by (intros; reflexivity).
  destruct (String.eqb_spec (m_key m) "workers") as [Ek|Ek].
  { destruct (String.eqb_spec (m_key m) "clients") as [Ec|Ec]; [congruence|]. cbn [andb].
    pose proof (front_refresh c1 c2 (m_ident m) s t (proj1 HC) HF) as HR.
    destruct (m_data m) as [|c rest]; [discriminate|]. unfold call_function, worker_commands in H1, H2. cbn [sm_find] in H1, H2.
    rewrite !HB.
    destruct (String.eqb_spec "init" c) as [<-|N1].
    { cbn [String.eqb andb orb]. split; [|rewrite (NC _ _ _ _ _ (mute_init o1 _ _) H1), (NC _ _ _ _ _ (mute_init o2 _ _) H2); reflexivity].
      destruct HR as [R1 R2 R3 R4 R5].
      destruct (init_face _ _ _ _ _ _ H1) as (L1 & F1 & E1). destruct (init_face _ _ _ _ _ _ H2) as (L2 & F2 & E2).
      rewrite <- R5 in E2.
      pose proof (newcomer_bare (o_addr o1 (s_next_w (refresh c1 (m_ident m) s))) (o_addr o2 (s_next_w (refresh c1 (m_ident m) s)))
        (m_ident m) ("init" :: rest) _ _ (s_next_w (refresh c1 (m_ident m) s)) R1) as HN.
      destruct (newcomer (o_addr o1 _) _ _ _ _) as [w|]; destruct (newcomer (o_addr o2 _) _ _ _ _) as [w'|]; try contradiction.
      - destruct HN as (HN & Hid). destruct E1 as (A1 & A2 & A3), E2 as (B1 & B2 & B3).
        constructor; rewrite ?A1, ?A2, ?A3, ?B1, ?B2, ?B3, ?L1, ?L2, ?F1, ?F2; auto.
        + unfold bares in *. rewrite !map_app, R1. cbn [map]. rewrite HN. reflexivity.
        + intros u u' Eu. rewrite !pm_find_emplaced, (R3 u u' Eu), (bare_id _ _ HN), Eu. reflexivity.
      - destruct E1 as (A1 & A2 & A3), E2 as (B1 & B2 & B3).
        constructor; rewrite ?A1, ?A2, ?A3, ?B1, ?B2, ?B3, ?L1, ?L2, ?F1, ?F2; auto. }
    destruct (String.eqb_spec "done" c) as [<-|N2].
    { cbn [String.eqb andb orb]. split; [|rewrite (NC _ _ _ _ _ (mute_done o1 c1 _ _) H1), (NC _ _ _ _ _ (mute_done o2 c2 _ _) H2); reflexivity].
      eapply front_face; [exact HR|exact (done_face _ _ _ _ _ _ _ _ H1)|exact (done_face _ _ _ _ _ _ _ _ H2)]. }
    destruct (String.eqb_spec "ping" c) as [<-|N3].
    { cbn [String.eqb andb orb]. unfold process_worker_ping in H1, H2. minv1 H1. minv1 Hm. minv1 H2. minv1 Hm.
      pose proof (bares_find (m_ident m) _ _ (fr_reg _ _ HR)) as HP.
      destruct (find_worker_by_identity _ _); destruct (find_worker_by_identity _ _); try contradiction; minv; auto. }
    destruct (String.eqb_spec "progress" c) as [<-|N4].
    { cbn [String.eqb andb orb]. unfold process_worker_progress in H1, H2. minv1 H1. minv1 H2. auto. }
    minv1 H1. minv1 H2. destruct (_ || _); auto. }
  destruct (String.eqb_spec (m_key m) "clients") as [Ec|Ec].
  { cbn [andb orb]. destruct (m_data m) as [|c rest]; [discriminate|]. unfold call_function, client_commands in H1, H2. cbn [sm_find] in H1, H2.
    rewrite !HB.
    destruct (String.eqb_spec "eval" c) as [<-|N1].
    { cbn [String.eqb andb orb]. split.
      - eapply front_face; [exact HF|exact (eval_face _ _ _ _ _ _ _ H1)|exact (eval_face _ _ _ _ _ _ _ H2)].
      - rewrite (eval_answered _ _ _ _ _ _ I1 H1), (eval_answered _ _ _ _ _ _ I2 H2). unfold eval_answers.
        rewrite (fr_frozen _ _ HF). destruct (parse_eval_headers _ _ _) as [[((h, md), ex)|]|f]; try reflexivity.
        rewrite (bares_serves h _ _ (fr_reg _ _ HF)). reflexivity. }
    destruct (String.eqb_spec "get-runtime-stats" c) as [<-|N2].
    { rewrite String.eqb_refl. cbn [andb]. unfold process_client_get_runtime_stats in *. minv1 H1. minv1 Hm. minv1 H2. minv1 Hm. minv. auto. }
    destruct (String.eqb_spec "freeze" c) as [<-|N3].
    { unfold process_client_freeze in *. minv. split; [|reflexivity]. destruct HF. constructor; auto. }
    destruct (String.eqb_spec "unfreeze" c) as [<-|N4].
    { unfold process_client_unfreeze in *. minv. split; [|reflexivity]. destruct HF. constructor; auto. }
    minv1 H1. minv1 H2. destruct (_ && _); auto. }
  cbn [andb orb]. destruct (String.eqb_spec (m_key m) "timer") as [Et|Et]; [|minv1 H1; minv1 H2; auto].
  split; [|rewrite (NC _ _ _ _ _ (mute_timer o1 c1 _) H1), (NC _ _ _ _ _ (mute_timer o2 c2 _) H2); reflexivity].
  destruct (timer_face _ _ _ _ _ _ H1) as (x1 & r1 & z1 & p1 & rm1 & u1 & D1 & Z1 & S1 & A1 & A2 & A3 & A4 & A5).
  destruct (timer_face _ _ _ _ _ _ H2) as (x2 & r2 & z2 & p2 & rm2 & u2 & D2 & Z2 & S2 & B1 & B2 & B3 & B4 & B5).
  assert (z2 = z1) as -> by congruence.
  destruct (scan_front _ _ _ _ _ _ _ _ _ _ _ (fr_reg _ _ HF) HF S1 S2) as (E & [R1 R2 R3 R4 R5]).
  constructor; rewrite ?A1, ?A2, ?A3, ?A4, ?A5, ?B1, ?B2, ?B3, ?B4, ?B5; auto. apply bares_removes; [exact E|exact (fr_reg _ _ HF)].
Qed.

Lemma run_front k1 k2 tr1 s : run o1 c1 k1 tr1 s -> forall tr2 t, run o2 c2 k2 tr2 t -> map ev_in tr1 = map ev_in tr2 ->
  map answers tr1 = map answers tr2 /\ front s t.
Proof.
  induction 1 as [|tr1 s m outs s' Hrun IH Hstep]; intros tr2 t H2 E.
  - destruct tr2; [|discriminate]. inversion H2; [|destruct tr; discriminate]. split; [reflexivity|].
    constructor; auto.
  - rewrite map_app in E. inversion H2 as [|tr2' t0 m2 outs2 t' Hrun2 Hstep2]; subst.
    + destruct tr1; discriminate.
    + rewrite map_app in E. apply app_inj_tail in E. destruct E as (E & Em). cbn [ev_in] in Em. subst m2.
      destruct (IH _ _ Hrun2 E) as (EA & HF).
      destruct (step_front m s t0 outs outs2 s' t (run_inv _ _ _ _ _ Hrun) (run_inv _ _ _ _ _ Hrun2) HF Hstep Hstep2) as (HF' & ES).
      split; [|exact HF']. rewrite !map_app, EA. cbn [map]. rewrite ES. reflexivity.
Qed.
End Two.

Lemma front_same s t : front s t -> same_front s t.
Proof.
  intros [H1 H2 H3 H4 H5]. split; [|exact H4]. revert H1. generalize (s_reg s) (s_reg t).
  induction l as [|w l IH]; intros [|w' l'] E; try discriminate; [reflexivity|]. unfold bares in E. cbn [map] in E.
  cbn [map]. f_equal; [|apply IH; unfold bares; congruence].
  assert (E1 : bare w = bare w') by congruence. unfold entry_of, liveness, ping_timer. rewrite (H3 w w' (bare_id _ _ E1)), (bare_id _ _ E1), H2.
  unfold bare in E1. congruence.
Qed.

Lemma front_alike o1 o2 c1 c2 k1 k2 tr1 tr2 s t : same_pings c1 c2 -> run o1 c1 k1 tr1 s -> run o2 c2 k2 tr2 t ->
  map ev_in tr1 = map ev_in tr2 -> map answers tr1 = map answers tr2 /\ same_front s t.
Proof.
  intros HC R1 R2 E. destruct (run_front _ _ _ _ HC _ _ _ _ R1 _ _ R2 E) as (H1 & H2). split; [exact H1|apply front_same; exact H2].
Qed.
