(* The broker inside the reactor: its executions are runs. *)
From Coq Require Import Lia.
From Verif Require Import Base Bytes Containers Worker Multi Single Queue Handler SpecText Spec SpecRun Facts Reactor SpecReactor ReactorFacts.
Local Open Scope string_scope.
Local Open Scope list_scope.

(* ---- keys of the messages the handler sends, also before a fault ---- *)

Definition tells {A} (P : msg -> Prop) (m : M A) : Prop := forall s, Forall P (fst (m s)).

Section Tells.
Context (P : msg -> Prop).
Lemma tells_bind {A B} (m : M A) (k : A -> M B) : tells P m -> (forall a, tells P (k a)) -> tells P (bind m k).
Proof.
  intros Hm Hk s. unfold bind. specialize (Hm s). destruct (m s) as (o1, [f|(a, s1)]); [exact Hm|].
  specialize (Hk a s1). destruct (k a s1) as (o2, r). simpl in *. apply Forall_app. auto.
Qed.
Lemma tells_ret {A} (a : A) : tells P (ret a).
Proof. intros s. constructor. Qed.
Lemma tells_get : tells P get.
Proof. intros s. constructor. Qed.
Lemma tells_fail {A} e : tells P (@fail A e).
Proof. intros s. constructor. Qed.
Lemma tells_respond m : P m -> tells P (respond m).
Proof. intros Hp s. constructor; [exact Hp|constructor]. Qed.
Lemma tells_lift {A} (x : res A) : tells P (lift x).
Proof. intros s. destruct x; constructor. Qed.
Lemma tells_at v i : tells P (at_ v i).
Proof. intros s. unfold at_. destruct (nth_error v i); constructor. Qed.
Lemma tells_modify g : tells P (modify g).
Proof. intros s. constructor. Qed.
Lemma tells_queue_call {A} (g : manager -> res (A * manager)) : tells P (queue_call g).
Proof. intros s. unfold queue_call. destruct (g (s_queue s)) as [(a, m)|e]; constructor. Qed.
End Tells.

Definition known_key (m : msg) : Prop := In (m_key m) ["workers"; "clients"; "monitor"; "status_notifier"].
Lemma in_known m : existsb (String.eqb (m_key m)) ["workers"; "clients"; "monitor"; "status_notifier"] = true -> known_key m.
Proof. intros H. apply existsb_exists in H. destruct H as (x & Hx & E). apply String.eqb_eq in E. unfold known_key. rewrite E. exact Hx. Qed.

Ltac tell :=
  repeat (intros; cbv zeta; lazymatch goal with
  | |- tells _ (bind _ _) => apply tells_bind
  | |- tells _ (ret _) => apply tells_ret
  | |- tells _ get => apply tells_get
  | |- tells _ (fail _) => apply tells_fail
  | |- tells _ (respond _) => apply tells_respond; solve [apply in_known; reflexivity]
  | |- tells _ (lift _) => apply tells_lift
  | |- tells _ (at_ _ _) => apply tells_at
  | |- tells _ (modify _) => apply tells_modify
  | |- tells _ (queue_call _) => apply tells_queue_call
  | |- tells _ (let '(_, _) := ?x in _) => destruct x
  | |- tells _ (match ?x with _ => _ end) => destruct x
  | |- tells _ _ => solve [auto 10]
  end).


Section Broker.
Context (o : oracle) (cfg : config).

Ltac keys := unfold reassign_request, send_if, send_request, check_failure_count, rejected_job, job_failed, job_done, notify_error,
  notify_monitor, failures_incr, stat_incr, stat_set, when; tell.

Lemma expire_requests_keys rs : tells known_key (expire_requests o cfg rs).
Proof. induction rs; simpl; keys. Qed.
Lemma reject_all_keys d rs : tells known_key (reject_all d rs).
Proof. induction rs; simpl; keys. Qed.
Lemma expire_workers_keys ws : tells known_key (expire_workers o cfg ws).
Proof. pose proof expire_requests_keys. pose proof reject_all_keys. induction ws; simpl; keys. Qed.
Lemma timer_scan_keys z ws : tells known_key (timer_scan cfg z ws).
Proof. induction ws; simpl; keys. Qed.
Lemma count_idle_keys ws : tells known_key (count_idle ws).
Proof. induction ws; simpl; keys. Qed.
Lemma process_timer_keys m : tells known_key (process_timer o cfg m).
Proof.
  pose proof expire_workers_keys. pose proof timer_scan_keys. pose proof count_idle_keys. unfold process_timer. keys.
Qed.

Lemma call_keys cmds c i d : (forall x f, In (x, f) cmds -> forall i d, tells known_key (f i d)) -> tells known_key (call_function cmds c i d).
Proof.
  intros H. unfold call_function. destruct (sm_find c cmds) as [f|] eqn:E; [|apply tells_ret].
  apply (H c). clear H. induction cmds as [|(x, g) cmds IH]; simpl in *; [discriminate|].
  destruct (String.eqb_spec x c) as [->|]; [injection E as ->; left; reflexivity|right; apply IH; exact E].
Qed.

Theorem on_request_keys m : tells known_key (on_request o cfg m).
Proof.
  unfold on_request, when. apply tells_bind; [|intros []; apply tells_bind; [|intros []]].
  - destruct (String.eqb (m_key m) KEY_WORKERS); [|keys]. apply tells_bind; [keys|]. intros s. apply tells_bind; [keys|]. intros [].
    apply tells_bind; [keys|]. intros c. apply call_keys. intros x f Hx. unfold worker_commands in Hx. simpl in Hx.
    repeat destruct Hx as [[= <- <-]|Hx]; try destruct Hx; intros i d;
      [unfold process_worker_init|unfold process_worker_done|unfold process_worker_ping|unfold process_worker_progress]; keys.
  - destruct (String.eqb (m_key m) KEY_CLIENTS); [|keys]. apply tells_bind; [keys|]. intros c.
    apply call_keys. intros x f Hx. unfold client_commands in Hx. simpl in Hx.
    repeat destruct Hx as [[= <- <-]|Hx]; try destruct Hx; intros i d;
      [unfold process_client_eval|unfold process_client_get_runtime_stats|unfold process_client_freeze|unfold process_client_unfreeze]; keys.
  - destruct (String.eqb (m_key m) KEY_TIMER); [|keys]. apply process_timer_keys.
Qed.

(* ---- one message ---- *)

Lemma broker_tables_built : build broker_setup = broker_tables.
Proof. reflexivity. Qed.

Lemma known_leaf m : known_key m -> leaf broker_setup m.
Proof.
  unfold leaf, known_key. intros H. simpl in H. destruct H as [<-|[<-|[<-|[<-|[]]]]]; [left|left|left|right]; simpl; try discriminate.
  intros w [<-|[]]. exists 0. reflexivity.
Qed.

Lemma known_route m : known_key m -> route broker_setup m = broker_route m.
Proof. unfold route, broker_route, known_key. intros H. simpl in H. destruct H as [<-|[<-|[<-|[<-|[]]]]]; reflexivity. Qed.

Lemma known_routes ms : Forall known_key ms -> flat_map (route broker_setup) ms = flat_map broker_route ms.
Proof. induction 1 as [|m ms Hm _ IH]; [reflexivity|]. simpl. rewrite known_route by exact Hm. f_equal. exact IH. Qed.

Local Notation H := (broker_handlers o cfg).
Local Notation send fuel := (send_message state broker_tables H fuel).
Local Notation process fuel := (process_message state broker_tables H (send fuel) []).

Definition heard (m : msg) : bool := existsb (String.eqb (m_key m)) ["clients"; "workers"; "timer"].

Lemma process_broker fuel m ss :
  if heard m then
    match on_request o cfg m (ss 0) with
    | (outs, inl f) => process (S fuel) m ss = (ACall 0 m :: flat_map broker_route outs, inl (Threw f))
    | (outs, inr (_, s')) => process (S fuel) m ss = (ACall 0 m :: flat_map broker_route outs, inr (set_state state 0 s' ss))
    end
  else In (m_key m) ["status_notifier"] \/ process (S fuel) m ss = ([], inr ss).
Proof.
  destruct (heard m) eqn:Eh.
  - pose proof (on_request_keys m (ss 0)) as HK. destruct (on_request o cfg m (ss 0)) as (outs, r) eqn:E. simpl in HK.
    unfold process_message. unfold heard in Eh. 
    assert (Hr : mm_equal_range (m_key m) (t_handlers broker_tables) = [Sync 0]).
    { simpl in Eh. rewrite !orb_true_iff, !String.eqb_eq in Eh. destruct Eh as [->|[->|[->|]]]; try reflexivity. discriminate. }
    assert (Hl : Forall (leaf broker_setup) outs) by (eapply Forall_impl; [|exact HK]; exact known_leaf).
    pose proof (respond_leaf broker_setup H fuel [0] outs ss Hl) as HR. change (build broker_setup) with broker_tables in HR.
    rewrite Hr. cbn [call_all call existsb]. destruct r as [f|([], s')].
    + assert (EH : H 0 m (ss 0) = (outs, inl f)) by (unfold broker_handlers; rewrite E; reflexivity).
      rewrite EH. cbn [andthen]. rewrite HR. cbn [andthen app]. rewrite !app_nil_r, (known_routes _ HK). reflexivity.
    + assert (EH : H 0 m (ss 0) = (outs, inr s')) by (unfold broker_handlers; rewrite E; reflexivity).
      rewrite EH. cbn [andthen]. rewrite HR. cbn [andthen app]. rewrite !app_nil_r, (known_routes _ HK). reflexivity.
  - unfold process_message. destruct (String.eqb_spec (m_key m) "status_notifier") as [E|E]; [left; left; auto|]. right.
    assert (Hr : mm_equal_range (m_key m) (t_handlers broker_tables) = []).
    { unfold heard in Eh. simpl in Eh. rewrite !orb_false_iff in Eh. destruct Eh as (E1 & E2 & E3 & _).
      apply String.eqb_neq in E. rewrite String.eqb_sym in E1, E2, E3, E. unfold mm_equal_range.
      change (t_handlers broker_tables) with [("clients", Sync 0); ("status_notifier", Async 0); ("timer", Sync 0); ("workers", Sync 0)].
      cbn [filter fst map]. rewrite E1, E2, E3, E. reflexivity. }
    rewrite Hr. reflexivity.
Qed.

(* ---- a round ---- *)

Local Notation forward fuel := (send fuel []).

Lemma perform_broker k fuel ms : forall tr0 ss, run o cfg k tr0 (ss 0) -> (forall m, In m ms -> m_key m <> "status_notifier") ->
  exists acts r, perform (process (S fuel)) (forward (S fuel)) (map Process ms) ss = (acts, r) /\
  match r with
  | inr ss' => exists tr, run o cfg k (tr0 ++ tr) (ss' 0) /\ acts = flat_map event_actions tr /\ map ev_in tr = filter heard ms
  | inl e => exists tr s m outs f ms1 ms2, e = Threw f /\ run o cfg k (tr0 ++ tr) s /\ crashes o cfg s m outs f /\
      acts = flat_map event_actions tr ++ ACall 0 m :: flat_map broker_route outs /\
      ms = ms1 ++ m :: ms2 /\ heard m = true /\ map ev_in tr = filter heard ms1
  end.
Proof.
  induction ms as [|m ms IH]; intros tr0 ss HR Hk.
  - eexists _, _. split; [reflexivity|]. exists []. rewrite app_nil_r. auto.
  - assert (Hk' : forall x, In x ms -> m_key x <> "status_notifier") by (intros; apply Hk; right; assumption).
    cbn [map perform]. pose proof (process_broker fuel m ss) as HP. destruct (heard m) eqn:Eh.
    + destruct (on_request o cfg m (ss 0)) as (outs, [f|([], s')]) eqn:E.
      * rewrite HP. eexists _, _. split; [reflexivity|]. exists [], (ss 0), m, outs, f, [], ms. rewrite app_nil_r.
        repeat split; auto.
      * rewrite HP. destruct (IH (tr0 ++ [mkEvent (ss 0) m outs s']) (set_state state 0 s' ss)) as (acts & r & EQ & HD).
        { simpl. apply run_snoc; assumption. }
        { exact Hk'. }
        rewrite EQ. eexists _, _. split; [reflexivity|]. destruct r as [e|ss'].
        { destruct HD as (tr & s & m1 & outs1 & f & ms1 & ms2 & -> & HR1 & HC & -> & -> & H1 & H2).
          exists (mkEvent (ss 0) m outs s' :: tr), s, m1, outs1, f, (m :: ms1), ms2. rewrite <- app_assoc in HR1.
          split; [reflexivity|]. split; [exact HR1|]. split; [exact HC|]. split; [cbn [flat_map event_actions ev_in ev_out app]; rewrite <- ?app_assoc; reflexivity|].
          split; [reflexivity|]. split; [exact H1|]. simpl. rewrite Eh, H2. reflexivity. }
        { destruct HD as (tr & HR1 & -> & H2). exists (mkEvent (ss 0) m outs s' :: tr). rewrite <- app_assoc in HR1.
          split; [exact HR1|]. split; [reflexivity|]. simpl. rewrite Eh, H2. reflexivity. }
    + destruct HP as [HP|HP]; [exfalso; apply (Hk m (or_introl eq_refl)); simpl in HP; destruct HP as [HP|[]]; auto|].
      rewrite HP. destruct (IH tr0 ss HR Hk') as (acts & r & EQ & HD). rewrite EQ. eexists _, _. split; [reflexivity|]. cbn [app].
      destruct r as [e|ss'].
      * destruct HD as (tr & s & m1 & outs1 & f & ms1 & ms2 & -> & HR1 & HC & -> & -> & H1 & H2).
        exists tr, s, m1, outs1, f, (m :: ms1), ms2. repeat split; auto. simpl. rewrite Eh. exact H2.
      * destruct HD as (tr & HR1 & -> & H2). exists tr. repeat split; auto. simpl. rewrite Eh. exact H2.
Qed.

(* ---- the loop ---- *)

Definition round_msgs (q : string -> list (string * list string)) (w : wait) : list msg :=
  flat_map (fun n => match q n with (i, d) :: _ => [Msg n i d] | [] => [] end) ["clients"; "monitor"; "workers"] ++ [timer_msg w].

Lemma round_jobs q w : jobs_of (map fst (t_sockets broker_tables)) q [] (elapsed_ms w) = map Process (round_msgs q w).
Proof.
  unfold jobs_of, round_msgs. change (map fst (t_sockets broker_tables)) with ["clients"; "monitor"; "workers"].
  cbn [flat_map app]. destruct (q "clients") as [|(i1, d1) ?], (q "monitor") as [|(i2, d2) ?], (q "workers") as [|(i3, d3) ?]; reflexivity.
Qed.

Lemma round_known q w m : In m (round_msgs q w) -> m_key m <> "status_notifier".
Proof.
  unfold round_msgs. cbn [flat_map]. destruct (q "clients") as [|(i1, d1) ?], (q "monitor") as [|(i2, d2) ?], (q "workers") as [|(i3, d3) ?];
    simpl; intros HH; repeat (destruct HH as [<-|HH]; [discriminate|]); destruct HH.
Qed.

Lemma round_on q w key : In key ["clients"; "workers"] ->
  filter (fun m => String.eqb (m_key m) key) (filter heard (round_msgs q w)) = named_msgs key (firstn 1 (q key)).
Proof.
  unfold round_msgs. intros [<-|[<-|[]]]; cbn [flat_map];
  destruct (q "clients") as [|(i1, d1) ?], (q "monitor") as [|(i2, d2) ?], (q "workers") as [|(i3, d3) ?]; reflexivity.
Qed.

Lemma round_timer q w : filter (fun m => String.eqb (m_key m) "timer") (filter heard (round_msgs q w)) = [timer_msg w].
Proof.
  unfold round_msgs. cbn [flat_map].
  destruct (q "clients") as [|(i1, d1) ?], (q "monitor") as [|(i2, d2) ?], (q "workers") as [|(i3, d3) ?]; reflexivity.
Qed.

Lemma round_source q w m : In m (round_msgs q w) -> heard m = true ->
  m = timer_msg w \/ exists key, In key ["clients"; "workers"] /\ In m (named_msgs key (q key)).
Proof.
  unfold round_msgs. cbn [flat_map]. intros Hi Hh. rewrite !in_app_iff in Hi.
  destruct Hi as [[Hi|[Hi|[Hi|[]]]]|[<-|[]]]; [| | |left; reflexivity].
  - right. exists "clients". split; [left; reflexivity|]. destruct (q "clients") as [|(i, d) r]; [destruct Hi|]. destruct Hi as [<-|[]]. left. reflexivity.
  - destruct (q "monitor") as [|(i, d) r]; [destruct Hi|]. destruct Hi as [<-|[]]. discriminate.
  - right. exists "workers". split; [right; left; reflexivity|]. destruct (q "workers") as [|(i, d) r]; [destruct Hi|]. destruct Hi as [<-|[]]. left. reflexivity.
Qed.

Lemma inputs_app key tr1 tr2 : inputs_on key (tr1 ++ tr2) = inputs_on key tr1 ++ inputs_on key tr2.
Proof. unfold inputs_on. rewrite map_app, filter_app. reflexivity. Qed.

Lemma named_app key q1 q2 : named_msgs key (q1 ++ q2) = named_msgs key q1 ++ named_msgs key q2.
Proof. apply map_app. Qed.

Lemma heard_keys tr ms : map ev_in tr = filter heard ms -> Forall (fun e => heard (ev_in e) = true) tr.
Proof.
  intros E. apply Forall_forall. intros e He. assert (Hi : In (ev_in e) (filter heard ms)) by (rewrite <- E; apply in_map; exact He).
  apply filter_In in Hi. apply Hi.
Qed.

Local Notation loop fuel := (loop state broker_tables H fuel).

Theorem loop_broker k fuel ws : forall tr0 l, run o cfg k tr0 (l_states l 0) -> l_async l = [] -> (forall w, In w ws -> w_async w = []) ->
  exists acts r, loop (S fuel) ws l = (acts, r) /\
  match r with
  | inr l' => exists tr, run o cfg k (tr0 ++ tr) (l_states l' 0) /\ acts = flat_map event_actions tr /\ l_async l' = [] /\
      Forall (fun e => heard (ev_in e) = true) tr /\
      (forall key, In key ["clients"; "workers"] ->
        inputs_on key tr ++ named_msgs key (l_queues l' key) = named_msgs key (l_queues l key ++ arrived_on key ws)) /\
      inputs_on "timer" tr = map timer_msg ws
  | inl e => exists tr s m outs f, e = Threw f /\ run o cfg k (tr0 ++ tr) s /\ crashes o cfg s m outs f /\
      acts = flat_map event_actions tr ++ ACall 0 m :: flat_map broker_route outs /\
      ((exists w, In w ws /\ m = timer_msg w) \/
       exists key, In key ["clients"; "workers"] /\ In m (named_msgs key (l_queues l key ++ arrived_on key ws)))
  end.
Proof.
  induction ws as [|w ws IH]; intros tr0 l HR Ha Hw.
  - eexists _, _. split; [reflexivity|]. exists []. rewrite app_nil_r. repeat split; auto. intros key _. unfold arrived_on. simpl. rewrite app_nil_r. reflexivity.
  - cbn [Reactor.loop]. pose proof (iteration_spec broker_tables H (S fuel) (build_nodup broker_setup) w l _ (fun _ => eq_refl)) as HI.
    rewrite Ha, (Hw w (or_introl eq_refl)) in HI. cbn [app] in HI. rewrite round_jobs in HI.
    set (q := fun n => l_queues l n ++ arrived_on n [w]) in HI.
    destruct (perform_broker k fuel (round_msgs q w) tr0 (l_states l) HR (round_known q w)) as (a & r & EQ & HD). rewrite EQ in HI.
    destruct r as [e|ss].
    + rewrite HI. eexists _, _. split; [reflexivity|].
      destruct HD as (tr & s & m & outs & f & ms1 & ms2 & -> & HR1 & HC & -> & Ems & Hm & _). exists tr, s, m, outs, f.
      repeat split; auto. assert (Hi : In m (round_msgs q w)) by (rewrite Ems; apply in_elt).
      destruct (round_source q w m Hi Hm) as [->|(key & Hkey & Hin)]; [left; exists w; split; [left; reflexivity|reflexivity]|].
      right. exists key. split; [exact Hkey|]. unfold q in Hin. rewrite arrived_on_cons, app_assoc, named_app. apply in_app_iff. left. exact Hin.
    + destruct HD as (tr & HR1 & -> & Ein). destruct HI as (l1 & E1 & E2 & E3 & E4). rewrite E1.
      rewrite <- E2 in HR1. destruct (IH (tr0 ++ tr) l1 HR1 E4) as (b & r & EL & HL); [intros x Hx; apply Hw; right; exact Hx|]. rewrite EL.
      assert (Hq : forall key, In key ["clients"; "workers"] -> l_queues l1 key = tl (q key)).
      { intros key Hkey. rewrite E3. destruct Hkey as [<-|[<-|[]]]; reflexivity. }
      assert (Hin : forall key, In key ["clients"; "workers"] -> inputs_on key tr ++ named_msgs key (l_queues l1 key) = named_msgs key (q key)).
      { intros key Hkey. unfold inputs_on. rewrite Ein, round_on, (Hq _ Hkey) by exact Hkey. rewrite <- named_app. f_equal.
        destruct (q key) as [|x r0]; reflexivity. }
      eexists _, _. split; [reflexivity|]. destruct r as [e|l2].
      * destruct HL as (tr2 & s & m & outs & f & -> & HR2 & HC & -> & Hsrc). exists (tr ++ tr2), s, m, outs, f. rewrite app_assoc.
        repeat split; auto.
        { rewrite flat_map_app, <- !app_assoc. reflexivity. }
        destruct Hsrc as [(w' & Hw' & ->)|(key & Hkey & Hm)]; [left; exists w'; split; [right; exact Hw'|reflexivity]|].
        right. exists key. split; [exact Hkey|]. rewrite arrived_on_cons, app_assoc. change (l_queues l key ++ arrived_on key [w]) with (q key).
        rewrite named_app in Hm |- *. rewrite <- (Hin key Hkey). rewrite !in_app_iff in *. tauto.
      * destruct HL as (tr2 & HR2 & -> & Ha2 & Hh2 & Hin2 & Ht2). exists (tr ++ tr2). rewrite app_assoc. split; [exact HR2|].
        split; [rewrite flat_map_app; reflexivity|]. split; [exact Ha2|]. split; [apply Forall_app; split; [exact (heard_keys _ _ Ein)|exact Hh2]|]. split.
        { intros key Hkey. rewrite inputs_app, <- app_assoc, (Hin2 key Hkey), named_app, app_assoc, (Hin key Hkey), <- named_app.
          rewrite (arrived_on_cons key w ws), app_assoc. reflexivity. }
        { rewrite inputs_app, Ht2. unfold inputs_on. rewrite Ein, round_timer. reflexivity. }
Qed.

Theorem broker_loop k fuel ws tr0 l : run o cfg k tr0 (l_states l 0) -> l_async l = [] -> (forall w, In w ws -> w_async w = []) ->
  exists acts r, loop (S fuel) ws l = (acts, r) /\
  match r with
  | inr l' => exists tr, run o cfg k (tr0 ++ tr) (l_states l' 0) /\ acts = flat_map event_actions tr /\ l_async l' = [] /\
      Forall (fun e => In (m_key (ev_in e)) ["clients"; "workers"; "timer"]) tr /\
      (forall key, In key ["clients"; "workers"] ->
        inputs_on key tr ++ named_msgs key (l_queues l' key) = named_msgs key (l_queues l key ++ arrived_on key ws)) /\
      inputs_on "timer" tr = map timer_msg ws
  | inl e => exists tr s m outs f, e = Threw f /\ run o cfg k (tr0 ++ tr) s /\ crashes o cfg s m outs f /\
      acts = flat_map event_actions tr ++ ACall 0 m :: flat_map broker_route outs /\
      ((exists w, In w ws /\ m = timer_msg w) \/
       exists key, In key ["clients"; "workers"] /\ In m (named_msgs key (l_queues l key ++ arrived_on key ws)))
  end.
Proof.
  intros HR Ha Hw. destruct (loop_broker k fuel ws tr0 l HR Ha Hw) as (acts & r & E & HD). exists acts, r. split; [exact E|].
  destruct r as [e|l']; [exact HD|]. destruct HD as (tr & H1 & H2 & H3 & H4 & H5). exists tr. split; [exact H1|]. split; [exact H2|].
  split; [exact H3|]. split; [|exact H5]. eapply Forall_impl; [|exact H4]. intros x Hx. apply existsb_exists in Hx.
  destruct Hx as (key & Hk & Ek). apply String.eqb_eq in Ek. rewrite Ek. exact Hk.
Qed.

Theorem broker_begins k : build broker_setup = broker_tables /\ run o cfg k [] (l_states (broker_start (empty_manager k)) 0).
Proof. split; [reflexivity|constructor]. Qed.
End Broker.
