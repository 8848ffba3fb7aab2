(* Time in the reactor: what counts is the time spent in poll. *)
From Coq Require Import Lia.
From Verif Require Import Base Bytes Containers Worker Multi Single Queue Handler SpecText Spec SpecRun SpecMsg SpecPings Facts HexFacts Pings Demo
  Reactor SpecReactor ReactorFacts ReactorRun.
Local Open Scope string_scope.
Local Open Scope list_scope.

(* equal arrivals and equal rounded waits: equal behaviour *)
Theorem loop_depends {St} t (handler : nat -> msg -> St -> list msg * (fault + St)) fuel ws : forall ws' l,
  map w_arrived ws = map w_arrived ws' -> map w_async ws = map w_async ws' -> counted ws = counted ws' ->
  loop St t handler fuel ws l = loop St t handler fuel ws' l.
Proof.
  induction ws as [|w ws IH]; intros [|w' ws'] l H1 H2 H3; try discriminate; [reflexivity|].
  injection H1 as A1 H1. injection H2 as A2 H2. unfold counted in H3. cbn [map] in H3. injection H3 as A3 H3.
  assert (E : iteration St t handler fuel w l = iteration St t handler fuel w' l).
  { unfold iteration, serve_timer, elapsed_ms. rewrite A1, A2, A3. reflexivity. }
  cbn [loop]. rewrite E. destruct (iteration St t handler fuel w' l) as (a, [e|l1]); [reflexivity|]. rewrite (IH ws' l1 H1 H2 H3). reflexivity.
Qed.

Lemma reads_text z : in_i64 z = true -> reads (to_string_Z z) z.
Proof. intros H. apply reads_stoll. apply stoll_to_string. exact H. Qed.

Lemma ticks_inputs tr : forall ws, inputs_on "timer" tr = map timer_msg ws -> Forall (fun z => in_i64 z = true) (counted ws) -> ticks tr (counted ws).
Proof.
  induction tr as [|e tr IH]; intros ws H Hi.
  - destruct ws; [constructor|discriminate].
  - unfold inputs_on in H. cbn [map filter] in H. destruct (String.eqb_spec (m_key (ev_in e)) "timer") as [E|E].
    + destruct ws as [|w ws]; [discriminate|]. cbn [map] in H. injection H as H1 H2. unfold counted in Hi |- *. cbn [map] in Hi |- *.
      inversion Hi; subst. eapply ti_tick; [exact E|rewrite H1; reflexivity|apply reads_text; assumption|]. apply IH; assumption.
    + apply ti_other; [exact E|]. apply IH; assumption.
Qed.

Section Time.
Context (o : oracle) (cfg : config) (k : kind) (fuel : nat).
Local Notation loop := (loop state broker_tables (broker_handlers o cfg) (S fuel)).

Lemma loop_after tr0 l ws acts l' : run o cfg k tr0 (l_states l 0) -> l_async l = [] -> (forall w, In w ws -> w_async w = []) ->
  loop ws l = (acts, inr l') -> exists tr, run o cfg k (tr0 ++ tr) (l_states l' 0) /\
    inputs_on "timer" tr = map timer_msg ws /\ Forall (fun e => heard (ev_in e) = true) tr /\
    forall key, In key ["clients"; "workers"] ->
      inputs_on key tr ++ named_msgs key (l_queues l' key) = named_msgs key (l_queues l key ++ arrived_on key ws).
Proof.
  intros HR Ha Hw HL. destruct (loop_broker o cfg k fuel ws tr0 l HR Ha Hw) as (a & r & E & HD). rewrite HL in E. injection E as <- <-.
  destruct HD as (tr & HR' & _ & _ & Hh & Hin & Ht). exists tr. auto.
Qed.

Theorem kept tr1 e l ws acts l' w : run o cfg k (tr1 ++ [e]) (l_states l 0) -> hears w e ->
  l_async l = [] -> (forall x, In x ws -> w_async x = []) ->
  loop ws l = (acts, inr l') -> Forall (fun z => 0 <= z /\ in_i64 z = true)%Z (counted ws) -> (1 <= c_max_liveness cfg)%N ->
  (sum (counted ws) < Z.of_N (c_max_liveness cfg) * (c_ping_interval cfg + 1))%Z ->
  In w (s_reg (l_states l' 0)).
Proof.
  intros HR Hh Ha Hw HL Hz H1 Hs. destruct (loop_after _ _ _ _ _ HR Ha Hw HL) as (tr & HR' & Ht & _).
  rewrite <- app_assoc in HR'. eapply communicating_kept; [exact HR'|exact Hh| |exact (Forall_impl _ (fun z H => proj1 H) Hz)|exact H1|exact Hs].
  apply ticks_inputs; [exact Ht|exact (Forall_impl _ (fun z H => proj2 H) Hz)].
Qed.

Theorem removed tr1 e l ws acts l' w d : run o cfg k (tr1 ++ [e]) (l_states l 0) -> hears w e ->
  l_async l = [] -> (forall x, In x ws -> w_async x = []) ->
  (forall i m, In (i, m) (l_queues l "workers" ++ arrived_on "workers" ws) -> i <> w_identity w) ->
  loop ws l = (acts, inr l') -> Forall (fun z => 0 <= z <= d)%Z (counted ws) -> (0 <= d)%Z -> in_i64 d = true ->
  (0 <= c_ping_interval cfg)%Z -> (1 <= c_max_liveness cfg)%N ->
  (Z.of_N (c_max_liveness cfg - 1) * (c_ping_interval cfg + d) + c_ping_interval cfg < sum (counted ws))%Z ->
  ~ In w (s_reg (l_states l' 0)).
Proof.
  intros HR Hh Ha Hw Hq HL Hz Hd Hi H0 H1 Hs. destruct (loop_after _ _ _ _ _ HR Ha Hw HL) as (tr & HR' & Ht & _ & Hin).
  rewrite <- app_assoc in HR'. eapply silent_removed; [exact HR'|exact Hh| | |exact Hz|exact Hd|exact H0|exact H1|exact Hs].
  - intros e' He' (Hkey & Hsend). unfold sender in Hsend.
    assert (Hm : In (ev_in e') (named_msgs "workers" (l_queues l "workers" ++ arrived_on "workers" ws))).
    { rewrite <- Hin by (right; left; reflexivity). apply in_app_iff. left. unfold inputs_on. apply filter_In. split; [apply in_map; exact He'|].
      apply String.eqb_eq. exact Hkey. }
    unfold named_msgs in Hm. apply in_map_iff in Hm. destruct Hm as ((i, m) & Em & Hm). apply (Hq i m Hm). apply (f_equal m_ident) in Em.
    simpl in Em. rewrite Em. apply find_some in Hsend. destruct Hsend as (_ & Hn). unfold named in Hn. apply String.eqb_eq in Hn. auto.
  - apply ticks_inputs; [exact Ht|]. eapply Forall_impl; [|exact Hz]. intros z Hz'. unfold in_i64, min_i64, max_i64 in *. rewrite andb_true_iff, !Z.leb_le in *. simpl in *. lia.
Qed.
End Time.

(* ---- a worker that is silent for any time ---- *)

(* a client asks just before a millisecond of waiting is over *)
Definition busy_wait (n : nat) : wait :=
  mkWait [("clients", ("C", ["get-runtime-stats"]))] [] (Z.of_nat n * 999999) (Z.of_nat (S n) * 999999).
Definition intro_wait : wait := mkWait [("workers", ("A", ["init"; "g"]))] [] 0 0.
Definition ping_wait : wait := mkWait [("workers", ("A", ["ping"]))] [] 0 0.

Section Silent.
Context (o : oracle) (cfg : config).
Hypothesis interval : (0 <= c_ping_interval cfg)%Z.

(* what is left of a tick of zero milliseconds with one worker *)
Definition rest_of_tick (w : worker) : M unit :=
  modify (fun s => set_timers (pm_set w 0%Z (s_timers s)) s) ;;
  s <- get ;;
  stat_set STATS_QUEUED_JOBS (N.of_nat (q_queued_count (s_queue s))) ;;
  stat_set STATS_WORKER_COUNT (N.of_nat (length (s_reg s))) ;;
  stat_set STATS_IDLE_WORKER_COUNT 0 ;;
  count_idle (s_reg s) ;;
  s <- get ;;
  stat_set STATS_JOBS_IN_PROGRESS (size_sub (stat STATS_WORKER_COUNT s) (stat STATS_IDLE_WORKER_COUNT s)).

Lemma bind_silent {A B} (m : M A) (f : A -> M B) s a s1 : m s = ([], inr (a, s1)) -> bind m f s = f a s1.
Proof. intros H. unfold bind. rewrite H. destruct (f a s1). reflexivity. Qed.

Lemma tick_rest s w : s_reg s = [w] -> pm_find w (s_timers s) = Some 0%Z -> on_request o cfg (tick "0") s = rest_of_tick w s.
Proof.
  intros Hr Ht. assert (E : Z.ltb (c_ping_interval cfg) 0 = false) by (apply Z.ltb_ge; exact interval).
  assert (ES : timer_scan cfg 0 [w] s = ([], inr ([], set_timers (pm_set w 0%Z (s_timers s)) s))).
  { simpl. unfold bind at 1. unfold get at 1. rewrite Ht. cbn [Z.add]. change (in_i64 0) with true. cbn [negb]. rewrite E. reflexivity. }
  unfold on_request, when. cbn [m_key tick]. change (String.eqb KEY_TIMER KEY_WORKERS) with false.
  change (String.eqb "timer" KEY_WORKERS) with false. change (String.eqb "timer" KEY_CLIENTS) with false. change (String.eqb "timer" KEY_TIMER) with true.
  cbv iota. rewrite (bind_silent (ret tt) _ s tt s) by reflexivity. rewrite (bind_silent (ret tt) _ s tt s) by reflexivity.
  unfold process_timer. unfold tick. cbn [m_data]. cbv iota beta. rewrite (bind_silent (lift (stoll "0")) _ s 0%Z s) by reflexivity.
  rewrite (bind_silent get _ s s s) by reflexivity. rewrite Hr. rewrite (bind_silent _ _ _ _ _ ES).
  rewrite (bind_silent (expire_workers o cfg []) _ _ tt _) by reflexivity.
  unfold rest_of_tick. rewrite (bind_silent (modify _) _ s tt (set_timers (pm_set w 0%Z (s_timers s)) s)) by reflexivity. reflexivity.
Qed.
Definition first_worker : worker := set_description "" (mkWorker 0 (o_addr o 0) "A" "" "g" [] [("hwgroup", MMulti "g")]).
Definition intro (k : kind) : state :=
  match on_request o cfg (from_worker "A" ["init"; "g"]) (start k) with (_, inr (_, s)) => s | _ => start k end.
Definition ticked (s : state) : state := match rest_of_tick first_worker s with (_, inr (_, s')) => s' | _ => s end.
Definition pinged (s : state) : state :=
  match on_request o cfg (from_worker "A" ["ping"]) s with (_, inr (_, s')) => s' | _ => s end.
Definition settled (k : kind) : state := ticked (pinged (ticked (intro k))).

Lemma settle k :
  on_request o cfg (from_worker "A" ["init"; "g"]) (start k) = ([], inr (tt, intro k)) /\
  on_request o cfg (tick "0") (intro k) = ([], inr (tt, ticked (intro k))) /\
  on_request o cfg (from_worker "A" ["ping"]) (ticked (intro k)) = ([Msg "workers" "A" ["pong"]], inr (tt, pinged (ticked (intro k)))) /\
  on_request o cfg (tick "0") (pinged (ticked (intro k))) = ([], inr (tt, settled k)) /\
  (exists outs, on_request o cfg (from_client "C" ["get-runtime-stats"]) (settled k) = (outs, inr (tt, settled k))) /\
  on_request o cfg (tick "0") (settled k) = ([], inr (tt, settled k)) /\
  In first_worker (s_reg (settled k)).
Proof.
  split; [|split; [|split; [|split; [|split; [|split]]]]].
  - destruct k; vm_compute; reflexivity.
  - destruct k; (rewrite (tick_rest _ first_worker); [|vm_compute; reflexivity|vm_compute; reflexivity]); vm_compute; reflexivity.
  - destruct k; vm_compute; reflexivity.
  - destruct k; (rewrite (tick_rest _ first_worker); [|vm_compute; reflexivity|vm_compute; reflexivity]); vm_compute; reflexivity.
  - destruct k; eexists; vm_compute; reflexivity.
  - destruct k; (rewrite (tick_rest _ first_worker); [|vm_compute; reflexivity|vm_compute; reflexivity]); vm_compute; reflexivity.
  - destruct k; vm_compute; left; reflexivity.
Qed.

Local Notation H := (broker_handlers o cfg).

Lemma one_message fuel w key i d l outs s1 s2 : In key ["clients"; "workers"] -> (forall n, l_queues l n = []) -> l_async l = [] ->
  w_arrived w = [(key, (i, d))] -> w_async w = [] -> timer_msg w = tick "0" ->
  on_request o cfg (Msg key i d) (l_states l 0) = (outs, inr (tt, s1)) -> on_request o cfg (tick "0") s1 = ([], inr (tt, s2)) ->
  exists acts l', iteration state broker_tables H (S fuel) w l = (acts, inr l') /\
    (forall n, l_queues l' n = []) /\ l_async l' = [] /\ l_states l' 0 = s2.
Proof.
  intros Hk Hq Ha Hw Hwa Ht H1 H2.
  pose proof (iteration_spec broker_tables H (S fuel) (build_nodup broker_setup) w l
    (fun n => if String.eqb key n then [(i, d)] else [])) as HI.
  assert (G : forall n, (if String.eqb key n then [(i, d)] else []) = l_queues l n ++ arrived_on n [w]).
  { intros n. rewrite Hq. unfold arrived_on. simpl. rewrite Hw. simpl. destruct (String.eqb key n); reflexivity. }
  specialize (HI G). rewrite Ha, Hwa in HI. cbn [app] in HI. rewrite round_jobs in HI.
  set (P := process_message state broker_tables H (send_message state broker_tables H (S fuel)) []) in *.
  set (F := send_message state broker_tables H (S fuel) []) in *.
  assert (EP : exists acts, perform P F (map Process [Msg key i d; tick "0"]) (l_states l) =
    (acts, inr (set_state state 0 s2 (set_state state 0 s1 (l_states l))))).
  { cbn [map perform]. pose proof (process_broker o cfg fuel (Msg key i d) (l_states l)) as HP.
    assert (Hh : heard (Msg key i d) = true) by (destruct Hk as [<-|[<-|[]]]; reflexivity). rewrite Hh, H1 in HP. fold P in HP. rewrite HP.
    pose proof (process_broker o cfg fuel (tick "0") (set_state state 0 s1 (l_states l))) as HP2. change (heard (tick "0")) with true in HP2.
    cbv iota in HP2. change (set_state state 0 s1 (l_states l) 0) with s1 in HP2. rewrite H2 in HP2. fold P in HP2. rewrite HP2.
    eexists. reflexivity. }
  destruct EP as (acts & EP).
  assert (ER : round_msgs (fun n => if String.eqb key n then [(i, d)] else []) w = [Msg key i d; tick "0"]).
  { unfold round_msgs. rewrite Ht. destruct Hk as [<-|[<-|[]]]; reflexivity. }
  rewrite ER, EP in HI. destruct HI as (l' & E1 & E2 & E3 & E4). exists acts, l'. split; [exact E1|]. split; [|split; [exact E4|rewrite E2; reflexivity]].
  intros n. rewrite E3. destruct Hk as [<-|[<-|[]]]; change (map fst (t_sockets broker_tables)) with ["clients"; "monitor"; "workers"]; cbn [existsb].
  - rewrite (String.eqb_sym "clients" n). destruct (String.eqb n "clients"); [reflexivity|]. destruct (_ || _); reflexivity.
  - rewrite (String.eqb_sym "workers" n). destruct (String.eqb n "workers"); [|destruct (_ || _); reflexivity].
    rewrite !orb_true_r. reflexivity.
Qed.

Lemma busy_tick n : timer_msg (busy_wait n) = tick "0".
Proof.
  unfold timer_msg, busy_wait, tick. cbn [w_after w_before].
  replace (Z.of_nat (S n) * 999999 - Z.of_nat n * 999999)%Z with 999999%Z by lia. reflexivity.
Qed.

Lemma busy_rounds k fuel ns : forall l, l_states l 0 = settled k -> (forall n, l_queues l n = []) -> l_async l = [] ->
  exists acts l', loop state broker_tables H (S fuel) (map busy_wait ns) l = (acts, inr l') /\ l_states l' 0 = settled k.
Proof.
  destruct (settle k) as (_ & _ & _ & _ & (outs & HC) & HT & _).
  induction ns as [|n ns IH]; intros l Hs Hq Ha; [eexists _, l; split; [reflexivity|exact Hs]|].
  rewrite <- Hs in HC. destruct (one_message fuel (busy_wait n) "clients" "C" ["get-runtime-stats"] l outs (settled k) (settled k)
    (or_introl eq_refl) Hq Ha eq_refl eq_refl (busy_tick n)) as (a & l1 & E & Hq1 & Ha1 & Hs1).
  { change (Msg "clients" "C" ["get-runtime-stats"]) with (from_client "C" ["get-runtime-stats"]). rewrite HC, Hs. reflexivity. }
  { exact HT. }
  rewrite Hs in HC. cbn [map loop]. rewrite E. destruct (IH l1 Hs1 Hq1 Ha1) as (b & l' & E' & Hs'). rewrite E'.
  eexists _, l'. split; [reflexivity|exact Hs'].
Qed.

Lemma silent_kept k fuel ns : exists acts l',
  loop state broker_tables H (S fuel) (intro_wait :: ping_wait :: map busy_wait ns) (broker_start (empty_manager k)) = (acts, inr l') /\
  In first_worker (s_reg (l_states l' 0)).
Proof.
  destruct (settle k) as (H1 & H2 & H3 & H4 & _ & _ & HW).
  destruct (one_message fuel intro_wait "workers" "A" ["init"; "g"] (broker_start (empty_manager k)) [] (intro k) (ticked (intro k)))
    as (a1 & l1 & E1 & Hq1 & Ha1 & Hs1); auto; [right; left; reflexivity|].
  rewrite <- Hs1 in H3. destruct (one_message fuel ping_wait "workers" "A" ["ping"] l1 [Msg "workers" "A" ["pong"]] (pinged (ticked (intro k))) (settled k))
    as (a2 & l2 & E2 & Hq2 & Ha2 & Hs2); auto; [right; left; reflexivity|rewrite <- Hs1; exact H3|].
  destruct (busy_rounds k fuel ns l2 Hs2 Hq2 Ha2) as (a3 & l3 & E3 & Hs3).
  change (loop state broker_tables H (S fuel) (intro_wait :: ping_wait :: map busy_wait ns) (broker_start (empty_manager k))) with
    (match iteration state broker_tables H (S fuel) intro_wait (broker_start (empty_manager k)) with
     | (a, inl e) => (a, inl e)
     | (a, inr l1) => let '(b, r) := loop state broker_tables H (S fuel) (ping_wait :: map busy_wait ns) l1 in (a ++ b, r) end).
  rewrite E1. cbn [loop]. rewrite E2, E3. eexists _, l3. split; [reflexivity|]. rewrite Hs3. exact HW.
Qed.

Lemma busy_clock n : forall m, clock_ok (Z.of_nat m * 999999) (map busy_wait (seq m n)) /\
  clock_end (Z.of_nat m * 999999) (map busy_wait (seq m n)) = (Z.of_nat (m + n) * 999999)%Z.
Proof.
  induction n as [|n IH]; intros m.
  - simpl. rewrite Nat.add_0_r. auto.
  - destruct (IH (S m)) as (H1 & H2). cbn [seq map clock_ok]. split; [split; [cbn [busy_wait w_before w_after]; lia|exact H1]|].
    unfold clock_end in *. cbn [map]. replace (m + S n) with (S m + n) by lia. rewrite <- H2.
    cbn [busy_wait w_after]. generalize (map w_after (map busy_wait (seq (S m) n))). generalize (Z.of_nat (S m) * 999999)%Z. intros z l.
    revert z. induction l as [|y l IHl]; intros z; [reflexivity|]. change (last (y :: l) (Z.of_nat m * 999999)%Z = last (y :: l) z).
    rewrite (IHl y). destruct l; [reflexivity|]. cbn [last]. clear. revert z0. induction l as [|x l IH]; intros z0; [reflexivity|]. apply IH.
Qed.

Theorem uncounted k fuel D : exists first ws,
  clock_ok 0 (first ++ ws) /\ (D <= clock_end 0 (first ++ ws) - clock_end 0 first)%Z /\
  Forall (fun w => w_arrived w = [("clients", ("C", ["get-runtime-stats"]))] /\ w_async w = []) ws /\
  exists w, w_identity w = "A" /\ forall ws1 ws2, ws = ws1 ++ ws2 -> exists acts l',
    loop state broker_tables H (S fuel) (first ++ ws1) (broker_start (empty_manager k)) = (acts, inr l') /\
    In w (s_reg (l_states l' 0)).
Proof.
  exists [intro_wait; ping_wait], (map busy_wait (seq 0 (Z.to_nat D))). cbn [app].
  destruct (busy_clock (Z.to_nat D) 0) as (H1 & H2). change (Z.of_nat 0 * 999999)%Z with 0%Z in *.
  split; [|split; [|split]].
  - cbn [clock_ok intro_wait ping_wait w_before w_after]. repeat split; try lia. exact H1.
  - change (clock_end 0 [intro_wait; ping_wait]) with 0%Z. unfold clock_end in *. cbn [map intro_wait ping_wait w_after].
    change (D <= last ([0; 0] ++ map w_after (map busy_wait (seq 0 (Z.to_nat D)))) 0 - 0)%Z.
    destruct (map w_after (map busy_wait (seq 0 (Z.to_nat D)))) eqn:E.
    + simpl in *. lia.
    + cbn [app]. change (D <= last (z :: l) 0 - 0)%Z. rewrite H2. simpl Nat.add. lia.
  - apply Forall_map, Forall_forall. intros n _. split; reflexivity.
  - exists first_worker. split; [reflexivity|]. intros ws1 ws2 E.
    assert (G : ws1 = map busy_wait (firstn (length ws1) (seq 0 (Z.to_nat D)))).
    { rewrite <- firstn_map, E, firstn_app, Nat.sub_diag, firstn_all. simpl. rewrite app_nil_r. reflexivity. }
    rewrite G. apply silent_kept.
Qed.
End Silent.
