(* The whole process is the ledger or the hall behind the loop (C74). *)
From Coq Require Import Lia.
From Verif Require Import Base Bytes Containers Worker Multi Single Queue Handler SpecText Spec SpecRun SpecFront SpecFatal SpecLedger SpecPool SpecOracle Reactor SpecReactor Config SpecConfig Logger Startup SpecStartup SpecWhole
  Facts ReactorFacts ReactorRun StartupFacts LedgerFun LedgerRun PoolFun PoolRun.
Local Open Scope string_scope.
Local Open Scope list_scope.

Section Broker.
Context (o : oracle) (cfg : config).
Local Notation H := (broker_handlers o cfg).
Local Notation loop fuel := (loop state broker_tables H fuel).

Lemma round_agenda q w : filter heard (round_msgs q w) = named_msgs "clients" (firstn 1 (q "clients")) ++ named_msgs "workers" (firstn 1 (q "workers")) ++ [timer_msg w].
Proof.
  unfold round_msgs. cbn [flat_map].
  destruct (q "clients") as [|(i1, d1) ?], (q "monitor") as [|(i2, d2) ?], (q "workers") as [|(i3, d3) ?]; reflexivity.
Qed.

Theorem loop_agenda k fuel ws : forall tr0 l, run o cfg k tr0 (l_states l 0) -> l_async l = [] -> (forall w, In w ws -> w_async w = []) ->
  exists acts r, loop (S fuel) ws l = (acts, r) /\
  match r with
  | inr l' => exists tr, run o cfg k (tr0 ++ tr) (l_states l' 0) /\ acts = flat_map event_actions tr /\
      map ev_in tr = agenda (l_queues l "clients") (l_queues l "workers") ws
  | inl e => exists tr s m outs f later, run o cfg k (tr0 ++ tr) s /\ crashes o cfg s m outs f /\
      acts = flat_map event_actions tr ++ ACall 0 m :: flat_map broker_route outs /\
      agenda (l_queues l "clients") (l_queues l "workers") ws = map ev_in tr ++ m :: later
  end.
Proof.
  induction ws as [|w ws IH]; intros tr0 l HR Ha Hw.
  - eexists _, _. split; [reflexivity|]. exists []. rewrite app_nil_r. auto.
  - cbn [Reactor.loop]. pose proof (iteration_spec broker_tables H (S fuel) (build_nodup broker_setup) w l _ (fun _ => eq_refl)) as HI.
    rewrite Ha, (Hw w (or_introl eq_refl)) in HI. cbn [app] in HI. rewrite round_jobs in HI.
    set (q := fun n => l_queues l n ++ arrived_on n [w]) in HI.
    destruct (perform_broker o cfg k fuel (round_msgs q w) tr0 (l_states l) HR (round_known q w)) as (a & r & EQ & HD). rewrite EQ in HI.
    pose proof (round_agenda q w) as HG. cbn [agenda]. cbv zeta.
    change (l_queues l "clients" ++ arrived_on "clients" [w]) with (q "clients"). change (l_queues l "workers" ++ arrived_on "workers" [w]) with (q "workers").
    assert (HA : forall x, named_msgs "clients" (firstn 1 (q "clients")) ++ named_msgs "workers" (firstn 1 (q "workers")) ++ timer_msg w :: x = filter heard (round_msgs q w) ++ x).
    { intros x. rewrite HG, <- !app_assoc. reflexivity. }
    destruct r as [e|ss].
    + rewrite HI. eexists _, _. split; [reflexivity|].
      destruct HD as (tr & s & m & outs & f & ms1 & ms2 & -> & HR1 & HC & -> & Ems & Hm & Ei). exists tr, s, m, outs, f, (filter heard ms2 ++ agenda (tl (q "clients")) (tl (q "workers")) ws).
      split; [exact HR1|]. split; [exact HC|]. split; [reflexivity|]. rewrite HA, Ems, filter_app. cbn [filter]. rewrite Hm, Ei, <- app_assoc. reflexivity.
    + destruct HD as (tr & HR1 & -> & Ein). destruct HI as (l1 & E1 & E2 & E3 & E4). rewrite E1.
      rewrite <- E2 in HR1. destruct (IH (tr0 ++ tr) l1 HR1 E4) as (b & r & EL & HL); [intros x Hx; apply Hw; right; exact Hx|]. rewrite EL.
      assert (Hq : l_queues l1 "clients" = tl (q "clients") /\ l_queues l1 "workers" = tl (q "workers")) by (rewrite !E3; split; reflexivity).
      destruct Hq as (Hq1 & Hq2). rewrite Hq1, Hq2 in HL.
      eexists _, _. split; [reflexivity|]. destruct r as [e|l2].
      * destruct HL as (tr2 & s & m & outs & f & later & HR2 & HC & -> & EA). exists (tr ++ tr2), s, m, outs, f, later. rewrite app_assoc.
        split; [exact HR2|]. split; [exact HC|]. split; [rewrite flat_map_app, <- !app_assoc; reflexivity|].
        rewrite HA, EA, map_app, Ein, <- app_assoc. reflexivity.
      * destruct HL as (tr2 & HR2 & -> & EA). exists (tr ++ tr2). rewrite app_assoc. split; [exact HR2|]. split; [rewrite flat_map_app; reflexivity|].
        rewrite HA, map_app, EA, Ein. reflexivity.
Qed.

Lemma run_answered k tr s : run o cfg k tr s -> exists L, answered o cfg k (map ev_in tr) (map ev_out tr) L /\ forall m outs f, crashes o cfg s m outs f <-> doomed L m outs f.
Proof.
  intros HR. destruct k.
  - destruct (run_roll_is _ _ _ _ HR) as (R & H1 & _ & _ & _ & H2). exists (as_ledger R). split; [apply an_single; exact H1|exact H2].
  - destruct (run_ledger_is _ _ _ _ HR) as (L & H1 & _). exists L. split; [apply an_multi; exact H1|]. intros m outs f. exact (crash_ledger _ _ _ _ _ _ _ _ HR H1).
Qed.

Lemma shown_run tr : map Act (flat_map event_actions tr) = shown (map ev_in tr) (map ev_out tr).
Proof.
  unfold shown. induction tr as [|e tr IH]; [reflexivity|]. cbn [flat_map map combine]. rewrite map_app, IH. reflexivity.
Qed.
End Broker.

(* what a fatal message still brings about is determined *)
Lemma doomed_outs L m outs1 f1 outs2 f2 : doomed L m outs1 f1 -> doomed L m outs2 f2 -> outs1 = outs2.
Proof. intros H1 H2. destruct H1; inversion H2; subst; try reflexivity; try congruence. Qed.

Section Process.
Context (env : environment) (args : list string) (o : oracle).

Lemma started_serves g k : started env args g k <-> start_up env args = (prelude g, Serving (k, g)).
Proof.
  split.
  - intros (doc & H1 & H2 & H3 & H4). apply serves. exists doc. auto.
  - intros E. apply serves in E. destruct E as (doc & H1 & H2 & H3 & H4 & _). exists doc. auto.
Qed.

Theorem whole_process fuel ws : (forall w, In w ws -> w_async w = []) ->
  match process env args o (S fuel) ws with
  | (effs, Exited c) => c = 1%N /\ refused env args (lines effs)
  | (effs, Serving l) => exists g k outss L, started env args g k /\ answered o (handler_config g) k (agenda [] [] ws) outss L /\
      effs = prelude g ++ shown (agenda [] [] ws) outss
  | (effs, Unwinding) => start_up env args = (effs, Unwinding) \/
      exists g k ms m later outss L outs f, started env args g k /\ agenda [] [] ws = ms ++ m :: later /\
        answered o (handler_config g) k ms outss L /\ doomed L m outs f /\ effs = prelude g ++ shown ms outss ++ shown_one (m, outs)
  end.
Proof.
  intros Hw. unfold process. destruct (start_up env args) as (first, [c| |(k, g)]) eqn:E.
  - destruct (refuses env args _ _ E) as (H1 & H2 & _). auto.
  - left. reflexivity.
  - pose proof E as ES. apply serves in ES. destruct ES as (doc & C1 & C2 & C3 & C4 & ->). assert (HS : started env args g k) by (exists doc; auto).
    destruct (loop_agenda o (handler_config g) k fuel ws [] (broker_start (empty_manager k)) (run_nil _ _ _) eq_refl Hw) as (acts & r & EL & HD).
    rewrite EL. cbn [broker_start l_queues app] in HD. destruct r as [e|l].
    + right. destruct HD as (tr & s & m & outs & f & later & HR & HC & -> & EA). destruct (run_answered _ _ _ _ _ HR) as (L & HA & HF).
      exists g, k, (map ev_in tr), m, later, (map ev_out tr), L, outs, f. split; [exact HS|]. split; [exact EA|]. split; [exact HA|]. split; [apply HF; exact HC|].
      unfold prelude. rewrite map_app, shown_run. reflexivity.
    + destruct HD as (tr & HR & -> & EA). destruct (run_answered _ _ _ _ _ HR) as (L & HA & HF). rewrite <- EA.
      exists g, k, (map ev_out tr), L. split; [exact HS|]. split; [exact HA|]. unfold prelude. rewrite shown_run. reflexivity.
Qed.

(* what is answered is determined, and so are its beginnings *)
Lemma answered_fun cfg k ms outss1 L1 outss2 L2 : (k = KSingle -> no_ties o) -> answered o cfg k ms outss1 L1 -> answered o cfg k ms outss2 L2 -> outss1 = outss2 /\ L1 = L2.
Proof.
  intros HT H1 H2. destruct H1 as [ms outss1 L1 H1|ms outss1 R1 H1]; inversion H2; subst.
  - eapply reacted_fun; eassumption.
  - match goal with A : responded _ _ _ _ _ outss2 _ |- _ => destruct (responded_fun _ _ (HT eq_refl) _ _ _ _ H1 _ _ A) as (-> & ->) end. auto.
Qed.

Lemma answered_prefix cfg k ms m later outss L : answered o cfg k (ms ++ m :: later) outss L ->
  exists outss1 L1, answered o cfg k ms outss1 L1 /\ forall outs f, ~ doomed L1 m outs f.
Proof.
  intros HA. inversion HA as [x1 x2 x3 HR|x1 x2 R HR]; subst; clear HA.
  - remember (ms ++ m :: later) as all eqn:E. revert later E. induction HR as [|all outss L m' outs L' HL IH Hd Hr]; intros later E; [destruct ms; discriminate|].
    destruct later as [|y later] using rev_ind.
    + apply app_inj_tail in E. destruct E as (-> & ->). exists outss, L. split; [apply an_multi; exact HL|exact Hd].
    + clear IHlater. rewrite app_comm_cons, app_assoc in E. apply app_inj_tail in E. destruct E as (-> & ->). exact (IH _ eq_refl).
  - remember (ms ++ m :: later) as all eqn:E. revert later E. induction HR as [|all outss L m' outs L' HL IH Hd Hr]; intros later E; [destruct ms; discriminate|].
    destruct later as [|y later] using rev_ind.
    + apply app_inj_tail in E. destruct E as (-> & ->). exists outss, (as_ledger L). split; [apply an_single; exact HL|exact Hd].
    + clear IHlater. rewrite app_comm_cons, app_assoc in E. apply app_inj_tail in E. destruct E as (-> & ->). exact (IH _ eq_refl).
Qed.

Lemma started_fun g k g' k' : started env args g k -> started env args g' k' -> g = g' /\ k = k'.
Proof. intros H1 H2. apply started_serves in H1, H2. assert (HE : Serving (k, g) = Serving (k', g')) by congruence. injection HE as -> ->. auto. Qed.

Theorem whole_complete fuel ws g k outss L : (forall w, In w ws -> w_async w = []) -> (k = KSingle -> no_ties o) ->
  started env args g k -> answered o (handler_config g) k (agenda [] [] ws) outss L ->
  exists l, process env args o (S fuel) ws = (prelude g ++ shown (agenda [] [] ws) outss, Serving l).
Proof.
  intros Hw HT HS HA. pose proof (whole_process fuel ws Hw) as HP. pose proof (proj1 (started_serves _ _) HS) as ES.
  destruct (process env args o (S fuel) ws) as (effs, [c| |l]) eqn:E.
  - exfalso. unfold process in E. rewrite ES in E. destruct (Reactor.loop _ _ _ _ _ _) as (acts, [e|l]); discriminate.
  - exfalso. destruct HP as [HP|(g' & k' & ms & m & later & outss' & L' & outs & f & HS' & EA & HA' & Hd & _)]; [congruence|].
    destruct (started_fun _ _ _ _ HS HS') as (<- & <-). rewrite EA in HA. destruct (answered_prefix _ _ _ _ _ _ _ HA) as (outss1 & L1 & HA1 & Hn).
    destruct (answered_fun _ _ _ _ _ _ _ HT HA1 HA') as (_ & ->). exact (Hn _ _ Hd).
  - destruct HP as (g' & k' & outss' & L' & HS' & HA' & ->). destruct (started_fun _ _ _ _ HS HS') as (<- & <-).
    destruct (answered_fun _ _ _ _ _ _ _ HT HA HA') as (<- & _). exists l. reflexivity.
Qed.

Theorem whole_dies fuel ws g k ms m later outss L outs f : (forall w, In w ws -> w_async w = []) -> (k = KSingle -> no_ties o) ->
  started env args g k -> agenda [] [] ws = ms ++ m :: later -> answered o (handler_config g) k ms outss L -> doomed L m outs f ->
  process env args o (S fuel) ws = (prelude g ++ shown ms outss ++ shown_one (m, outs), Unwinding).
Proof.
  intros Hw HT HS EM HA Hd. pose proof (whole_process fuel ws Hw) as HP. pose proof (proj1 (started_serves _ _) HS) as ES.
  destruct (process env args o (S fuel) ws) as (effs, [c| |l]) eqn:E.
  - exfalso. unfold process in E. rewrite ES in E. destruct (Reactor.loop _ _ _ _ _ _) as (acts, [e|l]); discriminate.
  - destruct HP as [HP|(g' & k' & ms' & m' & later' & outss' & L' & outs' & f' & HS' & EA & HA' & Hd' & ->)]; [congruence|].
    destruct (started_fun _ _ _ _ HS HS') as (<- & <-). rewrite EM in EA.
    assert (HC : ms = ms' /\ m = m').
    { clear - EA HA HA' Hd Hd' HT. assert (HB : forall a b x y m m' os os' M M' z z', a ++ m :: x = b ++ m' :: y -> answered o (handler_config g) k a os M -> answered o (handler_config g) k b os' M' ->
        doomed M m (fst z) (snd z) -> doomed M' m' (fst z') (snd z') -> length a <= length b).
      { intros a b x y m0 m0' os os' M M' z z' E1 A1 A2 D1 D2. destruct (le_lt_dec (length a) (length b)) as [|Hlt]; [assumption|]. exfalso.
        assert (EB : exists c, a = b ++ m0' :: c).
        { clear - E1 Hlt. revert b Hlt E1. induction a as [|u a IH]; intros b Hlt E1; [cbn in Hlt; lia|]. destruct b as [|v b].
          - cbn [app] in *. injection E1 as -> _. exists a. reflexivity.
          - cbn [app length] in *. injection E1 as -> E1. destruct (IH b ltac:(lia) E1) as (c & ->). exists c. reflexivity. }
        destruct EB as (c & ->). destruct (answered_prefix _ _ _ _ _ _ _ A1) as (os1 & M1 & A3 & Hn).
        destruct (answered_fun _ _ _ _ _ _ _ HT A3 A2) as (_ & ->). exact (Hn _ _ D2). }
      pose proof (HB _ _ _ _ _ _ _ _ _ _ (outs, f) (outs', f') EA HA HA' Hd Hd') as L1. pose proof (HB _ _ _ _ _ _ _ _ _ _ (outs', f') (outs, f) (eq_sym EA) HA' HA Hd' Hd) as L2.
      assert (EL : length ms = length ms') by lia. clear - EA EL. revert ms' EL EA. induction ms as [|u ms IH]; intros [|v ms'] EL EA; try discriminate.
      - injection EA as -> _. auto.
      - cbn [app] in EA. injection EA as -> EA. cbn [length] in EL. destruct (IH ms' ltac:(lia) EA) as (-> & ->). auto. }
    destruct HC as (<- & <-). destruct (answered_fun _ _ _ _ _ _ _ HT HA HA') as (<- & <-).
    rewrite (doomed_outs _ _ _ _ _ _ Hd Hd'). reflexivity.
  - exfalso. destruct HP as (g' & k' & outss' & L' & HS' & HA' & ->). destruct (started_fun _ _ _ _ HS HS') as (<- & <-).
    rewrite EM in HA'. destruct (answered_prefix _ _ _ _ _ _ _ HA') as (outss1 & L1 & HA1 & Hn).
    destruct (answered_fun _ _ _ _ _ _ _ HT HA1 HA) as (_ & ->). exact (Hn _ _ Hd).
Qed.
End Process.
