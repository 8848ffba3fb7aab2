(* Whatever the hall allows, the process does for some results of std::sort (C74). *)
From Coq Require Import Permutation Lia.
From Verif Require Import Base Bytes Containers Worker Multi Single Queue Handler SpecText Spec SpecRun SpecFront SpecFatal SpecBook SpecLedger SpecPool SpecOracle Reactor SpecReactor Config SpecConfig Logger Startup SpecStartup SpecWhole
  Facts Members ReactorFacts ReactorRun StartupFacts LedgerFloor LedgerFun LedgerRun PoolFloor Pool PoolFun PoolRun TieLocal PoolTies Whole.
Local Open Scope string_scope.
Local Open Scope list_scope.

Section Broker.
Context (o : oracle) (cfg : config).

Lemma survived k tr s tr1 s1 m c outs f : run o cfg k tr s -> map ev_in tr = map ev_in tr1 ++ m :: c -> run o cfg k tr1 s1 -> crashes o cfg s1 m outs f -> False.
Proof.
  intros HR E H1 HC. apply map_eq_app in E. destruct E as (t1 & t2 & -> & E1 & E2).
  destruct t2 as [|e t3]; [discriminate|]. cbn [map] in E2. injection E2 as E2 _. change (e :: t3) with ([e] ++ t3) in HR. rewrite app_assoc in HR.
  apply run_prefix in HR. destruct HR as (s2 & HR). inversion HR as [E|tr s0 m0 outs0 s0' HR0 Hs E]; [destruct t1; discriminate|].
  apply app_inj_tail in E. destruct E as (-> & <-). cbn [ev_in] in E2. subst m0.
  destruct (run_inputs _ _ _ _ _ HR0 _ _ H1 E1) as (_ & ->). unfold crashes in HC. congruence.
Qed.
End Broker.

Section Process.
Context (env : environment) (args : list string) (o : oracle).

Theorem ran_serves fuel ws g k tr s : (forall w, In w ws -> w_async w = []) -> started env args g k -> run o (handler_config g) k tr s -> map ev_in tr = agenda [] [] ws ->
  exists l, process env args o (S fuel) ws = (prelude g ++ shown (agenda [] [] ws) (map ev_out tr), Serving l).
Proof.
  intros Hw HS HR EI. pose proof (proj1 (started_serves _ _ _ _) HS) as ES. unfold process. rewrite ES.
  destruct (loop_agenda o (handler_config g) k fuel ws [] (broker_start (empty_manager k)) (run_nil _ _ _) eq_refl Hw) as (acts & r & EL & HD).
  rewrite EL. cbn [broker_start l_queues app] in HD. destruct r as [e|l].
  - exfalso. destruct HD as (tr1 & s1 & m & outs & f & later & HR1 & HC & -> & EA). rewrite <- EI in EA. exact (survived _ _ _ _ _ _ _ _ _ _ _ HR EA HR1 HC).
  - destruct HD as (tr1 & HR1 & -> & EA). rewrite <- EI in EA. destruct (run_inputs _ _ _ _ _ HR1 _ _ HR EA) as (-> & _). rewrite <- EI, shown_run. exists l. reflexivity.
Qed.

Theorem ran_dies fuel ws g k tr s m later outs f : (forall w, In w ws -> w_async w = []) -> started env args g k -> run o (handler_config g) k tr s ->
  agenda [] [] ws = map ev_in tr ++ m :: later -> crashes o (handler_config g) s m outs f ->
  process env args o (S fuel) ws = (prelude g ++ shown (map ev_in tr) (map ev_out tr) ++ shown_one (m, outs), Unwinding).
Proof.
  intros Hw HS HR EI HC. pose proof (proj1 (started_serves _ _ _ _) HS) as ES. unfold process. rewrite ES.
  destruct (loop_agenda o (handler_config g) k fuel ws [] (broker_start (empty_manager k)) (run_nil _ _ _) eq_refl Hw) as (acts & r & EL & HD).
  rewrite EL. cbn [broker_start l_queues app] in HD. destruct r as [e|l].
  - destruct HD as (tr1 & s1 & m1 & outs1 & f1 & later1 & HR1 & HC1 & -> & EA). rewrite EI in EA.
    assert (HN : forall a b x y (m m' : msg), a ++ m :: x = b ++ m' :: y -> length b < length a -> exists c, a = b ++ m' :: c).
    { clear. induction a as [|u a IH]; intros b x y m m' E Hl; [cbn in Hl; lia|]. destruct b as [|v b]; cbn [app length] in *.
      - injection E as -> _. exists a. reflexivity.
      - injection E as -> E. destruct (IH b x y m m' E ltac:(lia)) as (c & ->). exists c. reflexivity. }
    destruct (lt_eq_lt_dec (length (map ev_in tr)) (length (map ev_in tr1))) as [[Hl|He]|Hl].
    + exfalso. destruct (HN _ _ _ _ _ _ (eq_sym EA) Hl) as (c & Ec). exact (survived _ _ _ _ _ _ _ _ _ _ _ HR1 Ec HR HC).
    + assert (HE : map ev_in tr = map ev_in tr1 /\ m = m1).
      { clear - EA He. revert EA He. generalize (map ev_in tr1) as b. generalize (map ev_in tr) as a. induction a as [|u a IH]; intros [|v b] EA He; try discriminate; cbn [app length] in *.
        - injection EA as -> _. auto.
        - injection EA as -> EA. injection He as He. destruct (IH b EA He) as (-> & ->). auto. }
      destruct HE as (HE & <-). destruct (run_inputs _ _ _ _ _ HR _ _ HR1 HE) as (-> & ->). unfold crashes in HC, HC1. rewrite HC in HC1. injection HC1 as <- <-.
      unfold prelude. rewrite map_app, shown_run. reflexivity.
    + exfalso. destruct (HN _ _ _ _ _ _ EA Hl) as (c & Ec). exact (survived _ _ _ _ _ _ _ _ _ _ _ HR Ec HR1 HC1).
  - exfalso. destruct HD as (tr1 & HR1 & -> & EA). rewrite EI in EA. exact (survived _ _ _ _ _ _ _ _ _ _ _ HR1 EA HR HC).
Qed.
End Process.

(* what is answered is what the broker does for some order of ties *)
Lemma answered_runs rank clock tie0 cfg k ms outss L : answered (mkOracle rank clock tie0) cfg k ms outss L ->
  exists tie tr s, run (mkOracle rank clock tie) cfg k tr s /\ map ev_in tr = ms /\ map ev_out tr = outss /\
    forall m outs f, crashes (mkOracle rank clock tie) cfg s m outs f <-> doomed L m outs f.
Proof.
  intros HA. destruct HA as [ms outss L HL|ms outss R HL].
  - destruct (ledger_runs (mkOracle rank clock tie0) cfg _ _ _ HL) as (tr & s & HR & E1 & E2). exists tie0, tr, s. split; [exact HR|]. split; [exact E1|]. split; [exact E2|].
    intros m outs f. subst. exact (crash_ledger _ _ _ _ _ _ _ _ HR HL).
  - destruct (roll_runs _ _ _ _ _ _ HL) as (tie & tr & s & HR & H2 & E1 & E2). exists tie, tr, s. split; [exact HR|]. split; [exact E1|]. split; [exact E2|].
    intros m outs f. exact (doomed_crashes _ _ _ _ _ _ _ _ _ _ _ HR H2).
Qed.

Section Ties.
Context (env : environment) (args : list string) (rank : nat -> N) (clock : nat -> Z) (tie0 : nat -> nat -> N).
Theorem whole_allows fuel ws g k outss L : (forall w, In w ws -> w_async w = []) -> started env args g k -> answered (mkOracle rank clock tie0) (handler_config g) k (agenda [] [] ws) outss L ->
  exists tie l, process env args (mkOracle rank clock tie) (S fuel) ws = (prelude g ++ shown (agenda [] [] ws) outss, Serving l).
Proof.
  intros Hw HS HA. destruct (answered_runs _ _ _ _ _ _ _ _ HA) as (tie & tr & s & HR & E1 & <- & _). exists tie. exact (ran_serves _ _ _ _ _ _ _ _ _ Hw HS HR E1).
Qed.
Theorem whole_may_die fuel ws g k ms m later outss L outs f : (forall w, In w ws -> w_async w = []) -> started env args g k -> agenda [] [] ws = ms ++ m :: later ->
  answered (mkOracle rank clock tie0) (handler_config g) k ms outss L -> doomed L m outs f ->
  exists tie, process env args (mkOracle rank clock tie) (S fuel) ws = (prelude g ++ shown ms outss ++ shown_one (m, outs), Unwinding).
Proof.
  intros Hw HS EI HA Hd. destruct (answered_runs _ _ _ _ _ _ _ _ HA) as (tie & tr & s & HR & <- & <- & HC). exists tie. apply HC in Hd.
  exact (ran_dies _ _ _ _ _ _ _ _ _ _ _ _ _ Hw HS HR EI Hd).
Qed.
End Ties.
