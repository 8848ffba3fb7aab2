(* Every run of the hall is a run of the broker with one queue for all workers, for some results of std::sort (C73). *)
From Coq Require Import Permutation Sorted Lia.
From Verif Require Import Base Bytes Containers Worker Multi Single Queue Handler SpecText Spec SpecRun SpecMsg SpecQueue SpecPings SpecOutcome SpecJoin SpecTick SpecFront SpecBook SpecFatal SpecLedger SpecPool SpecOracle
  Facts TextFacts QueueInv Atoms HandlerSim Keeps Conserve QueueOrder Pings LedgerFloor Book Ledger LedgerRun PoolFloor Pool PoolFun PoolRun TieLocal.
Local Open Scope string_scope.
Local Open Scope list_scope.

(* the pool is put in one order *)
Definition put (P0 O0 pool order : list (task * Z)) : Prop := in_time pool order /\ (pool = P0 -> order = O0).

Lemma takes_choose P0 O1 d H outs H' : in_time P0 O1 -> takes in_time d H outs H' -> h_pool H = P0 -> exists O0, in_time P0 O0 /\ takes (put P0 O0) d H outs H'.
Proof.
  intros HO HT E. destruct HT as [ds pool n order HA HN|ds pool n before k t after HA HN HC]; cbn [h_pool] in E; subst.
  - exists order. split; [exact HA|]. apply tk_none; [split; auto|assumption].
  - exists (before ++ (k, t) :: after). split; [exact HA|]. apply (tk_some _ _ _ _ _ _ _ t); [split; auto|assumption|assumption].
Qed.
Lemma opens_choose P0 O1 d H outs H' : in_time P0 O1 -> opens in_time d H outs H' -> h_pool H = P0 -> exists O0, in_time P0 O0 /\ opens (put P0 O0) d H outs H'.
Proof.
  intros HO HT E. destruct HT as [|? ? ? ? ? ? ? HT]; cbn [h_pool] in E; subst; [exists O1; split; [exact HO|]; econstructor; eassumption|].
  destruct (takes_choose _ _ _ _ _ _ HO HT eq_refl) as (O0 & A & B). exists O0. split; [exact A|]. constructor; assumption.
Qed.
Lemma tells_choose rank clock cfg P0 O1 d H fr outs H' a b : in_time P0 O1 -> tells rank clock in_time cfg d H fr outs H' a b -> h_pool H = P0 ->
  exists O0, in_time P0 O0 /\ tells rank clock (put P0 O0) cfg d H fr outs H' a b.
Proof.
  intros HO HT E. destruct HT; cbn [h_pool] in E; subst;
    try (match goal with A : takes _ _ _ _ _ |- _ => destruct (takes_choose _ _ _ _ _ _ HO A eq_refl) as (O0 & B1 & B2); exists O0 end; split; [exact B1|]; econstructor; eassumption);
    (exists O1; split; [exact HO|]); econstructor; eassumption.
Qed.
Lemma respond_choose rank clock cfg O1 R m outs R' : in_time (h_pool (p_hall R)) O1 -> respond rank clock in_time cfg R m outs R' ->
  exists O0, in_time (h_pool (p_hall R)) O0 /\ respond rank clock (put (h_pool (p_hall R)) O0) cfg R m outs R'.
Proof.
  intros HO HR. destruct HR; cbn [p_hall h_pool] in *;
    try (match goal with A : opens _ _ _ _ _ |- _ => destruct (opens_choose _ _ _ _ _ _ HO A eq_refl) as (O0 & B1 & B2); exists O0 end; split; [exact B1|]; econstructor; eassumption);
    try (match goal with A : tells _ _ _ _ _ _ _ _ _ _ _ |- _ => destruct (tells_choose _ _ _ _ _ _ _ _ _ _ _ _ HO A eq_refl) as (O0 & B1 & B2); exists O0 end; split; [exact B1|]; econstructor; eassumption);
    (exists O1; split; [exact HO|]); econstructor; eassumption.
Qed.

Lemma put_one P0 O0 : one_order (put P0 O0) P0.
Proof. intros l1 l2 (_ & A) (_ & B). rewrite (A eq_refl), (B eq_refl). reflexivity. Qed.
Lemma put_perm P0 O0 pool order : put P0 O0 pool order -> Permutation pool order.
Proof. intros ((A & _) & _). exact A. Qed.

Lemma task_pool_dec (l1 l2 : list (task * Z)) : {l1 = l2} + {l1 <> l2}.
Proof.
  assert (K : forall a b : task, {a = b} + {a <> b}) by (decide equality; auto using string_dec, N.eq_dec, Bool.bool_dec, list_eq_dec).
  apply list_eq_dec. decide equality. apply Z.eq_dec.
Qed.

(* an order of the pool is the result of some sort of the queue *)
Lemma put_sorts t P0 O0 jobs : Forall2 (prel t) P0 jobs -> in_time P0 O0 -> NoDup (map entry_id jobs) ->
  exists tie, forall t' pool, Forall2 (prel t') pool jobs -> exists order, put P0 O0 pool order /\ Forall2 (prel t') order (sort_entries tie jobs).
Proof.
  intros HF (HP & HB) Hnd.
  assert (EL : map fst (combine P0 jobs) = P0 /\ map snd (combine P0 jobs) = jobs).
  { clear - HF. induction HF; [auto|]. cbn. destruct IHHF. split; congruence. }
  destruct EL as (E1 & E2). destruct (Permutation_map_inv fst (combine P0 jobs) (l1 := O0)) as (l3 & E3 & P3); [rewrite E1; symmetry; exact HP|].
  assert (HT : forall t', Forall2 (prel t') P0 jobs -> Forall2 (prel t') O0 (map snd l3)).
  { intros t' H'. assert (HA : Forall (fun x => prel t' (fst x) (snd x)) (combine P0 jobs)).
    { clear - H'. induction H'; constructor; auto. }
    rewrite E3. rewrite Forall_forall in HA. assert (HB3 : forall x, In x l3 -> prel t' (fst x) (snd x)) by (intros x Hx; apply HA; eapply Permutation_in; [symmetry; exact P3|exact Hx]).
    clear - HB3. induction l3 as [|x l IH]; constructor; [apply HB3; left; reflexivity|]. apply IH. intros y Hy. apply HB3. right. exact Hy. }
  assert (HPj : Permutation jobs (map snd l3)) by (rewrite <- E2 at 1; apply Permutation_map; exact P3).
  assert (HS : StronglySorted arrived_le (map snd l3)).
  { pose proof (HT _ HF) as H3. clear - H3 HB. induction H3 as [|x e l l' (A1 & A2) HF IH]; [constructor|]. inversion HB as [|? ? S1 S2]; subst. constructor; [exact (IH S1)|].
    rewrite Forall_forall in S2 |- *. intros y Hy. clear - S2 HF A2 Hy. unfold arrived_le. induction HF as [|x' e' l l' (C1 & C2) HF IH]; [contradiction|].
    destruct Hy as [->|Hy]; [pose proof (S2 x' (or_introl eq_refl)); congruence|]. apply IH; [intros z Hz; apply S2; right; exact Hz|exact Hy]. }
  destruct (sort_adequate _ _ HPj HS Hnd) as (tie & Et). exists tie. intros t' pool H'. rewrite Et.
  destruct (task_pool_dec pool P0) as [->|NE]; [exists O0; split; [split; [split; assumption|auto]|exact (HT _ H')]|].
  destruct (pool_perm _ _ _ _ H' HPj) as (order & Q1 & Q2). exists order. split; [split; [split; [exact Q1|exact (prel_sorted _ _ _ Q2 HS)]|intros C; contradiction]|exact Q2].
Qed.

Section Inputs.
Context (o : oracle) (cfg : config).
(* the messages received determine the run *)
Lemma run_inputs k tr1 s1 : run o cfg k tr1 s1 -> forall tr2 s2, run o cfg k tr2 s2 -> map ev_in tr1 = map ev_in tr2 -> tr1 = tr2 /\ s1 = s2.
Proof.
  induction 1 as [|tr s m outs s' HR IH Hs]; intros tr2 s2 H2 E; destruct H2 as [|tr2 t m2 outs2 t' H2 Hs2]; rewrite ?map_app in E.
  - auto.
  - destruct (map ev_in tr2); discriminate.
  - destruct (map ev_in tr); discriminate.
  - cbn [map ev_in] in E. apply app_inj_tail in E. destruct E as (E & ->). destruct (IH _ _ H2 E) as (-> & ->). rewrite Hs in Hs2. injection Hs2 as -> ->. auto.
Qed.
End Inputs.

Section WithConfig.
Context (rank : nat -> N) (clock : nat -> Z) (cfg : config).

Lemma rrel_tie t1 t2 s R : rrel (mkOracle rank clock t1) s R -> rrel (mkOracle rank clock t2) s R.
Proof. intros [[H1 H2] H3 H4 H5]. constructor; [constructor; assumption|assumption..]. Qed.

Lemma doomed_crashes tie k tr s R m outs f : run (mkOracle rank clock tie) cfg k tr s -> rrel (mkOracle rank clock tie) s R ->
  (crashes (mkOracle rank clock tie) cfg s m outs f <-> doomed (as_ledger R) m outs f).
Proof. intros HR H2. exact (doomed_desks _ cfg _ _ _ (as_ledger R) _ _ _ HR (hr_desks _ _ _ (rr_hall _ _ _ H2)) (rr_frozen _ _ _ H2)). Qed.

Theorem roll_runs ms outss R : responded rank clock in_time cfg ms outss R ->
  exists tie tr s, run (mkOracle rank clock tie) cfg KSingle tr s /\ rrel (mkOracle rank clock tie) s R /\ map ev_in tr = ms /\ map ev_out tr = outss.
Proof.
  induction 1 as [|ms outss R m outs R' HL (tie & tr & s & HR & H2 & <- & <-) Hd Hr].
  - exists (fun _ _ => 0%N). destruct (run_roll (mkOracle rank clock (fun _ _ => 0%N)) cfg _ _ (run_nil _ _ _)) as (R & H1 & H2).
    inversion H1 as [E1 E2 E3|ms2 ? ? ? ? ? ? ? ? E1 E2 E3]; [|destruct ms2; discriminate]. subst R. eexists _, _. split; [apply run_nil|]. split; [exact H2|split; reflexivity].
  - destruct (rr_hall _ _ _ H2) as [(q & Eq & HP & _) _].
    destruct (arranging_in_time (mkOracle rank clock tie) (s_queue s) q Eq _ _ HP) as (O1 & HO1 & _).
    destruct (respond_choose _ _ _ _ _ _ _ _ HO1 Hr) as (O0 & HO0 & Hr0).
    assert (Hnd : NoDup (map entry_id (sq_jobs q))).
    { pose proof (inv_nodup _ _ (run_inv _ _ _ _ _ HR)) as N0. rewrite app_nil_r, Eq in N0. unfold held in N0. rewrite map_app in N0. apply NoDup_app_r in N0. cbn [queued] in N0. rewrite map_map in N0. exact N0. }
    destruct (put_sorts _ _ _ _ HP HO0 Hnd) as (one & HS).
    set (tie' := fun n => if Nat.eqb n (sq_sorts q) then one else tie n).
    assert (HR' : run (mkOracle rank clock tie') cfg KSingle tr s).
    { apply (run_local cfg rank clock tie); [exact HR|]. intros n Hn. rewrite Eq in Hn. cbn [sorts_of] in Hn. unfold tie'. destruct (Nat.eqb_spec n (sq_sorts q)); [lia|reflexivity]. }
    pose proof (rrel_tie tie tie' _ _ H2) as H2'.
    assert (HA : arranging (mkOracle rank clock tie') (put (h_pool (p_hall R)) O0) (s_queue s)).
    { intros q' E t pool Hpool. rewrite Eq in E. injection E as <-. cbn [o_tie]. unfold tie' at 1. rewrite Nat.eqb_refl. exact (HS t pool Hpool). }
    destruct (on_request (mkOracle rank clock tie') cfg m s) as (os, [f|([], s')]) eqn:E.
    + exfalso. apply (Hd os f). apply (doomed_crashes _ _ _ _ _ _ _ _ HR' H2'). exact E.
    + destruct (step_pool _ cfg _ _ _ _ _ _ HA (run_inv _ _ _ _ _ HR') (run_ping_inv _ _ _ _ _ HR') H2' E) as (L2 & B1 & B2).
      pose proof (responded_tidy _ _ _ in_time_perm _ _ _ _ HL) as HY.
      destruct (respond_fun _ _ _ _ _ _ _ _ Hr0 HY (put_one _ _) _ _ B1) as (-> & ->).
      exists tie', (tr ++ [mkEvent s m os s']), s'. split; [apply run_snoc; assumption|]. split; [exact B2|]. rewrite !map_app. split; reflexivity.
Qed.

Theorem roll_allows ms outss R : responded rank clock in_time cfg ms outss R ->
  exists tie tr s, run (mkOracle rank clock tie) cfg KSingle tr s /\ map ev_in tr = ms /\ map ev_out tr = outss /\
    p_frozen R = s_frozen s /\ Forall2 (desk_is s) (h_desks (p_hall R)) (s_reg s) /\
    (exists q, s_queue s = QSingle q /\ Forall2 (waits_as s) (h_pool (p_hall R)) (sq_jobs q)) /\
    forall m outs f, crashes (mkOracle rank clock tie) cfg s m outs f <-> doomed (as_ledger R) m outs f.
Proof.
  intros HL. destruct (roll_runs _ _ _ HL) as (tie & tr & s & HR & H & E1 & E2). exists tie, tr, s. split; [exact HR|]. split; [exact E1|]. split; [exact E2|].
  split; [exact (rr_frozen _ _ _ H)|]. destruct (rr_hall _ _ _ H) as [(q & Eq & HP & _) HD]. split; [|split].
  - eapply Forall2_impl; [|exact HD]. intros d w. apply drel_is.
  - exists q. split; [exact Eq|]. eapply Forall2_impl; [|exact HP]. intros x e ([K1 K2 K3 K4 K5] & E). split; [|exact E].
    split; [exact K1|split; [exact K2|split; [exact K3|auto]]].
  - intros m outs f. exact (doomed_crashes _ _ _ _ _ m outs f HR H).
Qed.
End WithConfig.
