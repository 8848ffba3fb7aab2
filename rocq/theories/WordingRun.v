(* The broker with the headers of jobs and workers written in another way. *)
From Coq Require Import Lia.
From Verif Require Import Base Bytes Containers Worker Multi Single Queue Handler SpecText Spec SpecRun SpecMsg SpecFront SpecBook SpecFatal SpecLedger SpecPool SpecOracle SpecWording TextFacts LedgerFun LedgerRun PoolFun PoolRun PoolTies Wording.
Local Open Scope string_scope.
Local Open Scope list_scope.

Lemma fatal_of o o' cfg s s' L L' : ledger_as L L' -> (forall m outs f, crashes o cfg s m outs f <-> doomed L m outs f) ->
  (forall m outs f, crashes o' cfg s' m outs f <-> doomed L' m outs f) -> fatal_alike o o' cfg s s'.
Proof.
  intros RL H1 H2 m m' outs f HM. rewrite H1, H2. split; [exact (doomed_as _ _ _ _ _ _ RL HM)|exact (doomed_as _ _ _ _ _ _ (ledger_as_sym _ _ RL) (reworded_sym _ _ HM))].
Qed.

Theorem wording_multi o o' cfg tr s ms : run o cfg KMulti tr s -> Forall2 reworded (map ev_in tr) ms ->
  exists tr' s', run o' cfg KMulti tr' s' /\ map ev_in tr' = ms /\ Forall2 (Forall2 retold) (map ev_out tr) (map ev_out tr') /\ fatal_alike o o' cfg s s'.
Proof.
  intros HR HM. destruct (run_ledger_is _ _ _ _ HR) as (L & H1 & _). destruct (reacted_as _ _ _ _ H1 _ HM) as (outss' & L' & S & H2 & RL).
  destruct (ledger_runs o' _ _ _ _ H2) as (tr' & s' & HR' & E1 & E2). exists tr', s'. split; [exact HR'|]. split; [exact E1|]. rewrite E2. split; [exact S|].
  apply (fatal_of _ _ _ _ _ L L' RL).
  - intros. apply (crash_ledger _ _ _ _ _ _ _ _ HR H1).
  - intros. apply (crash_ledger _ _ _ _ _ _ _ _ HR'). rewrite E1, E2. exact H2.
Qed.

Theorem wording_single o cfg tr s ms : run o cfg KSingle tr s -> Forall2 reworded (map ev_in tr) ms ->
  exists tie tr' s', run (mkOracle (o_addr o) (o_clock o) tie) cfg KSingle tr' s' /\ map ev_in tr' = ms /\
    Forall2 (Forall2 retold) (map ev_out tr) (map ev_out tr') /\ fatal_alike o (mkOracle (o_addr o) (o_clock o) tie) cfg s s'.
Proof.
  intros HR HM. destruct (run_roll_is _ _ _ _ HR) as (R & H1 & _ & _ & _ & HD). destruct (responded_as _ _ _ _ _ _ H1 _ HM) as (outss' & R' & S & H2 & RR).
  destruct (roll_allows _ _ _ _ _ _ H2) as (tie & tr' & s' & HR' & E1 & E2 & _ & _ & _ & HD'). exists tie, tr', s'. split; [exact HR'|]. split; [exact E1|].
  rewrite E2. split; [exact S|]. exact (fatal_of _ _ _ _ _ _ _ (roll_ledger _ _ RR) HD HD').
Qed.

Theorem wording_single_clock o cfg tr s ms : no_ties o -> run o cfg KSingle tr s -> Forall2 reworded (map ev_in tr) ms ->
  exists tr' s', run o cfg KSingle tr' s' /\ map ev_in tr' = ms /\ Forall2 (Forall2 retold) (map ev_out tr) (map ev_out tr') /\ fatal_alike o o cfg s s'.
Proof.
  intros HT HR HM. destruct (run_roll_is _ _ _ _ HR) as (R & H1 & _ & _ & _ & HD). destruct (responded_as _ _ _ _ _ _ H1 _ HM) as (outss' & R' & S & H2 & RR).
  destruct (pool_runs _ _ _ _ _ HT H2) as (tr' & s' & HR' & E1 & E2). exists tr', s'. split; [exact HR'|]. split; [exact E1|].
  rewrite E2. split; [exact S|]. apply (fatal_of _ _ _ _ _ _ _ (roll_ledger _ _ RR) HD). intros m outs f.
  apply (crash_pool _ _ _ _ R' m outs f HT HR'). rewrite E1, E2. exact H2.
Qed.

Theorem wants_rearranged need need' : (forall f, In f need <-> In f need') -> same_wants need need'.
Proof. intros H h v. split; intros (f & HI & HF); exists f; (split; [apply H; exact HI|exact HF]). Qed.
Theorem wants_metadata f m v a b : header_frame f ("meta." ++ m)%string v -> same_wants (a ++ f :: b) (a ++ b).
Proof.
  intros HF h w. split; intros (g & HI & HG & HM).
  - exists g. split; [|split; assumption]. apply in_app_or in HI. destruct HI as [HI|[<-|HI]]; [apply in_or_app; left; exact HI| |apply in_or_app; right; exact HI].
    exfalso. destruct (header_frame_fun _ _ _ _ _ HG HF) as (-> & _). exact (HM m eq_refl).
  - exists g. split; [|split; assumption]. apply in_app_or in HI. apply in_or_app. cbn [In]. tauto.
Qed.
Lemma headers_cons f a b : same_headers a b -> same_headers (f :: a) (f :: b).
Proof.
  intros H k vs. split; intros HV; inversion HV; subst; [eapply va_here; [eassumption|apply H; assumption]|eapply va_other; [eassumption|assumption|apply H; assumption]|
    eapply va_here; [eassumption|apply H; assumption]|eapply va_other; [eassumption|assumption|apply H; assumption]].
Qed.
Theorem headers_swapped f g k v k' v' a b : header_frame f k v -> header_frame g k' v' -> k <> k' -> same_headers (a ++ f :: g :: b) (a ++ g :: f :: b).
Proof.
  assert (K : forall f g k v k' v', header_frame f k v -> header_frame g k' v' -> k <> k' -> forall h vs, values h (f :: g :: b) vs -> values h (g :: f :: b) vs).
  { clear. intros f g k v k' v' HF HG HN h vs HV. inversion HV as [|f0 t v1 vs1 HF1 HT1|f0 t k1 v1 vs1 HF1 HN1 HT1]; subst; inversion HT1 as [|f0 t v2 vs2 HF2 HT2|f0 t k2 v2 vs2 HF2 HN2 HT2]; subst.
    - exfalso. apply HN. destruct (header_frame_fun _ _ _ _ _ HF HF1) as (-> & _). destruct (header_frame_fun _ _ _ _ _ HG HF2) as (-> & _). reflexivity.
    - eapply va_other; [eassumption|assumption|]. apply va_here; assumption.
    - apply va_here; [assumption|]. eapply va_other; eassumption.
    - eapply va_other; [eassumption|assumption|]. eapply va_other; eassumption. }
  intros HF HG HN. induction a as [|x a IH]; cbn [app]; [|apply headers_cons; exact IH]. intros h vs. split; [apply (K _ _ k v k' v'); assumption|apply (K _ _ k' v' k v); auto].
Qed.
Theorem retold_elsewhere l l' : Forall2 retold l l' ->
  filter (fun m => negb (String.eqb (m_key m) "clients")) l = filter (fun m => negb (String.eqb (m_key m) "clients")) l' /\
  map (fun m => (m_key m, m_ident m, hd_error (m_data m))) l = map (fun m => (m_key m, m_ident m, hd_error (m_data m))) l'.
Proof.
  intros H. induction H as [|m m' l l' HM H (IH1 & IH2)]; [split; reflexivity|]. destruct HM; cbn [filter map]; rewrite IH1, IH2; split; reflexivity.
Qed.
