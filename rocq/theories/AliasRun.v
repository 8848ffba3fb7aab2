(* The broker with every worker under another name. *)
From Coq Require Import Lia.
From Verif Require Import Base Bytes Containers Worker Multi Single Queue Handler SpecText Spec SpecRun SpecMsg SpecFront SpecBook SpecFatal SpecLedger SpecPool SpecOracle SpecAlias LedgerFun LedgerRun PoolFun PoolRun PoolTies Alias.
Local Open Scope string_scope.
Local Open Scope list_scope.

Section Run.
Context (alias : string -> string) (HI : forall i j, alias i = alias j -> i = j).
Notation sent := (Forall2 (readdressed alias)).

Lemma end_of o o' cfg s s' L : (forall m outs f, crashes o cfg s m outs f <-> doomed L m outs f) ->
  (forall m outs f, crashes o' cfg s' m outs f <-> doomed (rl alias L) m outs f) -> same_end alias o o' cfg s s'.
Proof.
  intros H1 H2. assert (K : forall m outs f, crashes o cfg s m outs f -> exists outs', sent outs outs' /\ crashes o' cfg s' (under alias m) outs' f).
  { intros m outs f HC. apply H1 in HC. destruct (doomed_rd alias HI _ _ _ _ HC) as (outs' & S & HD). exists outs'. split; [exact S|]. apply H2. exact HD. }
  split; [exact K|]. intros m outs' f HC. pose proof HC as HC'. apply H2 in HC'. destruct (doomed_back alias HI _ _ _ _ HC') as (outs & HD). apply H1 in HD.
  destruct (K _ _ _ HD) as (o2 & S & HC2). unfold crashes in HC, HC2. rewrite HC in HC2. injection HC2 as <-. exists outs. split; assumption.
Qed.

Theorem alias_multi o o' cfg tr s : run o cfg KMulti tr s ->
  exists tr' s', run o' cfg KMulti tr' s' /\ map ev_in tr' = map (under alias) (map ev_in tr) /\ Forall2 sent (map ev_out tr) (map ev_out tr') /\ same_end alias o o' cfg s s'.
Proof.
  intros HR. destruct (run_ledger_is _ _ _ _ HR) as (L & H1 & _). destruct (reacted_rd alias HI _ _ _ _ H1) as (outss' & S & H2).
  destruct (ledger_runs o' _ _ _ _ H2) as (tr' & s' & HR' & E1 & E2). exists tr', s'. split; [exact HR'|]. split; [exact E1|]. rewrite E2. split; [exact S|].
  apply (end_of _ _ _ _ _ L).
  - intros. apply (crash_ledger _ _ _ _ _ _ _ _ HR H1).
  - intros. apply (crash_ledger _ _ _ _ _ _ _ _ HR'). rewrite E1, E2. exact H2.
Qed.

Theorem alias_single o cfg tr s : run o cfg KSingle tr s ->
  exists tie tr' s', run (mkOracle (o_addr o) (o_clock o) tie) cfg KSingle tr' s' /\ map ev_in tr' = map (under alias) (map ev_in tr) /\
    Forall2 sent (map ev_out tr) (map ev_out tr') /\ same_end alias o (mkOracle (o_addr o) (o_clock o) tie) cfg s s'.
Proof.
  intros HR. destruct (run_roll_is _ _ _ _ HR) as (R & H1 & _ & _ & _ & HD). destruct (responded_rd alias HI _ _ _ _ _ _ _ H1) as (outss' & S & H2).
  destruct (roll_allows _ _ _ _ _ _ H2) as (tie & tr' & s' & HR' & E1 & E2 & _ & _ & _ & HD'). exists tie, tr', s'. split; [exact HR'|]. split; [exact E1|].
  rewrite E2. split; [exact S|]. apply (end_of _ _ _ _ _ (as_ledger R) HD). exact HD'.
Qed.

Theorem alias_single_clock o cfg tr s : no_ties o -> run o cfg KSingle tr s ->
  exists tr' s', run o cfg KSingle tr' s' /\ map ev_in tr' = map (under alias) (map ev_in tr) /\
    Forall2 sent (map ev_out tr) (map ev_out tr') /\ same_end alias o o cfg s s'.
Proof.
  intros HT HR. destruct (run_roll_is _ _ _ _ HR) as (R & H1 & _ & _ & _ & HD). destruct (responded_rd alias HI _ _ _ _ _ _ _ H1) as (outss' & S & H2).
  destruct (pool_runs _ _ _ _ _ HT H2) as (tr' & s' & HR' & E1 & E2). exists tr', s'. split; [exact HR'|]. split; [exact E1|].
  rewrite E2. split; [exact S|]. apply (end_of _ _ _ _ _ (as_ledger R) HD). intros m outs f.
  apply (crash_pool _ _ _ _ (rr alias R) m outs f HT HR'). rewrite E1, E2. exact H2.
Qed.

Lemma sent_others l l' : sent l l' -> filter for_others l = filter for_others l'.
Proof. intros H. induction H as [|m m' l l' HM H IH]; [reflexivity|]. destruct HM; cbn; rewrite IH; reflexivity. Qed.
Theorem others_same outss outss' : Forall2 sent outss outss' -> map (filter for_others) outss = map (filter for_others) outss'.
Proof. intros H. induction H as [|l l' t t' HM H IH]; cbn [map]; [reflexivity|]. rewrite (sent_others _ _ HM), IH. reflexivity. Qed.
End Run.
