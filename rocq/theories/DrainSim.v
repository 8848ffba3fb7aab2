(* The executable version of the closed system as far as the examples of C55 and C56 need it. *)
From Verif Require Import Base Bytes Containers Worker Multi Single Queue Handler SpecText Spec SpecRun SpecMsg SpecFatal SpecSystem
  SpecDrain Pings System SystemSim.
Local Open Scope string_scope.
Local Open Scope list_scope.

(* no worker reports an internal error *)
Definition quiet (a : act) : bool := match a with Say _ (Done _ (VError _)) => false | _ => true end.
Section Sim.
Context (o : oracle) (cfg : config) (k : kind) (cards : string -> card) (strict : bool).
Definition reached_calm (x : state * nodes) : Prop :=
  exists tr, system o cfg k cards (restriction strict) tr (fst x) (snd x) /\ calm tr (snd x).

Lemma calm_other tr ns s m outs s' : m_key m <> "workers" -> calm tr ns -> calm (tr ++ [mkEvent s m outs s']) (deliver outs ns).
Proof.
  intros Hk (H1 & H2). split; [|exact H2]. intros e Hin. apply in_app_or in Hin. destruct Hin as [Hin|[<-|[]]]; [auto|].
  unfold credited, own_report. simpl. apply String.eqb_neq in Hk. rewrite Hk. reflexivity.
Qed.
Lemma calm_put tr ns i n : calm tr ns -> (forall j t, In (Done j (VError t)) (n_outbox n) -> In (Done j (VError t)) (n_outbox (ns i))) ->
  calm tr (put i n ns).
Proof.
  intros (H1 & H2) Hn. split; [exact H1|]. intros x j t Hin. unfold put in Hin. destruct (String.eqb x i); [|exact (H2 _ _ _ Hin)].
  exact (H2 _ _ _ (Hn _ _ Hin)).
Qed.
Lemma calm_does tr ns i n : calm tr ns -> does (ns i) = Some n -> calm tr (put i n ns).
Proof.
  intros HC H. apply calm_put; [exact HC|]. intros j t Hin. unfold does in H.
  destruct (n_proc (ns i)); [injection H as <-|destruct (n_inbox (ns i)) as [|[|e [|j' pl]] inb]; [discriminate|injection H as <-|..]];
    try (destruct (String.eqb e _); injection H as <-); cbn in Hin; try exact Hin;
    apply in_app_or in Hin; destruct Hin as [Hin|[E|[]]]; [exact Hin|discriminate|exact Hin|discriminate].
Qed.
Lemma calm_says tr ns i m n : quiet (Say i m) = true -> calm tr ns -> says (ns i) m = Some n -> calm tr (put i n ns).
Proof.
  intros HQ HC H. apply calm_put; [exact HC|]. intros j t Hin. unfold says in H.
  assert (HO : n_outbox n = n_outbox (ns i) ++ [m]).
  { destruct (n_proc (ns i)) as [|[j'|]], m; try discriminate; try (injection H as <-; reflexivity).
    destruct (String.eqb j' job); [|discriminate]. injection H as <-. reflexivity. }
  rewrite HO in Hin. apply in_app_or in Hin. destruct Hin as [Hin|[->|[]]]; [exact Hin|discriminate HQ].
Qed.
Lemma calm_read tr s ns i m out outs s' : n_outbox (ns i) = m :: out -> calm tr ns ->
  calm (tr ++ [mkEvent s (Msg "workers" i (frames (cards i) m)) outs s']) (deliver outs (taken i out ns)).
Proof.
  intros Ho (H1 & H2). split.
  - intros e Hin. apply in_app_or in Hin. destruct Hin as [Hin|[<-|[]]]; [auto|].
    unfold credited, own_report. cbn [ev_in m_ident m_data m_key]. destruct m as [d| |fr|j v]; cbn; try (rewrite ?andb_false_r; reflexivity).
    destruct v as [|t|t]; cbn; rewrite ?andb_false_r; try reflexivity. exfalso. apply (H2 i j t). rewrite Ho. left. reflexivity.
  - intros x j t Hin. unfold deliver, taken, put in Hin. cbn in Hin. destruct (String.eqb_spec x i) as [->|]; [|exact (H2 _ _ _ Hin)].
    cbn in Hin. apply (H2 i j t). rewrite Ho. right. exact Hin.
Qed.

Lemma sim_calm x a y : reached_calm x -> quiet a = true -> sim o cfg cards strict x a = Some y -> reached_calm y.
Proof.
  intros (tr & HS & HC) HQ H. destruct x as [s ns]. simpl in HS, HC.
  assert (HO : forall m outs u s', input_of a = Some m -> on_request o cfg m s = (outs, inr (u, s')) ->
     fine s a && (negb strict || settledb s ns) = true -> reached_calm (s', deliver outs ns)).
  { intros m outs [] s' Ei Es Hf. apply andb_true_iff in Hf. destruct Hf as (Hf & Hst). destruct (fine_ok _ _ _ Ei Hf) as (Hk & Hb).
    eexists. split; [eapply sy_other; [exact HS|exact Hk|exact Hb|exact Es|]|apply calm_other; assumption].
    unfold restriction. destruct strict; [|exact I]. apply settledb_ok. exact Hst. }
  destruct a as [i|i m|i|j|t]; unfold sim in H.
  - destruct (does (ns i)) as [n|] eqn:En; [|discriminate]. injection H as <-. exists tr.
    split; [apply sy_work; [exact HS|apply does_work; exact En]|apply calm_does; assumption].
  - destruct (says (ns i) m) as [n|] eqn:En; [|discriminate]. injection H as <-. exists tr.
    split; [apply sy_work; [exact HS|eapply says_work; exact En]|eapply calm_says; eassumption].
  - destruct (n_outbox (ns i)) as [|m out] eqn:Eo; [discriminate|].
    destruct (on_request o cfg (Msg "workers" i (frames (cards i) m)) s) as (outs, [f|([], s')]) eqn:Es; [discriminate|]. injection H as <-.
    eexists. split; [eapply sy_read; [exact HS|exact Eo|exact Es]|apply calm_read; assumption].
  - destruct (input_of (Submit j)) as [m|] eqn:Em; [|discriminate].
    destruct (on_request o cfg m s) as (outs, [f|(u, s')]) eqn:Es; [discriminate|]. destruct (fine s (Submit j) && _) eqn:Ef; [|discriminate].
    injection H as <-. exact (HO _ _ _ _ eq_refl Es eq_refl).
  - destruct (input_of (Tick t)) as [m|] eqn:Em; [|discriminate].
    destruct (on_request o cfg m s) as (outs, [f|(u, s')]) eqn:Es; [discriminate|]. destruct (fine s (Tick t) && _) eqn:Ef; [|discriminate].
    injection H as <-. exact (HO _ _ _ _ eq_refl Es eq_refl).
Qed.
Lemma sims_calm l : forall x y, reached_calm x -> forallb quiet l = true -> sims o cfg cards strict x l = Some y -> reached_calm y.
Proof.
  induction l as [|a l IH]; simpl; intros x y HR HQ H; [injection H as <-; exact HR|]. apply andb_true_iff in HQ. destruct HQ as (HQ & HL).
  destruct (sim o cfg cards strict x a) as [z|] eqn:Ez; [|discriminate]. eapply IH; [|exact HL|exact H]. eapply sim_calm; eassumption.
Qed.
Lemma begin_calm : reached_calm (begin k).
Proof. exists []. split; [exact (sy_start _ _ _ _ _)|]. split; [intros e []|intros i j t []]. Qed.
End Sim.
