(* The broker stopped and started again while its workers go on (C63). *)
From Coq Require Import Permutation Lia.
From Verif Require Import Base Bytes Containers Worker Multi Single Queue Handler SpecText Spec SpecRun SpecMsg SpecPings SpecFatal
  SpecQueue SpecOutcome SpecJoin SpecOut SpecSystem SpecDrain SpecFinish SpecLives TextFacts Facts QueueInv Atoms HandlerSim Conserve Provenance
  Members Messages Pings Fatal Out Joining Outcome System Drain Finish.
Local Open Scope string_scope.
Local Open Scope list_scope.

Lemma subseq_in {A} (l1 l2 : list A) : subseq l1 l2 -> forall a, In a l1 -> In a l2.
Proof. induction 1; intros x Hx; [destruct Hx|destruct Hx as [->|Hx]; [left; reflexivity|right; auto]|right; auto]. Qed.
Lemma subseq_flat {A B} (f : A -> list B) l1 l2 : (forall a, length (f a) <= 1) -> subseq l1 l2 -> subseq (flat_map f l1) (flat_map f l2).
Proof.
  intros Hf. induction 1 as [l|a l1 l2 _ IH|a l1 l2 _ IH]; [constructor| |]; simpl; specialize (Hf a); destruct (f a) as [|b [|]]; simpl in *; try lia;
    try constructor; exact IH.
Qed.
Lemma subseq_none {A} (l : list A) : subseq l [] -> l = [].
Proof. intros H. inversion H. reflexivity. Qed.
Lemma subseq_one {A} (l : list A) x : subseq l [x] -> l = [] \/ l = [x].
Proof. intros H. inversion H as [|a l1 l2 H1|a l1 l2 H1]; subst; [auto| |]; apply subseq_none in H1; subst; auto. Qed.
Lemma evals_thin l1 l2 : subseq l1 l2 -> subseq (evals l1) (evals l2).
Proof. apply subseq_flat. intros a. unfold job_in. destruct a as [|e [|j t]]; simpl; try lia. destruct (String.eqb e "eval"); simpl; lia. Qed.

(* a worker is in order for a broker that knows nothing *)
Lemma outlives_ok s i v n n' : node_ok v n -> (sender i s = None -> v = None) -> outlives s i n n' -> node_ok None n'.
Proof.
  intros HN Hv [(Hs & ->)|[->|(Hi & Hh & Hp & Hin & Hout)]].
  - rewrite (Hv Hs) in HN. exact HN.
  - constructor. reflexivity.
  - destruct n as [p inb out], n' as [p' inb' out']. cbn [n_proc n_inbox n_outbox] in *. subst p'.
    assert (HO : ordered inb').
    { apply ordered_none. intros H. exact (Hi (subseq_in _ _ Hin _ H)). }
    assert (HH : no_hello out') by (intros d H; exact (Hh d (subseq_in _ _ Hout _ H))).
    pose proof (evals_thin _ _ Hin) as HE.
    assert (HF : forall job c, fits_job job (evals inb) c -> exists c', fits_job job (evals inb') c').
    { intros job c [(E & ->)|(j & E & -> & ->)]; rewrite E in HE.
      - exists job. left. split; [apply subseq_none; exact HE|reflexivity].
      - destruct (subseq_one _ _ HE) as [E'|E']; rewrite E'; [exists None; left; auto|exists (Some j); right; exists j; auto]. }
    inversion HN as [inb0 E0|c job inb0 out0 c' HA HF0|job inb0 out0 c' H1 H2 HF0|job inb0 pre d post H1 HA E0]; subst.
    + rewrite E0 in HE. apply subseq_none in HE. apply subseq_none in Hout. subst out'. constructor. exact HE.
    + destruct (HF _ _ HF0) as (c'' & HF'). econstructor; eassumption.
    + destruct (HF _ _ HF0) as (c'' & HF'). econstructor; eassumption.
    + destruct (Hh d). rewrite in_app_iff. right. left. reflexivity.
Qed.
Lemma outlives_on s i n n' : outlives s i n n' -> n_proc n' <> Off -> n_proc n <> Off.
Proof. intros [(_ & ->)|[->|(_ & _ & E & _)]] H; [exact H|destruct (H eq_refl)|rewrite <- E; exact H]. Qed.

Section Lives.
Context (cards : string -> card).
Hypothesis Hcards : forall i, proper (cards i).

Theorem lives_ok o cfg k past tr s ns : lives cards outlives o cfg k past tr s ns -> sys_ok o cfg k cards tr s ns.
Proof.
  induction 1 as [o cfg k|o cfg k past tr s ns i n HS IH HW|o cfg k past tr s ns i m out outs s' HS IH Ho Hs|o cfg k past tr s ns m outs s' HS IH Hk Hb Hs Hset
                 |o cfg k past tr s ns o' cfg' k' ns' HS IH Hp].
  - apply start_ok.
  - apply sys_work; assumption.
  - apply sys_read; assumption.
  - apply sys_other with (ok := settled); auto.
  - split; [constructor|]. split; [intros e rest []|]. intros i. split; [intros w w' []|]. destruct IH as (_ & _ & HI). destruct (HI i) as (_ & HN).
    change (view i (init_state (empty_manager k'))) with (@None (option string)). eapply outlives_ok; [exact HN| |apply Hp]. intros E. apply view_none. exact E.
Qed.

Lemma lives_covered o cfg k past tr s ns : lives cards outlives o cfg k past tr s ns -> exists L, covers L ns.
Proof.
  induction 1 as [o cfg k|o cfg k past tr s ns i n HS (L & HN & HC) HW|o cfg k past tr s ns i m out outs s' HS (L & HN & HC) Ho Hs
                 |o cfg k past tr s ns m outs s' HS (L & HN & HC) Hk Hb Hs Hset|o cfg k past tr s ns o' cfg' k' ns' HS (L & HN & HC) Hp].
  - exists []. split; [constructor|]. intros i H. destruct (H eq_refl).
  - destruct (in_dec string_dec i L) as [Hin|Hni].
    + exists L. split; [exact HN|]. intros x. unfold put. destruct (String.eqb_spec x i) as [->|]; [auto|apply HC].
    + exists (i :: L). split; [constructor; assumption|]. intros x. unfold put. destruct (String.eqb_spec x i) as [->|]; [left; reflexivity|]. intros H. right. apply HC. exact H.
  - exists L. split; [exact HN|]. intros x. unfold deliver, taken, put. destruct (String.eqb_spec x i) as [->|]; cbn [n_proc]; apply HC.
  - exists L. split; [exact HN|]. intros x. unfold deliver. cbn [n_proc]. apply HC.
  - exists L. split; [exact HN|]. intros x H. apply HC. eapply outlives_on; [apply Hp|exact H].
Qed.

(* ---- where jobs come from ---- *)
Definition told_origin (past tr : list event) : Prop :=
  forall e, In e tr -> m_key (ev_in e) = "workers" -> exists m,
    ev_in e = Msg "workers" (m_ident (ev_in e)) (frames (cards (m_ident (ev_in e))) m) /\
    forall j, mentions m j -> exists pl, ordered_job (past ++ tr) (cards (m_ident (ev_in e))) j pl.
Lemma ordered_more tr tr' c j pl : ordered_job tr c j pl -> (forall e, In e tr -> In e tr') -> ordered_job tr' c j pl.
Proof. intros (sub & need & H & H') HI. exists sub, need. auto. Qed.
Lemma told_introduced past tr : told_origin past tr -> introduced cards tr.
Proof.
  intros H e rest He Hk Hd. destruct (H e He Hk) as (m & E & _). rewrite E in Hd. cbn [m_data] in Hd.
  destruct m as [d| | |]; try discriminate Hd. exists d. rewrite E. reflexivity.
Qed.
Lemma outlives_origin tr s i n n' : outlives s i n n' -> node_origin cards tr i n -> node_origin cards tr i n'.
Proof.
  intros [(_ & ->)|[->|(_ & _ & Ep & Hi & Ho)]] H; [exact H| |].
  - split; [discriminate|]. split; [intros j pl []|intros m j []].
  - destruct H as (H1 & H2 & H3). split; [rewrite Ep; exact H1|]. split.
    + intros j pl Hin. apply H2. eapply subseq_in; eassumption.
    + intros m j Hin. apply H3. eapply subseq_in; eassumption.
Qed.

Theorem lives_origin o cfg k past tr s ns : lives cards outlives o cfg k past tr s ns ->
  told_origin past tr /\ forall i, node_origin cards (past ++ tr) i (ns i).
Proof.
  induction 1 as [o cfg k|o cfg k past tr s ns i n HS IH HW|o cfg k past tr s ns i m out outs s' HS IH Ho Hs|o cfg k past tr s ns m outs s' HS IH Hk Hb Hs Hset
                 |o cfg k past tr s ns o' cfg' k' ns' HS IH Hp].
  - split; [intros e []|]. intros i. split; [discriminate|]. split; [intros j pl []|intros m j []].
  - destruct IH as (HT & HI). split; [exact HT|]. intros x. unfold put. destruct (String.eqb_spec x i) as [->|]; [|apply HI].
    eapply work_origin; [exact HW|apply HI].
  - destruct (lives_ok _ _ _ _ _ _ _ HS) as (HR & _). destruct IH as (HT & HI).
    set (e := mkEvent s (Msg "workers" i (frames (cards i) m)) outs s').
    assert (HR' : run o cfg k (tr ++ [e]) s') by (econstructor; eassumption).
    assert (HT' : told_origin past (tr ++ [e])).
    { intros e' He Hk. rewrite app_assoc. apply in_app_iff in He. destruct He as [He|[<-|[]]].
      - destruct (HT e' He Hk) as (m' & E & H). exists m'. split; [exact E|]. intros j Hj. destruct (H j Hj) as (pl & Hpl). exists pl. apply ordered_mono. exact Hpl.
      - exists m. split; [reflexivity|]. intros j Hj. destruct (HI i) as (_ & _ & H3). destruct (H3 m j) as (pl & Hpl); [rewrite Ho; left; reflexivity|exact Hj|].
        exists pl. apply ordered_mono. exact Hpl. }
    split; [exact HT'|]. intros x. rewrite app_assoc. pose proof (node_origin_mono cards (past ++ tr) [e] x _ (HI x)) as (H1 & H2 & H3).
    assert (HX : forall out', (forall m', In m' out' -> In m' (n_outbox (ns x))) ->
       node_origin cards ((past ++ tr) ++ [e]) x (mkNode (n_proc (ns x)) (n_inbox (ns x) ++ mail x outs) out')).
    { intros out' Hsub. split; [exact H1|]. split; cbn [n_inbox n_outbox].
      - intros j pl Hin. apply in_app_iff in Hin. destruct Hin as [Hin|Hin]; [auto|].
        eapply ordered_more; [eapply mail_origin; [exact Hcards|exact HR'|eapply told_introduced; exact HT'|exact Hin]|].
        intros e' He. rewrite <- app_assoc. apply in_or_app. right. exact He.
      - intros m' j Hin. apply H3. auto. }
    destruct (String.eqb_spec x i) as [->|Hne].
    + rewrite deliver_own. apply HX. intros m' Hin. rewrite Ho. right. exact Hin.
    + rewrite deliver_other by exact Hne. apply HX. auto.
  - destruct (lives_ok _ _ _ _ _ _ _ HS) as (HR & _). destruct IH as (HT & HI). set (e := mkEvent s m outs s').
    assert (HR' : run o cfg k (tr ++ [e]) s') by (econstructor; eassumption).
    assert (HT' : told_origin past (tr ++ [e])).
    { intros e' He Hk'. rewrite app_assoc. apply in_app_iff in He. destruct He as [He|[<-|[]]]; [|contradiction].
      destruct (HT e' He Hk') as (m' & E & H). exists m'. split; [exact E|]. intros j Hj. destruct (H j Hj) as (pl & Hpl). exists pl. apply ordered_mono. exact Hpl. }
    split; [exact HT'|]. intros x. rewrite app_assoc. destruct (node_origin_mono cards (past ++ tr) [e] x _ (HI x)) as (H1 & H2 & H3).
    split; [exact H1|]. split; [|exact H3]. unfold deliver. cbn [n_inbox]. intros j pl Hin. apply in_app_iff in Hin. destruct Hin as [Hin|Hin]; [auto|].
    eapply ordered_more; [eapply mail_origin; [exact Hcards|exact HR'|eapply told_introduced; exact HT'|exact Hin]|].
    intros e' He. rewrite <- app_assoc. apply in_or_app. right. exact He.
  - destruct IH as (HT & HI). split; [intros e []|]. intros i. rewrite app_nil_r. eapply outlives_origin; [apply Hp|apply HI].
Qed.

Context (o : oracle) (cfg : config) (k : kind) (past tr : list event) (s : state) (ns : nodes).
Hypothesis HS : lives cards outlives o cfg k past tr s ns.
Let Hok := lives_ok _ _ _ _ _ _ _ HS.

Theorem lives_survives i m out : n_outbox (ns i) = m :: out -> exists outs s', on_request o cfg (Msg "workers" i (frames (cards i) m)) s = (outs, inr (tt, s')).
Proof. exact (survives_ok o cfg k cards Hcards tr s ns Hok i m out). Qed.
Theorem lives_matching i j v out w : n_outbox (ns i) = Done j v :: out -> sender i s = Some w -> exists r, current_of (s_queue s) w = Some r /\ r_job r = j.
Proof. exact (done_matches_ok o cfg k cards tr s ns Hok i j v out w). Qed.
Theorem lives_one_job i j pl rest : n_inbox (ns i) = ("eval" :: j :: pl) :: rest -> n_proc (ns i) = On None /\ forall j' pl', ~ In ("eval" :: j' :: pl') rest.
Proof. exact (one_job_only_ok o cfg k cards tr s ns Hok i j pl rest). Qed.
Theorem lives_agreement i w : sender i s = Some w -> (forall j pl, ~ In ("eval" :: j :: pl) (n_inbox (ns i))) -> (forall j v, ~ In (Done j v) (n_outbox (ns i))) ->
  n_proc (ns i) = On (option_map r_job (current_of (s_queue s) w)).
Proof. exact (agreement_ok o cfg k cards tr s ns Hok i w). Qed.
Theorem lives_no_phantom i w r : sender i s = Some w -> current_of (s_queue s) w = Some r ->
  n_proc (ns i) = On (Some (r_job r)) \/ (exists pl, In ("eval" :: r_job r :: pl) (n_inbox (ns i))) \/ exists v, In (Done (r_job r) v) (n_outbox (ns i)).
Proof. exact (no_phantom_ok o cfg k cards tr s ns Hok i w r). Qed.

Theorem lives_evaluated i j : n_proc (ns i) = On (Some j) \/ (exists pl, In ("eval" :: j :: pl) (n_inbox (ns i))) -> exists pl, ordered_job (past ++ tr) (cards i) j pl.
Proof. destruct (lives_origin _ _ _ _ _ _ _ HS) as (_ & HI). destruct (HI i) as (H1 & H2 & _). intros [H|(pl & H)]; eauto. Qed.
(* the broker of this life hands out only what was submitted in this life *)
Theorem lives_handed e i j pl : In e tr -> In (Msg "workers" i ("eval" :: j :: pl)) (ev_out e) -> ordered_job tr (cards i) j pl.
Proof.
  intros He Hin. destruct Hok as (HR & HT & _). apply in_split in He. destruct He as (t1 & t2 & E). subst tr.
  destruct (dispatch_provenance o cfg k t1 e t2 s HR _ _ Hin eq_refl eq_refl) as (j' & sub & reg & w & need & pl' & hw & hdrs & Hsub & HSb & Hreg & HJ & E & HO).
  injection E as Ei <- <-. exists sub, need. split; [rewrite in_app_iff; simpl; destruct Hsub as [?|<-]; auto|]. split; [exact HSb|].
  intros h v Hr. specialize (HO h v Hr). destruct HJ as (J1 & J2 & (fr & J3 & J4) & _).
  assert (Hin' : In reg (t1 ++ e :: t2)) by (rewrite in_app_iff; simpl; destruct Hreg as [(?&_)|<-]; auto).
  destruct (HT reg _ Hin' J1 J3) as (d & E). rewrite J2, <- Ei, J3 in E. cbn [frames] in E. injection E as -> ->.
  assert (hdrs = c_hdrs (cards i)) as ->; [|exact HO].
  pose proof (hello_block (cards i) d (Hcards i)) as HB. eapply init_block_fun; eassumption.
Qed.

Lemma lives_adopted j : 0 < adoptions j tr -> exists i pl, ordered_job (past ++ tr) (cards i) j pl.
Proof.
  intros H. destruct (lives_origin _ _ _ _ _ _ _ HS) as (HT & _).
  unfold adoptions in H. apply list_count_pos in H. destruct H as (e & He & Ha). unfold adopts in Ha. rewrite !andb_true_iff in Ha. destruct Ha as (((Hk & Hw) & _) & Hj).
  apply String.eqb_eq in Hk. destruct (HT e He Hk) as (m & E & HM). rewrite E in Hw, Hj. cbn [m_data] in Hw, Hj.
  destruct m as [d| | |]; try discriminate Hw. change (announced (frames (cards (m_ident (ev_in e))) (Hello d))) with (last_extra "current_job" (frames (cards (m_ident (ev_in e))) (Hello d))) in Hj. rewrite (hello_job _ _ (Hcards _)) in Hj. destruct d as [j'|]; [|discriminate]. apply String.eqb_eq in Hj. subst j'.
  destruct (HM j eq_refl) as (pl & Hp). eauto.
Qed.
(* a job the broker holds or reports was accepted in this life or in an earlier one *)
Theorem lives_reported j : acceptances j (past ++ tr) = 0 -> reports j tr = 0 /\ forall r, In r (held (s_queue s)) -> r_job r <> j.
Proof.
  intros H0. destruct Hok as (HR & _). pose proof (conservation _ _ _ _ _ HR j) as HC.
  assert (HA : adoptions j tr = 0).
  { destruct (adoptions j tr) as [|n] eqn:En; [reflexivity|]. exfalso. destruct (lives_adopted j) as (i & pl & sub & need & H1 & H2 & _); [lia|].
    unfold acceptances in H0. assert (0 < list_count (accepts j) (past ++ tr)); [|lia]. apply list_count_pos. exists sub. split; [exact H1|]. eapply submitted_accepts; exact H2. }
  assert (HB : acceptances j tr = 0) by (unfold acceptances in *; rewrite list_count_app in H0; lia).
  split; [lia|]. intros r Hin E. assert (0 < list_count (job_is j) (held (s_queue s))); [|lia]. apply list_count_pos. exists r. split; [exact Hin|].
  unfold job_is. rewrite E. apply String.eqb_refl.
Qed.

(* ---- left to themselves ---- *)
Theorem lives_bounded : exists N, forall n c tr' s' ns', carries o cfg cards n c tr s ns tr' s' ns' -> n <= N + 4 * c.
Proof. destruct (lives_covered _ _ _ _ _ _ _ HS) as (L & HC). exact (bounded_ok o cfg k cards Hcards L tr s ns Hok HC). Qed.
Theorem lives_comes_to_rest : exists n tr' s' ns', carries o cfg cards n 0 tr s ns tr' s' ns' /\ at_rest ns'.
Proof. destruct (lives_covered _ _ _ _ _ _ _ HS) as (L & HC). exact (comes_to_rest_ok o cfg k cards Hcards L tr s ns Hok HC). Qed.
Theorem lives_rest : at_rest ns ->
  (forall i, n_proc (ns i) = Off \/ ns i = mkNode (On None) [] []) /\ running (s_queue s) = [] /\
  (forall r, In r (queued (s_queue s)) -> exists w, In w (s_reg s) /\ waits_for (s_queue s) r w /\ idle_after_error tr w) /\
  (calm tr ns -> held (s_queue s) = [] /\ forall j, reports j tr = acceptances j tr + adoptions j tr).
Proof. exact (rest_ok o cfg k cards tr s ns Hok). Qed.

(* ---- a worker that the broker does not know, at work ---- *)
Lemma put_own i n (ns0 : nodes) : put i n ns0 i = n.
Proof. unfold put. rewrite String.eqb_refl. reflexivity. Qed.
Lemma handovers_quiet w l : filter (fun m => String.eqb (m_key m) "status_notifier") (map (handover w) l) = [].
Proof. induction l as [|r l IH]; [reflexivity|]. simpl. exact IH. Qed.

Theorem lives_adopts i j v : sender i s = None -> ns i = mkNode (On (Some j)) [] [] ->
  exists more s' ns', serves o cfg cards tr s ns (tr ++ more) s' ns' /\ notices more = [final_report j v] /\
    n_proc (ns' i) = On None /\ n_outbox (ns' i) = [].
Proof.
  intros Hs Hn. destruct Hok as (HR & _).
  (* the ping *)
  destruct (ping_reply o cfg i [] s) as (s1 & Hp & ((E1 & E2 & _) & _)). rewrite Hs in Hp.
  set (e1 := mkEvent s (Msg "workers" i ["ping"]) [Msg "workers" i ["intro"]] s1).
  assert (HR1 : run o cfg k (tr ++ [e1]) s1) by (econstructor; [exact HR|exact Hp]).
  assert (Hs1 : sender i s1 = None) by (unfold sender; rewrite E1; exact Hs).
  (* the introduction *)
  pose proof (Hcards i) as HPc.
  destruct (init_new o cfg k _ s1 i (c_hwgroup (cards i)) _ _ HR1 Hs1 (hello_block (cards i) (Some j) HPc) (proj2 HPc)) as (w & x & s2 & HW & H2 & HK).
  set (e2 := mkEvent s1 (Msg "workers" i (frames (cards i) (Hello (Some j)))) (map (handover w) (olist x)) s2).
  assert (HR2 : run o cfg k ((tr ++ [e1]) ++ [e2]) s2) by (econstructor; [exact HR1|exact H2]).
  destruct HK as (Er & _ & _ & _ & _ & _ & _ & _ & _ & HK).
  change ("init" :: c_hwgroup (cards i) :: c_hdrs (cards i) ++ "" :: ("description=" ++ c_desc (cards i))%string :: [("current_job=" ++ j)%string])
    with (frames (cards i) (Hello (Some j))) in HK. rewrite (hello_job _ (Some j) HPc) in HK.
  destruct HK as (r & (Ej & Ec & Ef & _) & (Hc & _) & _ & _).
  assert (Ei : w_identity w = i) by (destruct HW as (_ & E & _); exact E).
  assert (Hs2 : sender i s2 = Some w).
  { unfold sender. rewrite Er. assert (HX : forall l, find (named i) l = None -> find (named i) (l ++ [w]) = Some w).
    { induction l as [|a l IH]; simpl; [unfold named; rewrite Ei, String.eqb_refl; reflexivity|]. destruct (named i a); [discriminate|exact IH]. }
    apply HX. exact Hs1. }
  (* the report *)
  assert (HD : exists outs s3, on_request o cfg (Msg "workers" i (frames (cards i) (Done j v))) s2 = (outs, inr (tt, s3)) /\
     filter (fun m => String.eqb (m_key m) "status_notifier") outs = [final_report j v]).
  { rewrite <- Ej. cbn [frames]. destruct v as [|t|t]; simpl verdict_frames.
    - destruct (done_ok o cfg k _ s2 i w r HR2 Hs2 Hc []) as (y & s3 & H & _). exists (ok_report (r_job r) :: map (handover w) (olist y)), s3. split; [exact H|].
      cbn [filter m_key ok_report]. simpl String.eqb. cbn iota. rewrite handovers_quiet. reflexivity.
    - destruct (done_failed o cfg k _ s2 i w r HR2 Hs2 Hc t) as (y & s3 & H & _). exists (failed_report (r_job r) t :: map (handover w) (olist y)), s3. split; [exact H|].
      cbn [filter m_key failed_report]. simpl String.eqb. cbn iota. rewrite handovers_quiet. reflexivity.
    - destruct (done_internal_incomplete o cfg k _ s2 i w r HR2 Hs2 Hc t Ec) as (s3 & H & _). eexists _, s3. split; [exact H|]. reflexivity. }
  destruct HD as (outs & s3 & H3 & HF).
  set (e3 := mkEvent s2 (Msg "workers" i (frames (cards i) (Done j v))) outs s3).
  (* together *)
  exists [e1; e2; e3], s3.
  set (n1 := put i (mkNode (On (Some j)) [] [Ping]) ns).
  set (n2 := deliver [Msg "workers" i ["intro"]] (taken i [] n1)).
  set (n3 := put i (mkNode (On (Some j)) [] [Hello (Some j)]) n2).
  set (n4 := deliver (map (handover w) (olist x)) (taken i [] n3)).
  set (n5 := put i (mkNode (On None) (n_inbox (n4 i)) [Done j v]) n4).
  exists (deliver outs (taken i [] n5)).
  assert (E2i : n2 i = mkNode (On (Some j)) [["intro"]] []).
  { unfold n2, n1. rewrite deliver_own, put_own. unfold mail. simpl. rewrite String.eqb_refl. reflexivity. }
  assert (E4i : n4 i = mkNode (On (Some j)) (n_inbox (n4 i)) []).
  { unfold n4 at 1. rewrite deliver_own. unfold n4, n3. rewrite deliver_own, !put_own. reflexivity. }
  split; [|split; [|split]].
  - replace (tr ++ [e1; e2; e3]) with (((tr ++ [e1]) ++ [e2]) ++ [e3]) by (rewrite <- !app_assoc; reflexivity).
    eapply se_work with (i := i); [rewrite Hn; apply (wk_ping (Some j) [] [])|]. change (put i (mkNode (On (Some j)) [] ([] ++ [Ping])) ns) with n1.
    eapply se_read with (i := i); [unfold n1; rewrite put_own; reflexivity|exact Hp|]. fold e1 n2.
    eapply se_work with (i := i); [rewrite E2i; apply wk_intro|]. change (put i (mkNode (On (Some j)) [] ([] ++ [Hello (Some j)])) n2) with n3.
    eapply se_read with (i := i); [unfold n3; rewrite put_own; reflexivity|exact H2|]. fold n4. change (mkEvent s1 _ (map (handover w) (olist x)) s2) with e2.
    eapply se_work with (i := i); [rewrite E4i; apply wk_done with (v := v)|]. change (put i (mkNode (On None) (n_inbox (n4 i)) ([] ++ [Done j v])) n4) with n5.
    eapply se_read with (i := i); [unfold n5; rewrite put_own; reflexivity|exact H3|]. apply se_stop.
  - unfold notices. cbn [flat_map ev_out e1 e2 e3]. rewrite !filter_app, handovers_quiet. rewrite app_nil_r, HF. reflexivity.
  - rewrite deliver_own. cbn [n_proc]. unfold n5. rewrite put_own. reflexivity.
  - rewrite deliver_own. reflexivity.
Qed.
End Lives.
