(* The broker and its workers from end to end (C55, C56). *)
From Coq Require Import Permutation Lia.
From Verif Require Import Base Bytes Containers Worker Multi Single Queue Handler SpecText Spec SpecRun SpecMsg SpecPings SpecFatal
  SpecQueue SpecOutcome SpecJoin SpecOut SpecSystem SpecDrain TextFacts Facts QueueInv Atoms HandlerSim Conserve Provenance Members Messages Pings
  QueueContract WorkConserving Fatal Out Joining Outcome System.
Local Open Scope string_scope.
Local Open Scope list_scope.

(* ---- where jobs come from ---- *)
Section Origin.
Context (o : oracle) (cfg : config) (k : kind) (cards : string -> card) (ok : state -> state -> nodes -> Prop).
Hypothesis Hcards : forall i, proper (cards i).

Definition node_origin (tr : list event) (i : string) (n : node) : Prop :=
  (forall j, n_proc n = On (Some j) -> exists pl, ordered_job tr (cards i) j pl) /\
  (forall j pl, In ("eval" :: j :: pl) (n_inbox n) -> ordered_job tr (cards i) j pl) /\
  (forall m j, In m (n_outbox n) -> mentions m j -> exists pl, ordered_job tr (cards i) j pl).
Definition read_origin (tr : list event) : Prop :=
  forall e, In e tr -> m_key (ev_in e) = "workers" -> exists m,
    ev_in e = Msg "workers" (m_ident (ev_in e)) (frames (cards (m_ident (ev_in e))) m) /\
    forall j, mentions m j -> exists pl, ordered_job tr (cards (m_ident (ev_in e))) j pl.

Lemma ordered_mono tr tr' c j pl : ordered_job tr c j pl -> ordered_job (tr ++ tr') c j pl.
Proof. intros (sub & need & H & H'). exists sub, need. split; [rewrite in_app_iff; auto|exact H']. Qed.
Lemma node_origin_mono tr tr' i n : node_origin tr i n -> node_origin (tr ++ tr') i n.
Proof.
  intros (H1 & H2 & H3). split; [|split].
  - intros j Hj. destruct (H1 j Hj) as (pl & H). exists pl. apply ordered_mono. exact H.
  - intros j pl Hin. apply ordered_mono. auto.
  - intros m j Hin Hm. destruct (H3 m j Hin Hm) as (pl & H). exists pl. apply ordered_mono. exact H.
Qed.
Lemma read_origin_introduced tr : read_origin tr -> introduced cards tr.
Proof.
  intros H e rest He Hk Hd. destruct (H e He Hk) as (m & E & _). rewrite E in Hd. cbn [m_data] in Hd.
  destruct m as [d| | |]; try discriminate Hd. exists d. rewrite E. reflexivity.
Qed.
Lemma work_origin tr i n n' : work n n' -> node_origin tr i n -> node_origin tr i n'.
Proof.
  intros HW (H1 & H2 & H3).
  destruct HW as [inb out|job inb out|job fr inb out|j vd inb out|job j pl inb out|job inb out|job m inb out Hm Hi]; simpl in *;
    (split; [|split]; cbn [n_proc n_inbox n_outbox]); auto; try discriminate.
  - intros m j Hin. apply in_app_iff in Hin. destruct Hin as [Hin|[<-|[]]]; [eauto|]. intros [].
  - intros m j Hin. apply in_app_iff in Hin. destruct Hin as [Hin|[<-|[]]]; [eauto|]. intros [].
  - intros m j Hin. apply in_app_iff in Hin. destruct Hin as [Hin|[<-|[]]]; [eauto|]. intros [].
  - intros m j' Hin. apply in_app_iff in Hin. destruct Hin as [Hin|[<-|[]]]; [eauto|]. simpl. intros ->. apply H1. reflexivity.
  - intros j' E. injection E as <-. exists pl. apply H2. left. reflexivity.
  - intros m j' Hin. apply in_app_iff in Hin. destruct Hin as [Hin|[<-|[]]]; [eauto|]. destruct job as [j0|]; simpl; [intros ->|intros []]. apply H1. reflexivity.
Qed.

Lemma mail_in i outs d : In d (mail i outs) -> In (Msg "workers" i d) outs.
Proof.
  unfold mail. rewrite in_map_iff. intros (m & <- & Hin). apply filter_In in Hin. destruct Hin as (Hin & Hf). apply andb_true_iff in Hf. destruct Hf as (E1 & E2).
  apply String.eqb_eq in E1, E2. destruct m as [key i' d]. simpl in *. subst. exact Hin.
Qed.

(* a job in the mail was submitted *)
Lemma mail_origin tr e s' i j pl : run o cfg k (tr ++ [e]) s' -> introduced cards (tr ++ [e]) -> In ("eval" :: j :: pl) (mail i (ev_out e)) ->
  ordered_job (tr ++ [e]) (cards i) j pl.
Proof.
  intros HR HT Hin. apply mail_in in Hin.
  destruct (dispatch_provenance o cfg k tr e [] s' HR _ _ Hin eq_refl eq_refl) as (j' & sub & reg & w & need & pl' & hw & hdrs & Hsub & HS & Hreg & HJ & E & HO).
  injection E as Ei <- <-. exists sub, need. split; [rewrite in_app_iff; simpl; destruct Hsub as [?|<-]; auto|]. split; [exact HS|].
  intros h v Hr. specialize (HO h v Hr). destruct HJ as (J1 & J2 & (fr & J3 & J4) & _).
  assert (Hin' : In reg (tr ++ [e])) by (rewrite in_app_iff; simpl; destruct Hreg as [(?&_)|<-]; auto).
  destruct (HT reg _ Hin' J1 J3) as (d & E). rewrite J2, <- Ei, J3 in E. cbn [frames] in E. injection E as -> ->.
  assert (hdrs = c_hdrs (cards i)) as ->; [|exact HO].
  pose proof (hello_block (cards i) d (Hcards i)) as HB. eapply init_block_fun; eassumption.
Qed.

Theorem origin tr s ns : system o cfg k cards ok tr s ns ->
  run o cfg k tr s /\ read_origin tr /\ forall i, node_origin tr i (ns i).
Proof.
  induction 1 as [|tr s ns i n HS IH HW|tr s ns i m out outs s' HS IH Ho Hs|tr s ns m outs s' HS IH Hk Hb Hs Hset].
  - split; [constructor|]. split; [intros e []|]. intros i. split; [discriminate|]. split; [intros j pl []|intros m j []].
  - destruct IH as (HR & HT & HI). split; [exact HR|]. split; [exact HT|]. intros x. unfold put. destruct (String.eqb_spec x i) as [->|]; [|apply HI].
    eapply work_origin; [exact HW|apply HI].
  - destruct IH as (HR & HT & HI).
    set (e := mkEvent s (Msg "workers" i (frames (cards i) m)) outs s').
    assert (HR' : run o cfg k (tr ++ [e]) s') by (econstructor; eassumption).
    assert (HT' : read_origin (tr ++ [e])).
    { intros e' He Hk. apply in_app_iff in He. destruct He as [He|[<-|[]]].
      - destruct (HT e' He Hk) as (m' & E & H). exists m'. split; [exact E|]. intros j Hj. destruct (H j Hj) as (pl & Hp). exists pl. apply ordered_mono. exact Hp.
      - exists m. split; [reflexivity|]. intros j Hj. destruct (HI i) as (_ & _ & H3). destruct (H3 m j) as (pl & Hp); [rewrite Ho; left; reflexivity|exact Hj|].
        exists pl. apply ordered_mono. exact Hp. }
    split; [exact HR'|]. split; [exact HT'|]. intros x. pose proof (node_origin_mono tr [e] x _ (HI x)) as (H1 & H2 & H3).
    assert (HX : forall out', (forall m', In m' out' -> In m' (n_outbox (ns x))) ->
       node_origin (tr ++ [e]) x (mkNode (n_proc (ns x)) (n_inbox (ns x) ++ mail x outs) out')).
    { intros out' Hsub. split; [exact H1|]. split; cbn [n_inbox n_outbox].
      - intros j pl Hin. apply in_app_iff in Hin. destruct Hin as [Hin|Hin]; [auto|]. eapply mail_origin; [exact HR'|apply read_origin_introduced; exact HT'|exact Hin].
      - intros m' j Hin. apply H3. auto. }
    destruct (String.eqb_spec x i) as [->|Hne].
    + rewrite deliver_own. apply HX. intros m' Hin. rewrite Ho. right. exact Hin.
    + rewrite deliver_other by exact Hne. apply HX. auto.
  - destruct IH as (HR & HT & HI). set (e := mkEvent s m outs s').
    assert (HR' : run o cfg k (tr ++ [e]) s') by (econstructor; eassumption).
    assert (HT' : read_origin (tr ++ [e])).
    { intros e' He Hk'. apply in_app_iff in He. destruct He as [He|[<-|[]]]; [|contradiction].
      destruct (HT e' He Hk') as (m' & E & H). exists m'. split; [exact E|]. intros j Hj. destruct (H j Hj) as (pl & Hp). exists pl. apply ordered_mono. exact Hp. }
    split; [exact HR'|]. split; [exact HT'|]. intros x. destruct (node_origin_mono tr [e] x _ (HI x)) as (H1 & H2 & H3).
    split; [exact H1|]. split; [|exact H3]. unfold deliver. cbn [n_inbox]. intros j pl Hin. apply in_app_iff in Hin. destruct Hin as [Hin|Hin]; [auto|].
    eapply mail_origin; [exact HR'|apply read_origin_introduced; exact HT'|exact Hin].
Qed.

Context (tr : list event) (s : state) (ns : nodes).
Hypothesis HS : system o cfg k cards ok tr s ns.

Theorem received i j pl : In ("eval" :: j :: pl) (n_inbox (ns i)) -> ordered_job tr (cards i) j pl.
Proof. destruct (origin _ _ _ HS) as (_ & _ & H). apply (H i). Qed.
Theorem evaluated i j : n_proc (ns i) = On (Some j) -> exists pl, ordered_job tr (cards i) j pl.
Proof. destruct (origin _ _ _ HS) as (_ & _ & H). apply (H i). Qed.
Theorem said i m j : In m (n_outbox (ns i)) -> mentions m j -> exists pl, ordered_job tr (cards i) j pl.
Proof. destruct (origin _ _ _ HS) as (_ & _ & H). apply (H i). Qed.

Lemma adopted_ordered j : 0 < adoptions j tr -> exists i pl, ordered_job tr (cards i) j pl.
Proof.
  intros H. destruct (origin _ _ _ HS) as (_ & HT & _).
  unfold adoptions in H. apply list_count_pos in H. destruct H as (e & He & Ha). unfold adopts in Ha. rewrite !andb_true_iff in Ha. destruct Ha as (((Hk & Hw) & _) & Hj).
  apply String.eqb_eq in Hk. destruct (HT e He Hk) as (m & E & HM). rewrite E in Hw, Hj. cbn [m_data] in Hw, Hj.
  destruct m as [d| | |]; try discriminate Hw. change (announced (frames (cards (m_ident (ev_in e))) (Hello d))) with (last_extra "current_job" (frames (cards (m_ident (ev_in e))) (Hello d))) in Hj. rewrite (hello_job _ _ (Hcards _)) in Hj. destruct d as [j'|]; [|discriminate]. apply String.eqb_eq in Hj. subst j'.
  destruct (HM j eq_refl) as (pl & Hp). eauto.
Qed.
Lemma submitted_accepts e j need pl : submitted e j need pl -> accepts j e = true.
Proof.
  intros (E1 & (fr & E2 & _) & Hin). unfold accepts. apply andb_true_iff. split.
  - unfold is_submission. rewrite E1, E2, String.eqb_refl. apply starts_with_iff. exists fr. reflexivity.
  - apply existsb_exists. eexists. split; [exact Hin|]. unfold is_accept_for. unfold msg_eqb. cbn [m_key m_ident m_data]. rewrite !String.eqb_refl. reflexivity.
Qed.
(* a job held or reported by the broker was submitted and accepted *)
Theorem held_or_reported j : acceptances j tr = 0 -> reports j tr = 0 /\ forall r, In r (held (s_queue s)) -> r_job r <> j.
Proof.
  intros H0. destruct (origin _ _ _ HS) as (HR & _). pose proof (conservation _ _ _ _ _ HR j) as HC.
  assert (HA : adoptions j tr = 0).
  { destruct (adoptions j tr) as [|n] eqn:En; [reflexivity|]. exfalso. destruct (adopted_ordered j) as (i & pl & sub & need & H1 & H2 & _); [lia|].
    unfold acceptances in H0. assert (0 < list_count (accepts j) tr); [|lia]. apply list_count_pos. exists sub. split; [exact H1|]. eapply submitted_accepts; exact H2. }
  split; [lia|]. intros r Hin E. assert (0 < list_count (job_is j) (held (s_queue s))); [|lia]. apply list_count_pos. exists r. split; [exact Hin|].
  unfold job_is. rewrite E. apply String.eqb_refl.
Qed.
End Origin.

(* ---- all work can be finished ---- *)
Definition is_error (m : saying) : bool := match m with Done _ (VError _) => true | _ => false end.
Definition is_done (m : saying) : bool := match m with Done _ _ => true | _ => false end.
Definition errors (ws : list worker) (ns : nodes) : nat := list_sum (map (fun w => list_count is_error (n_outbox (ns (w_identity w)))) ws).

Lemma errors_le ws ns ns' : (forall i, list_count is_error (n_outbox (ns' i)) <= list_count is_error (n_outbox (ns i))) -> errors ws ns' <= errors ws ns.
Proof. intros H. unfold errors. induction ws as [|w ws IH]; simpl; [lia|]. specialize (H (w_identity w)). lia. Qed.
Lemma errors_lt ws ns ns' w : (forall i, list_count is_error (n_outbox (ns' i)) <= list_count is_error (n_outbox (ns i))) -> In w ws ->
  list_count is_error (n_outbox (ns' (w_identity w))) < list_count is_error (n_outbox (ns (w_identity w))) -> errors ws ns' < errors ws ns.
Proof.
  intros H Hin Hlt. induction ws as [|x ws IH]; [destruct Hin|]. pose proof (errors_le ws ns ns' H) as HL. unfold errors in *. simpl. destruct Hin as [->|Hin].
  - lia.
  - specialize (IH Hin). specialize (H (w_identity x)). lia.
Qed.

Section Drain.
Context (o : oracle) (cfg : config) (k : kind) (cards : string -> card).
Hypothesis Hcards : forall i, proper (cards i).
Local Notation good := (sys_ok o cfg k cards).
Local Notation serves := (serves o cfg cards).

Lemma serves_trans tr s ns tr1 s1 ns1 tr2 s2 ns2 : serves tr s ns tr1 s1 ns1 -> serves tr1 s1 ns1 tr2 s2 ns2 -> serves tr s ns tr2 s2 ns2.
Proof. induction 1; intros H'; [exact H'|eapply se_work; eauto|eapply se_read; eauto]. Qed.
Lemma serves_good tr s ns tr' s' ns' : serves tr s ns tr' s' ns' -> good tr s ns -> good tr' s' ns'.
Proof. induction 1; intros HS; [exact HS|apply IHserves; apply sys_work; assumption|apply IHserves; eapply sys_read; eassumption]. Qed.

(* nothing but what is on the way has changed, and no more errors are on the way *)
Definition fewer (i : string) (s : state) (ns : nodes) (s' : state) (ns' : nodes) : Prop :=
  s_reg s' = s_reg s /\ s_queue s' = s_queue s /\ forall x, list_count is_error (n_outbox (ns' x)) <= list_count is_error (n_outbox (ns x)).

(* a known worker's message that is no report *)
Lemma read_other tr s ns i w m out : good tr s ns -> sender i s = Some w -> n_outbox (ns i) = m :: out -> is_done m = false ->
  exists outs s', on_request o cfg (Msg "workers" i (frames (cards i) m)) s = (outs, inr (tt, s')) /\ s_reg s' = s_reg s /\ s_queue s' = s_queue s.
Proof.
  intros HS Hs Ho Hd. pose proof HS as (HR & HT & HI).
  destruct m as [d| |fr|j v]; [| | |discriminate].
  - destruct (known_hello o cfg k cards Hcards tr s i w d HR HT Hs) as (s' & H & ((E1 & E2 & _) & _)). eauto 6.
  - destruct (ping_reply o cfg i [] s) as (s' & H & ((E1 & E2 & _) & _)). eauto 6.
  - destruct (progress_forwarded o cfg i fr s) as (s' & H & ((E1 & E2 & _) & _)). eauto 6.
Qed.

Lemma outbox_other x i outs out ns : x <> i -> n_outbox (deliver outs (taken i out ns) x) = n_outbox (ns x).
Proof. intros H. rewrite deliver_other by exact H. reflexivity. Qed.
Lemma outbox_own i outs out ns : n_outbox (deliver outs (taken i out ns) i) = out.
Proof. rewrite deliver_own. reflexivity. Qed.
Lemma count_cons m l : list_count is_error (m :: l) = (if is_error m then 1 else 0) + list_count is_error l.
Proof. apply list_count_cons. Qed.

Lemma read_calm tr s ns i m out outs s' : n_outbox (ns i) = m :: out -> calm tr ns ->
  calm (tr ++ [mkEvent s (Msg "workers" i (frames (cards i) m)) outs s']) (deliver outs (taken i out ns)).
Proof.
  intros Ho (H1 & H2). split.
  - intros e He. apply in_app_iff in He. destruct He as [He|[<-|[]]]; [auto|]. unfold credited. cbn [ev_in m_data m_ident]. apply andb_false_iff.
    destruct m as [d| |fr|j v].
    + left. unfold own_report. cbn [ev_in m_data]. rewrite !andb_false_iff. left. right. reflexivity.
    + right. reflexivity.
    + left. unfold own_report. cbn [ev_in m_data]. rewrite !andb_false_iff. left. right. reflexivity.
    + right. destruct v as [|t|t]; [reflexivity|reflexivity|]. destruct (H2 i j t). rewrite Ho. left. reflexivity.
  - intros x j t. destruct (String.eqb_spec x i) as [->|Hne]; [rewrite outbox_own|rewrite outbox_other by exact Hne; apply H2].
    intros Hin. apply (H2 i j t). rewrite Ho. right. exact Hin.
Qed.
Lemma quiet_created ls : Forall quiet ls -> created ls = [].
Proof. induction 1 as [|l ls H _ IH]; [reflexivity|]. unfold created in *. simpl. rewrite IH. destruct l; simpl in *; tauto. Qed.
Lemma done_outcome tr s i w r v outs s' : run o cfg k tr s -> sender i s = Some w -> current_of (s_queue s) w = Some r ->
  on_request o cfg (Msg "workers" i ("done" :: r_job r :: verdict_frames v)) s = (outs, inr (tt, s')) ->
  s_reg s' = s_reg s /\ (is_error (Done (r_job r) v) = false -> exists t rest, outs = Msg "status_notifier" "" (["type"; "job-status"; "id"; r_job r] ++ t) :: rest).
Proof.
  intros HR Hs Hc H. destruct v as [|t|t]; simpl in H.
  - destruct (done_ok o cfg k tr s i w r HR Hs Hc []) as (x & s1 & H1 & _ & (E & _) & _). rewrite H in H1. injection H1 as -> <-.
    split; [exact E|]. intros _. exists ["status"; "OK"]. eexists. reflexivity.
  - destruct (done_failed o cfg k tr s i w r HR Hs Hc t) as (x & s1 & H1 & _ & (E & _) & _). rewrite H in H1. injection H1 as -> <-.
    split; [exact E|]. intros _. exists ["status"; "FAILED"; "message"; t]. eexists. reflexivity.
  - split; [|discriminate]. destruct (r_complete r) eqn:Ec.
    + destruct (N.lt_ge_cases (attempts s r + 1) (c_max_failures cfg)) as [Hlt|Hge].
      * destruct (done_internal_again o cfg k tr s i w r HR Hs Hc t Ec Hlt) as (x & s1 & H1 & _ & (E & _) & _). rewrite H in H1. injection H1 as _ <-. exact E.
      * destruct (done_internal_too_many o cfg k tr s i w r HR Hs Hc t Ec Hge) as (x & s1 & H1 & _ & (E & _) & _). rewrite H in H1. injection H1 as _ <-. exact E.
    + destruct (done_internal_incomplete o cfg k tr s i w r HR Hs Hc t Ec) as (s1 & H1 & _ & _ & (E & _) & _). rewrite H in H1. injection H1 as _ <-. exact E.
Qed.

(* a report *)
Lemma read_done tr s ns i w r j v out : good tr s ns -> sender i s = Some w -> current_of (s_queue s) w = Some r -> n_outbox (ns i) = Done j v :: out ->
  exists tr' s' ns', serves tr s ns tr' s' ns' /\ s_reg s' = s_reg s /\
    length (held (s_queue s')) + errors (s_reg s') ns' < length (held (s_queue s)) + errors (s_reg s) ns /\ (calm tr ns -> calm tr' ns').
Proof.
  intros HS Hs Hc Ho. pose proof HS as (HR & HT & HI).
  destruct (done_matches_ok o cfg k cards _ _ _ HS i j v out w Ho Hs) as (r' & Hc' & <-). rewrite Hc in Hc'. injection Hc' as <-.
  destruct (survives_ok o cfg k cards Hcards _ _ _ HS i _ _ Ho) as (outs & s' & Hstep).
  eexists _, s', _. split; [eapply se_read; [exact Ho|exact Hstep|apply se_stop]|].
  pose proof (run_inv _ _ _ _ _ HR) as HV. destruct (sender_in _ _ _ Hs) as (Hin & Ei).
  destruct (on_request_sim _ _ _ _ _ _ HV Hstep) as (ls & A & O & Sh).
  destruct (done_outcome _ _ _ _ _ _ _ _ HR Hs Hc Hstep) as (Er & Hrep).
  split; [exact Er|]. rewrite Er.
  assert (HE : forall x, list_count is_error (n_outbox (deliver outs (taken i out ns) x)) <= list_count is_error (n_outbox (ns x))).
  { intros x. destruct (String.eqb_spec x i) as [->|Hne]; [rewrite outbox_own, Ho, count_cons; lia|rewrite outbox_other by exact Hne; lia]. }
  pose proof (Permutation_length (atoms_conserve _ _ _ _ _ _ _ A HV)) as HP. rewrite !app_nil_r, !app_length in HP.
  assert (HX : length (created ls) = 0 /\ (is_error (Done (r_job r) v) = false -> 0 < length (finished ls))).
  { split.
    - destruct Sh as [ls Hq _|ls Hk Ht|ls rest Hk Hd He|pre w0 cur x next rest Hk Hd Hq Hr|ls rest Hk Hd Hds]; try discriminate.
      + rewrite (quiet_created _ Hq). reflexivity.
      + destruct Hds as [_|w0 r0 m0 x st _ _ _ _ _|w0 r0 ls _ _ _ _ _ He]; [reflexivity|reflexivity|]. destruct He; reflexivity.
    - intros Ev. destruct (Hrep Ev) as (t & rest & E). pose proof (atoms_reports o cfg (r_job r) _ _ _ _ _ A) as HC. rewrite O, E in HC.
      rewrite list_count_cons in HC.
      assert (is_report (r_job r) (Msg "status_notifier" "" (["type"; "job-status"; "id"; r_job r] ++ t)) = true) as Hir.
      { unfold is_report. cbn [m_key m_data]. rewrite String.eqb_refl. apply starts_with_iff. exists t. reflexivity. }
      rewrite Hir in HC. destruct (finished ls); [discriminate HC|simpl; lia]. }
  split; [|apply read_calm; exact Ho].
  destruct HX as (HX1 & HX2). destruct (is_error (Done (r_job r) v)) eqn:Ev.
  - assert (errors (s_reg s) (deliver outs (taken i out ns)) < errors (s_reg s) ns); [|lia]. eapply errors_lt; [exact HE|exact Hin|].
    rewrite Ei, outbox_own, Ho, count_cons, Ev. lia.
  - specialize (HX2 eq_refl). pose proof (errors_le (s_reg s) _ _ HE). lia.
Qed.

Lemma read_until_done pre : forall tr s ns i w r j v post, good tr s ns -> sender i s = Some w -> current_of (s_queue s) w = Some r ->
  n_outbox (ns i) = pre ++ Done j v :: post -> Forall (fun m => is_done m = false) pre ->
  exists tr' s' ns', serves tr s ns tr' s' ns' /\ s_reg s' = s_reg s /\
    length (held (s_queue s')) + errors (s_reg s') ns' < length (held (s_queue s)) + errors (s_reg s) ns /\ (calm tr ns -> calm tr' ns').
Proof.
  induction pre as [|m pre IH]; intros tr s ns i w r j v post HS Hs Hc Ho HF; [eapply read_done; eassumption|].
  inversion HF; subst. simpl in Ho. destruct (read_other _ _ _ _ _ _ _ HS Hs Ho) as (outs & s1 & Hstep & E1 & E2); [assumption|].
  destruct (IH (tr ++ [mkEvent s (Msg "workers" i (frames (cards i) m)) outs s1]) s1 (deliver outs (taken i (pre ++ Done j v :: post) ns)) i w r j v post)
    as (tr' & s' & ns' & H1' & H2' & H3' & H4').
  - eapply sys_read; eassumption.
  - unfold sender. rewrite E1. exact Hs.
  - rewrite E2. exact Hc.
  - apply outbox_own.
  - assumption.
  - exists tr', s', ns'. split; [eapply se_read; eassumption|]. split; [congruence|]. split; [|intros HC; apply H4'; apply read_calm; assumption]. rewrite E2, E1 in H3'.
    pose proof (errors_le (s_reg s) ns (deliver outs (taken i (pre ++ Done j v :: post) ns))) as HL.
    assert (errors (s_reg s) (deliver outs (taken i (pre ++ Done j v :: post) ns)) <= errors (s_reg s) ns); [|lia].
    apply HL. intros x. destruct (String.eqb_spec x i) as [->|Hne]; [rewrite outbox_own, Ho, (count_cons m); lia|rewrite outbox_other by exact Hne; lia].
Qed.

Lemma first_done l : Forall (fun m => is_done m = false) l \/ exists pre j v post, l = pre ++ Done j v :: post /\ Forall (fun m => is_done m = false) pre.
Proof.
  induction l as [|m l IH]; [left; constructor|]. destruct m as [d| |fr|j v]; try (destruct IH as [IH|(pre & j' & v' & post & -> & HF)];
    [left; constructor; [reflexivity|exact IH]|right; eexists (_ :: pre), j', v', post; split; [reflexivity|constructor; [reflexivity|exact HF]]]).
  right. exists [], j, v, l. split; [reflexivity|constructor].
Qed.

(* the worker works until it has something to report *)
Lemma finish_one inb : forall tr s ns i w r, n_inbox (ns i) = inb -> good tr s ns -> sender i s = Some w -> current_of (s_queue s) w = Some r ->
  exists tr' s' ns', serves tr s ns tr' s' ns' /\ s_reg s' = s_reg s /\
    length (held (s_queue s')) + errors (s_reg s') ns' < length (held (s_queue s)) + errors (s_reg s) ns /\ (calm tr ns -> calm tr' ns').
Proof.
  induction inb as [inb IH] using (induction_ltof1 _ (@length _)). unfold ltof in IH. intros tr s ns i w r Einb HS Hs Hc.
  destruct (first_done (n_outbox (ns i))) as [HF|(pre & j & v & post & Ho & HF)]; [|eapply read_until_done; eassumption].
  assert (Hno : forall j v, ~ In (Done j v) (n_outbox (ns i))).
  { intros j v Hin. rewrite Forall_forall in HF. specialize (HF _ Hin). discriminate. }
  assert (HW : forall n, work (ns i) n -> (forall x, list_count is_error (n_outbox (put i n ns x)) <= list_count is_error (n_outbox (ns x))) ->
     (calm tr ns -> calm tr (put i n ns)) ->
     (exists tr' s' ns', serves tr s (put i n ns) tr' s' ns' /\ s_reg s' = s_reg s /\
        length (held (s_queue s')) + errors (s_reg s') ns' < length (held (s_queue s)) + errors (s_reg s) (put i n ns) /\ (calm tr (put i n ns) -> calm tr' ns')) ->
     exists tr' s' ns', serves tr s ns tr' s' ns' /\ s_reg s' = s_reg s /\
        length (held (s_queue s')) + errors (s_reg s') ns' < length (held (s_queue s)) + errors (s_reg s) ns /\ (calm tr ns -> calm tr' ns')).
  { intros n Hw He Hcm (tr' & s' & ns' & H1 & H2 & H3 & H4). exists tr', s', ns'. split; [eapply se_work; eassumption|]. split; [exact H2|]. split; [|auto].
    pose proof (errors_le (s_reg s) _ _ He). lia. }
  assert (Hput : forall n, put i n ns i = n) by (intros n; unfold put; rewrite String.eqb_refl; reflexivity).
  assert (HE : forall p inb' m, is_error m = false -> forall x, list_count is_error (n_outbox (put i (mkNode p inb' (n_outbox (ns i) ++ [m])) ns x)) <= list_count is_error (n_outbox (ns x))).
  { intros p inb' m Hm x. unfold put. destruct (String.eqb_spec x i) as [->|]; [|lia]. cbn [n_outbox]. rewrite list_count_app, count_cons, Hm. simpl. unfold list_count. simpl. lia. }
  assert (HCM : forall p inb' out', (forall m, In m out' -> In m (n_outbox (ns i)) \/ is_error m = false) -> calm tr ns -> calm tr (put i (mkNode p inb' out') ns)).
  { intros p inb' out' Hsub (C1 & C2). split; [exact C1|]. intros x j t. unfold put. destruct (String.eqb_spec x i) as [->|]; [|apply C2].
    cbn [n_outbox]. intros Hin. destruct (Hsub _ Hin) as [H|H]; [exact (C2 i j t H)|discriminate]. }
  assert (HE0 : forall p inb' x, list_count is_error (n_outbox (put i (mkNode p inb' (n_outbox (ns i))) ns x)) <= list_count is_error (n_outbox (ns x))).
  { intros p inb' x. unfold put. destruct (String.eqb_spec x i) as [->|]; cbn [n_outbox]; lia. }
  destruct (no_phantom_ok o cfg k cards _ _ _ HS i w r Hs Hc) as [Hp|[(pl & Hi)|(v & Hv)]]; [| |destruct (Hno _ _ Hv)].
  - (* working on it *)
    destruct (ns i) as [p inb' out] eqn:En. cbn [n_proc n_inbox n_outbox] in *. subst p inb'.
    apply (HW (mkNode (On None) inb (out ++ [Done (r_job r) VOk]))); [constructor|apply HE; reflexivity| |].
    { apply HCM. intros m Hm. apply in_app_iff in Hm. destruct Hm as [Hm|[<-|[]]]; auto. }
    eapply (read_until_done out) with (i := i); [apply sys_work; [exact HS|rewrite En; constructor]|exact Hs|exact Hc|rewrite Hput; reflexivity|exact HF].
  - (* still to read it *)
    destruct (ns i) as [p inb' out] eqn:En. cbn [n_proc n_inbox n_outbox] in *. subst inb'. destruct inb as [|d inb]; [destruct Hi|].
    assert (Hon : exists job, p = On job).
    { pose proof HS as (_ & _ & HI). destruct (HI i) as (_ & HN).
      unfold view in HN. rewrite Hs, En in HN. inversion HN; subst. eauto. }
    destruct Hon as (job & ->).
    assert (HG : forall n, work (mkNode (On job) (d :: inb) out) n -> n_inbox n = inb -> (n_outbox n = out \/ exists m, n_outbox n = out ++ [m] /\ is_error m = false) ->
       exists tr' s' ns', serves tr s ns tr' s' ns' /\ s_reg s' = s_reg s /\
         length (held (s_queue s')) + errors (s_reg s') ns' < length (held (s_queue s)) + errors (s_reg s) ns /\ (calm tr ns -> calm tr' ns')).
    { intros n Hw En' Ho'. apply (HW n); [exact Hw| | |].
      - destruct n as [p' inb'' out']. cbn [n_outbox n_inbox] in *. destruct Ho' as [->|(m & -> & Hm)]; [apply HE0|apply HE; exact Hm].
      - destruct n as [p' inb'' out']. cbn [n_outbox n_inbox] in *. apply HCM. intros m Hin. destruct Ho' as [->|(m' & -> & Hm)]; [auto|].
        apply in_app_iff in Hin. destruct Hin as [Hin|[<-|[]]]; auto.
      - apply (IH inb ltac:(simpl; lia)) with (i := i) (w := w) (r := r); [rewrite Hput; exact En'|apply sys_work; [exact HS|rewrite En; exact Hw]|exact Hs|exact Hc]. }
    destruct d as [|e [|j' pl']].
    + apply (HG (mkNode (On job) inb out)); [constructor; discriminate|reflexivity|auto].
    + destruct (String.eqb_spec e "intro") as [->|Hne].
      * apply (HG (mkNode (On job) inb (out ++ [Hello job]))); [constructor|reflexivity|right; exists (Hello job); split; reflexivity].
      * apply (HG (mkNode (On job) inb out)); [constructor; [discriminate|congruence]|reflexivity|auto].
    + destruct (String.eqb_spec e "eval") as [->|Hne].
      * apply (HG (mkNode (On (Some j')) inb out)); [econstructor|reflexivity|auto].
      * apply (HG (mkNode (On job) inb out)); [constructor; [congruence|discriminate]|reflexivity|auto].
Qed.

(* when nobody works, the waiting requests wait for workers idle after an internal error *)
Lemma idle_waits tr s : run o cfg k tr s -> running (s_queue s) = [] ->
  forall r, In r (queued (s_queue s)) -> exists w, In w (s_reg s) /\ waits_for (s_queue s) r w /\ idle_after_error tr w.
Proof.
  intros HR Er r Hr. pose proof (inv_q _ _ (run_inv _ _ _ _ _ HR)) as HQ.
  assert (Hidle : forall w, In w (s_reg s) -> current_of (s_queue s) w = None).
  { intros w Hw. destruct (current_of (s_queue s) w) as [x|] eqn:Ex; [|reflexivity]. assert (In x (running (s_queue s))) as Hx by (apply (in_running _ _ _ HQ); eauto).
    rewrite Er in Hx. destruct Hx. }
  assert (HX : exists w, In w (s_reg s) /\ waits_for (s_queue s) r w).
  { destruct (used_inv o _ _ (run_used _ _ _ _ _ HR)) as (_ & HCn). pose proof (qi_impl _ _ HQ) as HM. destruct (s_queue s) as [q|q]; cbn [queued waits_for] in *.
    - apply in_map_iff in Hr. destruct Hr as (e & <- & He). destruct (si_assignable _ _ HM e He) as (w & Hw & Hcap). exists w. split; [exact Hw|].
      split; [apply in_map; exact He|]. apply fits_capable; auto.
    - apply in_concat in Hr. destruct Hr as (l & Hl & Hr). apply in_map_iff in Hl. destruct Hl as ((w & l') & E & Hl). simpl in E. subst l'.
      assert (Hk : In w (keys (mq_queues q))) by (apply (in_map fst) in Hl; exact Hl).
      exists w. split; [exact (Permutation_in _ (mi_queues _ _ HM) Hk)|]. cbn [own_queue].
      rewrite (pm_find_in w l); [exact Hr| |exact Hl]. eapply Permutation_NoDup; [apply ids_perm; symmetry; apply (mi_queues _ _ HM)|exact (qi_nodup _ _ HQ)]. }
  destruct HX as (w & Hw & Hwait). exists w. split; [exact Hw|]. split; [exact Hwait|].
  eapply (starves_only_after_error o cfg k tr s w HR Hw). split; [auto|eauto].
Qed.

Theorem drain_ok tr s ns : good tr s ns -> exists tr' s' ns', serves tr s ns tr' s' ns' /\ s_reg s' = s_reg s /\ running (s_queue s') = [] /\
  (forall r, In r (queued (s_queue s')) -> exists w, In w (s_reg s') /\ waits_for (s_queue s') r w /\ idle_after_error tr' w) /\ (calm tr ns -> calm tr' ns').
Proof.
  remember (length (held (s_queue s)) + errors (s_reg s) ns) as n eqn:En. revert tr s ns En.
  induction n as [n IH] using lt_wf_ind. intros tr s ns -> HS.
  pose proof HS as (HR & HT & HI).
  pose proof (run_inv _ _ _ _ _ HR) as HV. pose proof (inv_q _ _ HV) as HQ.
  destruct (running (s_queue s)) as [|r rs] eqn:Er.
  - exists tr, s, ns. split; [constructor|]. split; [reflexivity|]. split; [exact Er|]. split; [|auto]. exact (idle_waits _ _ HR Er).
  - assert (Hin : In r (running (s_queue s))) by (rewrite Er; left; reflexivity). apply (in_running _ _ _ HQ) in Hin. destruct Hin as (w & Hw & Hc).
    assert (Hs : sender (w_identity w) s = Some w) by (apply alone_sender; [apply HI|exact Hw|reflexivity]).
    destruct (finish_one _ tr s ns (w_identity w) w r eq_refl HS Hs Hc) as (tr1 & s1 & ns1 & H1 & H2 & H3 & H4).
    destruct (IH _ H3 tr1 s1 ns1 eq_refl (serves_good _ _ _ _ _ _ H1 HS)) as (tr' & s' & ns' & G1 & G2 & G3 & G4 & G5).
    exists tr', s', ns'. split; [eapply serves_trans; eassumption|]. split; [congruence|]. split; [exact G3|]. split; [exact G4|auto].
Qed.
(* if no worker has ever had to report an internal error, everything accepted is reported in the end *)
Theorem drain_all_ok tr s ns : good tr s ns -> calm tr ns -> exists tr' s' ns', serves tr s ns tr' s' ns' /\
  held (s_queue s') = [] /\ forall j, reports j tr' = acceptances j tr' + adoptions j tr'.
Proof.
  intros HS HC. destruct (drain_ok _ _ _ HS) as (tr' & s' & ns' & H1 & H2 & H3 & H4 & H5). exists tr', s', ns'. split; [exact H1|].
  assert (HH : held (s_queue s') = []).
  { unfold held. rewrite H3. simpl. destruct (queued (s_queue s')) as [|r t] eqn:E; [reflexivity|]. exfalso.
    destruct (H4 r) as (w & _ & _ & tr1 & e & tr2 & -> & Hcr & _); [left; reflexivity|]. destruct (H5 HC) as (H6 & _). rewrite H6 in Hcr; [discriminate|].
    rewrite in_app_iff. right. left. reflexivity. }
  split; [exact HH|]. intros j.
  destruct (serves_good _ _ _ _ _ _ H1 HS) as (HR & _).
  pose proof (conservation _ _ _ _ _ HR j) as HJ. rewrite HH in HJ. change (list_count (job_is j) []) with 0 in HJ. lia.
Qed.
End Drain.

Definition drain o cfg k cards (Hcards : forall i, proper (cards i)) tr s ns (HS : system o cfg k cards settled tr s ns) :=
  drain_ok o cfg k cards Hcards tr s ns (reachable_ok o cfg k cards Hcards tr s ns HS).
Definition drain_all o cfg k cards (Hcards : forall i, proper (cards i)) tr s ns (HS : system o cfg k cards settled tr s ns) :=
  drain_all_ok o cfg k cards Hcards tr s ns (reachable_ok o cfg k cards Hcards tr s ns HS).
