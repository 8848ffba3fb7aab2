(* From the broker to the frontend: the notifications of a run reach the notifier's thread. *)
From Coq Require Import Lia.
From Verif Require Import Base Bytes Containers Worker Multi Single Queue Handler SpecText Spec SpecRun SpecOut SpecHttp SpecWire Facts Notifier NotifierFacts
  Reactor SpecReactor ReactorFacts ReactorRun Async SpecAsync AsyncFacts.
Local Open Scope string_scope.
Local Open Scope list_scope.

Section Notified.
Context (o : oracle) (cfg : config) (k : kind).

Lemma run_keys tr s : run o cfg k tr s -> Forall (fun e => Forall known_key (ev_out e)) tr.
Proof.
  induction 1 as [|tr s m outs s' _ IH E]; [constructor|]. apply Forall_app. split; [exact IH|]. constructor; [|constructor]. cbn.
  pose proof (on_request_keys o cfg m s) as H. rewrite E in H. exact H.
Qed.

Lemma passed_routes outs : Forall known_key outs ->
  passed_on 0 (flat_map broker_route outs) = filter (fun m => String.eqb (m_key m) "status_notifier") outs.
Proof.
  induction 1 as [|m outs Hm _ IH]; [reflexivity|]. cbn [flat_map filter]. unfold passed_on in *. rewrite flat_map_app, IH. unfold broker_route.
  unfold known_key in Hm. simpl in Hm. destruct Hm as [<-|[<-|[<-|[<-|[]]]]]; reflexivity.
Qed.

Lemma passed_run tr : Forall (fun e => Forall known_key (ev_out e)) tr -> passed_on 0 (flat_map event_actions tr) = sent_on "status_notifier" tr.
Proof.
  unfold sent_on. induction 1 as [|e tr He _ IH]; [reflexivity|]. cbn [flat_map]. rewrite filter_app, <- IH, <- passed_routes by exact He.
  unfold passed_on. rewrite flat_map_app. reflexivity.
Qed.

Lemma sent_split tr s m : run o cfg k tr s -> In m (sent_on "status_notifier" tr) ->
  exists tr1 e tr2, tr = tr1 ++ e :: tr2 /\ In m (ev_out e) /\ m_key m = "status_notifier".
Proof.
  intros _ Hin. unfold sent_on in Hin. apply filter_In in Hin. destruct Hin as (Hin & Hk). apply String.eqb_eq in Hk.
  apply in_flat_map in Hin. destruct Hin as (e & He & Hm). apply in_split in He. destruct He as (tr1 & tr2 & ->). eauto 10.
Qed.

Lemma sent_plain tr s m : run o cfg k tr s -> In m (sent_on "status_notifier" tr) -> m_data m <> [] /\ m_key m <> "TERMINATE".
Proof.
  intros HR Hin. destruct (sent_split _ _ _ HR Hin) as (tr1 & e & tr2 & -> & Hm & Hk).
  destruct (run_notifications _ _ _ _ _ _ _ HR m Hm Hk) as (_ & HN). rewrite Hk. split; [|discriminate]. inversion HN; discriminate.
Qed.

Theorem reaches fuel ws acts l' : (forall w, In w ws -> w_async w = []) ->
  loop state broker_tables (broker_handlers o cfg) (S fuel) ws (broker_start (empty_manager k)) = (acts, inr l') ->
  exists tr, run o cfg k tr (l_states l' 0) /\ acts = flat_map event_actions tr /\
  forall hwm id es0 es1, passed_to id (es0 ++ es1) = passed_on 0 acts ->
    Forall (fun e => match e with Pass i _ => i = id | _ => True end) (es0 ++ es1) ->
    Forall (fun e => e <> Connect id) es0 -> no_stop id es1 -> never_full hwm id (es0 ++ Connect id :: es1) ->
  exists handled waiting,
    done_by id (fst (exec_steps hwm (es0 ++ Connect id :: es1) new_channel)) = map Some handled /\
    p_pipe (ch_peers (snd (exec_steps hwm (es0 ++ Connect id :: es1) new_channel)) id) = map (fun m => m_key m :: m_ident m :: m_data m) waiting /\
    passed_to id es0 ++ handled ++ waiting = sent_on "status_notifier" tr /\
    forall m, In m handled -> forall c outs, exists p target acts,
      post_for c (m_data m) p target /\ notifier_on_request c outs m = Val acts /\ attempts p target outs acts.
Proof.
  intros Hw HL. destruct (loop_broker o cfg k fuel ws [] (broker_start (empty_manager k)) (run_nil _ _ _) eq_refl Hw) as (a & r & E & HD).
  rewrite HL in E. injection E as <- <-. destruct HD as (tr & HR & Ea & _). cbn [app] in HR. exists tr. split; [exact HR|]. split; [exact Ea|].
  intros hwm id es0 es1 Hpass Hid H0 H1 Hf. rewrite Ea, (passed_run _ (run_keys _ _ HR)) in Hpass.
  assert (Hp : Forall plain (es0 ++ Connect id :: es1)).
  { apply Forall_forall. intros e He. destruct e as [i|i m|i|i]; try exact I. 
    assert (Hin : In (Pass i m) (es0 ++ es1)) by (rewrite in_app_iff in *; destruct He as [He|[He|He]]; [tauto|discriminate|tauto]).
    rewrite Forall_forall in Hid. specialize (Hid _ Hin). cbn in Hid. subst i. apply (sent_plain tr _ m HR). rewrite <- Hpass.
    unfold passed_to. apply in_flat_map. exists (Pass id m). split; [exact Hin|]. rewrite String.eqb_refl. left. reflexivity. }
  destruct (exactly_once hwm id es0 es1 Hp H0 H1 Hf) as (d & wt & Ed & Ew & Hd). exists d, wt. split; [exact Ed|]. split; [exact Ew|].
  assert (Hall : passed_to id es0 ++ d ++ wt = sent_on "status_notifier" tr) by (rewrite Hd, <- Hpass; unfold passed_to; rewrite flat_map_app; reflexivity).
  split; [exact Hall|]. intros m Hm c outs. assert (Hin : In m (sent_on "status_notifier" tr)) by (rewrite <- Hall, !in_app_iff; auto).
  destruct (sent_split _ _ _ HR Hin) as (tr1 & e & tr2 & -> & Hme & Hk). exact (run_posted _ _ _ _ _ _ _ HR m Hme Hk c outs).
Qed.
End Notified.
