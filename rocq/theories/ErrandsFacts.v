(* From the process to the transfers made for the frontend (C77). *)
From Coq Require Import Lia.
From Verif Require Import Base Bytes Containers Worker Multi Single Queue Handler SpecText Spec SpecRun SpecOut SpecFatal SpecLedger SpecPool Facts TextFacts
  Notifier SpecHttp NotifierFacts SpecWire Reactor SpecReactor ReactorFacts ReactorRun Async SpecAsync AsyncFacts AsyncRun Curl SpecCurl CurlFacts
  Config SpecConfig Logger Startup SpecStartup StartupFacts SpecWhole Whole Errands SpecErrands.
Local Open Scope string_scope.
Local Open Scope list_scope.

(* ---- one notification ---- *)

Lemma post_calls url port params u p pieces error : exists cs r, http_post url port params u p (Served pieces error) = (cs, r) /\
  transfers None cs [Terms (Some (c_str url)) port (Some (c_str (query_text params))) true true true true true true (credentials u p)] /\
  match error with
  | None => exists x, r = inr x
  | Some e => r = inl ("POST request failed to " ++ (url ++ "?" ++ query_text params) ++ ". Error: (" ++ to_string_Z (fst e) ++ ") " ++ snd e)%string
  end.
Proof.
  unfold http_post, conclude, common_settings, credentials. rewrite creds_test, query_spec. eexists _, _. split; [reflexivity|]. split.
  - destruct (String.eqb (u ++ p) ""); cbn [negb app map]; destruct error; made.
  - destruct error as [(c, t)|]; [reflexivity|]. eexists. reflexivity.
Qed.

Lemma again_tries url port params u p outs : forall r n d, n + r = 4 ->
  tries (Terms (Some (c_str url)) port (Some (c_str (query_text params))) true true true true true true (credentials u p)) (url ++ "?" ++ query_text params)
    outs n d (try_again (http_post url port params u p) outs n r d).
Proof.
  induction r as [|r IH]; intros n d Hn; cbn [try_again].
  - replace n with 4 by lia. apply tr_given_up.
  - destruct (outs n) as [|pieces error] eqn:E; [apply tr_no_handle; [lia|exact E]|].
    destruct (post_calls url port params u p pieces error) as (cs & x & -> & HT & HR). destruct error as [e|].
    + rewrite HR. apply tr_failed with (pieces := pieces); [lia|exact E|exact HT|]. replace (2 * d)%N with (d * 2)%N by lia. apply IH. lia.
    + destruct HR as (y & ->). apply (tr_delivered _ _ _ n d pieces); [lia|exact E|exact HT].
Qed.

Lemma credentials_auth c : credentials (n_username c) (n_password c) = auth c.
Proof. reflexivity. Qed.

Theorem notification_tried c outs m : notification (m_data m) -> exists t target es,
  terms_for c (m_data m) t target /\ notify c outs m = Val es /\ tries t target outs 0 1 es.
Proof.
  intros H. unfold notify. destruct m as [key i d]. cbn [m_data] in *.
  assert (HG : forall url params p target, post_for c d p target -> p_url p = c_str url -> p_port p = n_port c -> p_body p = c_str (query_text params) -> p_auth p = auth c ->
    target = (url ++ "?" ++ query_text params)%string -> exists t target, terms_for c d t target /\
    tries t target outs 0 1 (try_again (http_post url (Z.of_N (n_port c)) params (n_username c) (n_password c)) outs 0 4 1%N)).
  { intros url params p target HP E1 E2 E3 E4 E5. eexists _, target. split; [exists p; split; [exact HP|reflexivity]|]. rewrite E1, E2, E3, E4, E5, <- credentials_auth. apply again_tries. reflexivity. }
  destruct H as [t|j|j t].
  - destruct (HG (n_address c ++ "/error" ++ "")%string [("message", t)] _ _ (pf_error c t)) as (t' & g & H1 & H2);
      try (do 4 (cbn; rewrite ?append_assoc_s, ?append_nil_r); reflexivity).
    exists t', g. eexists. split; [exact H1|]. split; [reflexivity|]. exact H2.
  - destruct (HG (n_address c ++ "/job-status" ++ path j)%string [("status", "OK")] _ _ (pf_done c j)) as (t' & g & H1 & H2);
      try (do 4 (cbn; rewrite ?append_assoc_s, ?append_nil_r); reflexivity).
    exists t', g. eexists. split; [exact H1|]. split; [reflexivity|]. rewrite (path_spec j). exact H2.
  - destruct (HG (n_address c ++ "/job-status" ++ path j)%string [("message", t); ("status", "FAILED")] _ _ (pf_failed c j t)) as (t' & g & H1 & H2);
      try (do 6 (cbn; rewrite ?append_assoc_s, ?append_nil_r); reflexivity).
    exists t', g. eexists. split; [exact H1|]. split; [reflexivity|]. rewrite (path_spec j). exact H2.
Qed.

(* ---- what the process hands over ---- *)

Lemma informed_app a b : informed (a ++ b) = informed a ++ informed b.
Proof. unfold informed. apply flat_map_app. Qed.
Lemma informed_acts acts : informed (map Act acts) = passed_on 0 acts.
Proof. unfold informed, passed_on. induction acts as [|a acts IH]; [reflexivity|]. cbn [map flat_map]. rewrite IH. destruct a; reflexivity. Qed.
Lemma no_acts effs : Forall (fun e => match e with Act _ => False | _ => True end) effs -> informed effs = [].
Proof. induction 1 as [|e effs He _ IH]; [reflexivity|]. unfold informed in *. cbn [flat_map]. rewrite IH. destruct e; tauto. Qed.

Definition quiet (e : effect) : Prop := match e with Act _ => False | _ => True end.
Lemma quiet_notes l : Forall quiet (map (fun p => Note (fst p) (snd p)) l).
Proof. induction l; constructor; [exact I|assumption]. Qed.
Lemma quiet_opened env g xs : Forall quiet (fst (initialize_all env g xs)).
Proof.
  induction xs as [|(a, n) xs IH]; [constructor|]. cbn [initialize_all]. destruct (socket_setup g n) as (b, x). destruct (e_open env b x); [|constructor].
  destruct (initialize_all env g xs) as (effs, ok). cbn [fst] in *. constructor; [destruct b; exact I|exact IH].
Qed.
Lemma quiet_exit {A} l t effs : Forall quiet effs -> Forall quiet (fst (@force_exit A l t effs)).
Proof. intros H. unfold force_exit. cbn [fst]. apply Forall_app. split; [exact H|]. destruct (String.eqb t ""); cbn; [constructor|]. destruct l; cbn; repeat constructor. Qed.

Lemma quiet_start env args : Forall quiet (fst (start_up env args)).
Proof.
  unfold start_up. destruct (e_options env args) as [w|[] f]; try (apply quiet_exit; repeat constructor).
  unfold load_config. destruct (e_file env _) as [w|doc]; [apply quiet_exit; constructor|]. destruct (load _ doc) as [e|g]; [apply quiet_exit; constructor|].
  unfold log_init. destruct (e_log env _ _ _ _) as [w|]; [cbn; repeat constructor|]. unfold begin_serving.
  assert (HQ : Forall quiet ((OpenLog (g_log_path g) (g_log_basename g) (g_log_size g) (g_log_count g) ::
                                 map (fun p => Note (fst p) (snd p)) (header (get_log_level (g_log_level g))) ++ curl_init) ++ [Note LInfo "Initializing broker connection..."])).
  { apply Forall_app. split; [|repeat constructor]. constructor; [exact I|]. apply Forall_app. split; [apply quiet_notes|repeat constructor]. }
  destruct (choose_manager g) as [k|]; [|apply quiet_exit; exact HQ].
  pose proof (quiet_opened env g (t_sockets broker_tables)) as HO. destruct (initialize_all env g (t_sockets broker_tables)) as (opened, ok). cbn [fst] in HO.
  assert (HA : Forall quiet (((OpenLog (g_log_path g) (g_log_basename g) (g_log_size g) (g_log_count g) ::
                                 map (fun p => Note (fst p) (snd p)) (header (get_log_level (g_log_level g))) ++ curl_init) ++ [Note LInfo "Initializing broker connection..."]) ++
              connect_lines g ++ [Note LInfo "Broker connection initialized."; Note LInfo "Broker will now start brokering."])).
  { apply Forall_app. split; [exact HQ|]. repeat constructor. }
  destruct ok; cbn [fst]; apply Forall_app; split; assumption.
Qed.

Lemma doomed_known L m outs f : doomed L m outs f -> Forall known_key outs /\ forall x, In x outs -> m_key x = "status_notifier" -> notification (m_data x).
Proof.
  intros H. destruct H; split; try (apply Forall_nil); try (constructor; [cbn; tauto|constructor]); intros x Hin Hk; cbn in Hin; try tauto;
    destruct Hin as [<-|[]]; try discriminate Hk. apply no_error.
Qed.

Lemma news_run tr : news (map ev_out tr) = sent_on "status_notifier" tr.
Proof. unfold news, sent_on. rewrite flat_map_concat_map. reflexivity. Qed.
Lemma news_snoc outss outs : news (outss ++ [outs]) = news outss ++ filter (fun m => String.eqb (m_key m) "status_notifier") outs.
Proof. unfold news. rewrite concat_app, filter_app. cbn [concat]. rewrite app_nil_r. reflexivity. Qed.

Section Process.
Context (env : environment) (args : list string) (o : oracle).

Lemma informed_process fuel ws : (forall w, In w ws -> w_async w = []) ->
  let '(effs, p) := process env args o (S fuel) ws in
  Forall (fun m => m_key m = "status_notifier" /\ notification (m_data m)) (informed effs) /\
  match p with
  | Exited _ => informed effs = []
  | Serving l => exists g k outss L, started env args g k /\ answered o (handler_config g) k (agenda [] [] ws) outss L /\ informed effs = news outss
  | Unwinding => start_up env args = (effs, Unwinding) /\ informed effs = [] \/
      exists g k ms m later outss L outs f, started env args g k /\ agenda [] [] ws = ms ++ m :: later /\
        answered o (handler_config g) k ms outss L /\ doomed L m outs f /\ informed effs = news (outss ++ [outs])
  end.
Proof.
  intros Hw. pose proof (no_acts _ (quiet_start env args)) as HQ. unfold process. destruct (start_up env args) as (first, [c| |(k, g)]) eqn:E; cbn [fst] in HQ.
  - rewrite HQ. split; [constructor|reflexivity].
  - rewrite HQ. split; [constructor|]. left. auto.
  - assert (HS : started env args g k).
    { apply started_serves. pose proof E as ES. apply serves in ES. destruct ES as (doc & C1 & C2 & C3 & C4 & EF). unfold prelude. rewrite E, EF. reflexivity. }
    destruct (loop_agenda o (handler_config g) k fuel ws [] (broker_start (empty_manager k)) (run_nil _ _ _) eq_refl Hw) as (acts & r & EL & HD).
    rewrite EL. cbn [broker_start l_queues app] in HD.
    assert (HN : forall tr s, run o (handler_config g) k tr s -> Forall (fun m => m_key m = "status_notifier" /\ notification (m_data m)) (sent_on "status_notifier" tr)).
    { intros tr s HR. apply Forall_forall. intros m Hm. destruct (sent_split _ _ _ _ _ _ HR Hm) as (tr1 & e & tr2 & -> & Hin & Hk). split; [exact Hk|].
      exact (proj2 (run_notifications _ _ _ _ _ _ _ HR m Hin Hk)). }
    destruct r as [e|l].
    + destruct HD as (tr & s & m & outs & f & later & HR & HC & -> & EA). destruct (run_answered _ _ _ _ _ HR) as (L & HA & HF).
      pose proof (proj1 (HF _ _ _) HC) as HD. destruct (doomed_known _ _ _ _ HD) as (HK & HO).
      assert (EI : informed (first ++ map Act (flat_map event_actions tr ++ ACall 0 m :: flat_map broker_route outs)) = news (map ev_out tr ++ [outs])).
      { rewrite informed_app, HQ, informed_acts, news_snoc, news_run, <- (passed_run _ (run_keys _ _ _ _ _ HR)), <- (passed_routes _ HK). unfold passed_on.
        rewrite flat_map_app. reflexivity. }
      rewrite EI. split.
      * rewrite news_snoc, news_run. apply Forall_app. split; [exact (HN _ _ HR)|]. apply Forall_forall. intros x Hx. apply filter_In in Hx. destruct Hx as (Hx & Hk).
        apply String.eqb_eq in Hk. auto.
      * right. exists g, k, (map ev_in tr), m, later, (map ev_out tr), L, outs, f. auto 10.
    + destruct HD as (tr & HR & -> & EA). destruct (run_answered _ _ _ _ _ HR) as (L & HA & HF).
      assert (EI : informed (first ++ map Act (flat_map event_actions tr)) = news (map ev_out tr)).
      { rewrite informed_app, HQ, informed_acts, news_run, <- (passed_run _ (run_keys _ _ _ _ _ HR)). reflexivity. }
      rewrite EI. split; [rewrite news_run; exact (HN _ _ HR)|]. exists g, k, (map ev_out tr), L. rewrite <- EA. auto.
Qed.

Lemma steps_plain fuel ws effs p id es : (forall w, In w ws -> w_async w = []) -> process env args o (S fuel) ws = (effs, p) ->
  passed_to id es = informed effs -> own_steps_only id es -> Forall plain es /\ forall m, In m (passed_to id es) -> notification (m_data m).
Proof.
  intros Hw EP Hpass Hid. pose proof (informed_process fuel ws Hw) as HI. rewrite EP in HI. destruct HI as (HF & _). rewrite Forall_forall in HF.
  assert (HM : forall m, In m (passed_to id es) -> notification (m_data m)) by (intros m Hm; rewrite Hpass in Hm; apply HF in Hm; tauto).
  split; [|exact HM]. apply Forall_forall. intros e He. destruct e as [i|i m|i|i]; try exact I. unfold own_steps_only in Hid. rewrite Forall_forall in Hid. pose proof (Hid _ He) as Hi. cbn in Hi. subst i.
  assert (Hin : In m (passed_to id es)) by (unfold passed_to; apply in_flat_map; exists (Pass id m); split; [exact He|]; rewrite String.eqb_refl; left; reflexivity).
  pose proof (HM _ Hin) as HN. rewrite Hpass in Hin. apply HF in Hin. destruct Hin as (Hk & _). cbn. rewrite Hk. split; [inversion HN; discriminate|discriminate].
Qed.

Lemma some_in {A} (l l' : list A) x : some_of l l' -> In x l -> In x l'.
Proof. induction 1 as [|y l l' H IH|y l l' H IH]; cbn; [tauto|tauto|auto]. Qed.

Theorem handed fuel ws : (forall w, In w ws -> w_async w = []) ->
  match process env args o (S fuel) ws with
  | (effs, Exited _) => informed effs = []
  | (effs, Serving l) => exists g k outss L, started env args g k /\ answered o (handler_config g) k (agenda [] [] ws) outss L /\ informed effs = news outss
  | (effs, Unwinding) => start_up env args = (effs, Unwinding) /\ informed effs = [] \/
      exists g k ms m later outss L outs f, started env args g k /\ agenda [] [] ws = ms ++ m :: later /\
        answered o (handler_config g) k ms outss L /\ doomed L m outs f /\ informed effs = news (outss ++ [outs])
  end.
Proof. intros Hw. pose proof (informed_process fuel ws Hw) as H. destruct (process env args o (S fuel) ws) as (effs, [c| |l]); exact (proj2 H). Qed.

Lemma terms_sent g c d t target : notifier_from g c -> terms_for c d t target -> sent_to g t.
Proof.
  intros [port HP] (p & H & ->). unfold sent_to. cbn [t_url t_port t_login].
  assert (HA : exists x, p_url p = c_str (g_notifier_address g ++ x) /\ p_port p = port /\ p_auth p = credentials (g_notifier_username g) (g_notifier_password g)).
  { destruct H; eexists; (split; [reflexivity|split; reflexivity]). }
  destruct HA as (x & -> & -> & ->). split; [exists x; reflexivity|]. split; [|reflexivity]. intros q Hq. destruct HP as [HP|HP]; congruence.
Qed.

Theorem requests_some fuel ws effs p hwm id es : (forall w, In w ws -> w_async w = []) -> process env args o (S fuel) ws = (effs, p) ->
  passed_to id es = informed effs -> own_steps_only id es ->
  let handled := handled_msgs (done_by id (fst (exec_steps hwm es new_channel))) in
  some_of handled (informed effs) /\
  forall m, In m handled -> forall g k c, started env args g k -> notifier_from g c -> forall outs,
  exists t target errands, terms_for c (m_data m) t target /\ sent_to g t /\ notify c outs m = Val errands /\ tries t target outs 0 1 errands.
Proof.
  intros Hw EP Hpass Hid handled. destruct (steps_plain _ _ _ _ _ _ Hw EP Hpass Hid) as (HP & HM). pose proof (at_most_once hwm id es HP) as HA. fold handled in HA.
  split; [rewrite <- Hpass; exact HA|]. intros m Hm g k c _ HC outs.
  destruct (notification_tried c outs m) as (t & target & errands & H1 & H2 & H3); [apply HM; exact (some_in _ _ _ HA Hm)|].
  exists t, target, errands. split; [exact H1|]. split; [exact (terms_sent _ _ _ _ _ HC H1)|]. auto.
Qed.

Theorem requests_all fuel ws effs p hwm id es0 es1 : (forall w, In w ws -> w_async w = []) -> process env args o (S fuel) ws = (effs, p) ->
  passed_to id (es0 ++ Connect id :: es1) = informed effs -> own_steps_only id (es0 ++ Connect id :: es1) ->
  Forall (fun e => e <> Connect id) es0 -> no_stop id es1 -> never_full hwm id (es0 ++ Connect id :: es1) ->
  exists waiting, passed_to id es0 ++ handled_msgs (done_by id (fst (exec_steps hwm (es0 ++ Connect id :: es1) new_channel))) ++ waiting = informed effs /\
  p_pipe (ch_peers (snd (exec_steps hwm (es0 ++ Connect id :: es1) new_channel)) id) = map (fun m => m_key m :: m_ident m :: m_data m) waiting.
Proof.
  intros Hw EP Hpass Hid H0 H1 Hf. destruct (steps_plain _ _ _ _ _ _ Hw EP Hpass Hid) as (HP & HM).
  destruct (exactly_once hwm id es0 es1 HP H0 H1 Hf) as (d & wt & Ed & Ew & Hd). exists wt. split; [|exact Ew]. rewrite Ed, <- Hpass.
  replace (handled_msgs (map Some d)) with d by (clear; unfold handled_msgs; induction d as [|x d IH]; [reflexivity|cbn; rewrite <- IH; reflexivity]).
  rewrite Hd. unfold passed_to. rewrite flat_map_app. reflexivity.
Qed.
End Process.

Theorem tries_fun t target outs n d es1 es2 : tries t target outs n d es1 -> tries t target outs n d es2 ->
  map (fun e => match e with Calls _ => Calls [] | x => x end) es1 = map (fun e => match e with Calls _ => Calls [] | x => x end) es2.
Proof.
  intros H. revert es2. induction H as [n d pieces cs Hn E HT|n d Hn E|n d pieces e cs es Hn E HT _ IH|d]; intros es2 H2; inversion H2; subst; try congruence; try lia; try reflexivity.
  cbn [map]. match goal with E1 : outs n = Served _ (Some ?x) |- _ => rewrite E in E1; injection E1 as _ <- end. erewrite IH; [reflexivity|assumption].
Qed.
