(* Starting the broker. *)
From Coq Require Import Lia.
From Verif Require Import Base Bytes Containers Worker Multi Single Queue Handler SpecText Spec SpecRun Facts
  Reactor SpecReactor ReactorFacts ReactorRun Config SpecConfig ConfigFacts Logger Async SpecAsync AsyncFacts Startup SpecStartup.
Local Open Scope string_scope.
Local Open Scope list_scope.

Lemma stages_error y es : forall g e, stages (map (stage_of y) es) g = inl e ->
  exists path conv set t, In (Number path conv set) es /\ scalar_at path y = Some t /\ conv t = None /\ e = BadConversion t.
Proof.
  induction es as [|x es IH]; intros g e H; cbn [map stages] in H; [discriminate|].
  destruct x as [path set|path conv set]; cbn [stage_of] in H.
  - destruct (IH _ _ H) as (p & c & st & t & Hin & Hr). exists p, c, st, t. split; [right; exact Hin|exact Hr].
  - destruct (scalar_at path y) as [t|] eqn:Es; [destruct (conv t) as [n|] eqn:Ec|].
    + destruct (IH _ _ H) as (p & c & st & t' & Hin & Hr). exists p, c, st, t'. split; [right; exact Hin|exact Hr].
    + injection H as <-. exists path, conv, set, t. split; [left; reflexivity|auto].
    + destruct (IH _ _ H) as (p & c & st & t' & Hin & Hr). exists p, c, st, t'. split; [right; exact Hin|exact Hr].
Qed.

Lemma load_error cv doc e : load cv doc = inl e ->
  (forall es, doc <> Map es) /\ e = NotAMap \/
  exists path conv val get def t, In (path, conv, val, get, def) (number_settings cv) /\ written path doc t /\ conv t = None /\ e = BadConversion t.
Proof.
  destruct doc as [|t|items|es]; intros H; try (left; injection H as <-; split; [discriminate|reflexivity]). right.
  rewrite load_entries in H. apply stages_error in H. destruct H as (path & conv & set & t & Hin & Ht & Hc & ->). apply scalar_at_iff in Ht.
  cbn [entries In] in Hin.
  repeat (destruct Hin as [Hx|Hin]; [first [discriminate Hx|injection Hx as <- <- <-; do 6 eexists; split; [|split; [exact Ht|split; [exact Hc|reflexivity]]]; cbn; eauto 30]|]).
  destruct Hin.
Qed.

Section Env.
Context (env : environment) (args : list string).

Lemma sockets_in_order : t_sockets broker_tables = [("clients", 1); ("monitor", 2); ("workers", 0)].
Proof. reflexivity. Qed.

Lemma unknown_manager doc g : load (e_conversions env) doc = inr g -> choose_manager g = None ->
  written ["queue_manager"] doc (g_queue_manager g) /\ g_queue_manager g <> "single" /\ g_queue_manager g <> "multi".
Proof.
  intros HL Hc. destruct (texts _ doc g ["queue_manager"] (fun t => t) g_queue_manager "single" HL (or_introl eq_refl)) as (H1 & H2).
  unfold choose_manager in Hc. destruct (String.eqb_spec (g_queue_manager g) "multi"); [discriminate|].
  destruct (String.eqb_spec (g_queue_manager g) "single"); [discriminate|]. split; [|auto].
  destruct (scalar_at ["queue_manager"] doc) as [t|] eqn:E.
  - apply scalar_at_iff in E. rewrite (H1 t E). exact E.
  - rewrite scalar_at_none in E. destruct (n0 (H2 E)).
Qed.

Lemma head_eq g : ((log_opened g :: map (fun p => Note (fst p) (snd p)) (header (get_log_level (g_log_level g))) ++ curl_init)
  ++ [Note LInfo "Initializing broker connection..."]) = log_opened g :: log_head g.
Proof. unfold log_head. destruct (get_log_level (g_log_level g)); reflexivity. Qed.
Lemma serving_eq g k : choose_manager g = Some k ->
  begin_serving env g (log_opened g :: map (fun p => Note (fst p) (snd p)) (header (get_log_level (g_log_level g))) ++ curl_init) =
  let '(effs, ok) := initialize_all env g (t_sockets broker_tables) in (begun g ++ effs, if ok then Serving (k, g) else Unwinding).
Proof.
  intros Em. unfold begin_serving. rewrite head_eq, Em. cbn zeta. destruct (initialize_all env g (t_sockets broker_tables)) as (effs, [|]); reflexivity.
Qed.
Lemma manager_eq g : choose_manager g = None ->
  begin_serving env g (log_opened g :: map (fun p => Note (fst p) (snd p)) (header (get_log_level (g_log_level g))) ++ curl_init) =
  ((log_opened g :: log_head g) ++ [Note LCritical ("Unknown queue manager '" ++ g_queue_manager g ++ "'. Available managers are 'single' and 'multi'.");
    Stderr ("Unknown queue manager '" ++ g_queue_manager g ++ "'. Available managers are 'single' and 'multi'.")], Exited 1%N).
Proof. intros Em. unfold begin_serving. rewrite head_eq, Em. reflexivity. Qed.
Lemma lines_app a b : lines (a ++ b) = lines a ++ lines b.
Proof. apply flat_map_app. Qed.
Lemma silent_app a b : silent (a ++ b) = silent a ++ silent b.
Proof. apply filter_app. Qed.
Lemma head_lines g : lines (log_opened g :: log_head g) = [] /\ silent (log_opened g :: log_head g) = log_opened g :: log_head g.
Proof. unfold log_head. destruct (Z.leb _ _); split; reflexivity. Qed.

(* what start_up does, by cases *)
Lemma start_up_cases :
  (exists ls, refused env args ls /\ exists effs, start_up env args = (effs, Exited 1%N) /\ lines effs = ls /\ told_log env args (silent effs)) \/
  (exists doc g k, configured env args doc g /\ log_opens env g /\ choose_manager g = Some k /\
    start_up env args = (let '(effs, ok) := initialize_all env g (t_sockets broker_tables) in
      (begun g ++ effs, if ok then Serving (k, g) else Unwinding))).
Proof.
  unfold start_up. destruct (e_options env args) as [what|[|] file] eqn:Eo.
  - left. eexists. split; [apply re_options; exact Eo|]. eexists. split; [reflexivity|]. cbn. split; [reflexivity|constructor].
  - left. eexists. split; [eapply re_help; exact Eo|]. eexists. split; [reflexivity|]. cbn. split; [reflexivity|constructor].
  - unfold load_config. destruct (e_file env _) as [what|doc] eqn:Ef.
    + left. eexists. split; [eapply re_file; eassumption|]. eexists. split; [reflexivity|]. cbn. split; [reflexivity|constructor].
    + destruct (load (e_conversions env) doc) as [e|g] eqn:El.
      * left. exists ["Error loading config file: " ++ config_error_text env e]%string. split.
        -- apply (re_document env args file doc _ Eo Ef). destruct (load_error _ _ _ El) as [(Hn & ->)|(path & conv & val & get & def & t & Hin & Hw & Hc & ->)].
           ++ left. split; [exact Hn|reflexivity].
           ++ right. exists path, conv, val, get, def, t. split; [exact Hin|]. split; [exact Hw|]. split; [exact Hc|reflexivity].
        -- eexists. split; [reflexivity|]. cbn. split; [reflexivity|constructor].
      * assert (HC : configured env args doc g) by (exists file; auto). unfold log_init.
        destruct (e_log env _ _ _ _) as [what|] eqn:Eg.
        -- left. eexists. split; [eapply re_log; eassumption|]. eexists. split; [reflexivity|]. cbn. split; [reflexivity|constructor].
        -- change (OpenLog (g_log_path g) (g_log_basename g) (g_log_size g) (g_log_count g)) with (log_opened g).
           destruct (choose_manager g) as [k|] eqn:Em.
           ++ right. exists doc, g, k. split; [exact HC|]. split; [exact Eg|]. split; [exact Em|]. apply serving_eq. exact Em.
           ++ left. destruct (unknown_manager _ _ El Em) as (Hw & H1 & H2). eexists. split; [eapply re_manager; eassumption|].
              rewrite (manager_eq g Em). eexists. split; [reflexivity|]. rewrite lines_app, silent_app. destruct (head_lines g) as (-> & ->).
              split; [reflexivity|]. eapply rt_manager; eassumption.
Qed.

Lemma initialize_spec g : forall xs effs ok, initialize_all env g xs = (effs, ok) ->
  let ys := map (fun x => socket_setup g (snd x)) xs in
  if ok then Forall (opens env) ys /\ effs = map opening ys
  else exists ys1 y ys2, ys = ys1 ++ y :: ys2 /\ Forall (opens env) ys1 /\ ~ opens env y /\ effs = map opening ys1.
Proof.
  induction xs as [|(k, n) xs IH]; intros effs ok H; cbn [initialize_all] in H; [injection H as <- <-; split; [constructor|reflexivity]|].
  cbn [map snd]. destruct (socket_setup g n) as (b, a) eqn:Es. destruct (e_open env b a) eqn:Eo.
  - destruct (initialize_all env g xs) as (effs1, ok1) eqn:E1. injection H as <- <-. specialize (IH _ _ eq_refl). cbn zeta in IH. destruct ok1.
    + destruct IH as (I1 & ->). split; [constructor; [exact Eo|exact I1]|]. reflexivity.
    + destruct IH as (ys1 & y & ys2 & E & F & N & ->). exists ((b, a) :: ys1), y, ys2. rewrite E. split; [reflexivity|].
      split; [constructor; [exact Eo|exact F]|]. split; [exact N|reflexivity].
  - injection H as <- <-. exists [], (b, a), (map (fun x => socket_setup g (snd x)) xs). split; [reflexivity|]. split; [constructor|]. split; [|reflexivity].
    unfold opens. cbn. rewrite Eo. discriminate.
Qed.

Lemma chosen_iff doc g k : load (e_conversions env) doc = inr g -> (choose_manager g = Some k <-> chosen doc k).
Proof.
  intros HL. destruct (manager _ _ _ HL) as (H1 & H2). unfold chosen. destruct k.
  - rewrite H2. split; [auto|]. intros [([=] & _)|(_ & H)]; exact H.
  - rewrite H1. split; [auto|]. intros [(_ & H)|([=] & _)]; exact H.
Qed.

Lemma setup_openings g : map (fun x => socket_setup g (snd x)) (t_sockets broker_tables) = openings g.
Proof. reflexivity. Qed.

Lemma configured_same doc g doc' g' : configured env args doc g -> configured env args doc' g' -> doc = doc' /\ g = g'.
Proof. intros (f & H1 & H2 & H3) (f' & H1' & H2' & H3'). rewrite H1 in H1'. injection H1' as <-. split; congruence. Qed.

(* the course of a start with a configuration and a log *)
Lemma start_up_configured doc g k : configured env args doc g -> log_opens env g -> choose_manager g = Some k ->
  start_up env args = (let '(effs, ok) := initialize_all env g (t_sockets broker_tables) in
      (begun g ++ effs, if ok then Serving (k, g) else Unwinding)).
Proof.
  intros (file & Eo & Ef & El) Eg Em. unfold start_up. rewrite Eo. unfold load_config. rewrite Ef, El. unfold log_init.
  unfold log_opens in Eg. rewrite Eg. apply serving_eq. exact Em.
Qed.

Theorem serves effs k g : start_up env args = (effs, Serving (k, g)) <->
  exists doc, configured env args doc g /\ log_opens env g /\ chosen doc k /\
    Forall (opens env) (openings g) /\ effs = begun g ++ map opening (openings g).
Proof.
  split.
  - intros H. destruct start_up_cases as [(ls & _ & effs' & E & _)|(doc & g' & k' & HC & HL & HM & E)]; rewrite E in H; [discriminate|].
    destruct (initialize_all env g' (t_sockets broker_tables)) as (effs', ok) eqn:Ei. destruct ok; [|discriminate]. injection H as <- <- <-.
    apply initialize_spec in Ei. cbn zeta iota in Ei. rewrite setup_openings in Ei. destruct Ei as (F & ->).
    exists doc. split; [exact HC|]. split; [exact HL|]. split; [|auto]. destruct HC as (file & _ & _ & El). apply (chosen_iff _ _ _ El). exact HM.
  - intros (doc & HC & HL & HM & F & ->). pose proof HC as (file & _ & _ & El). apply (chosen_iff _ _ _ El) in HM.
    rewrite (start_up_configured _ _ _ HC HL HM). destruct (initialize_all env g (t_sockets broker_tables)) as (effs', ok) eqn:Ei.
    apply initialize_spec in Ei. cbn zeta iota in Ei. rewrite setup_openings in Ei. destruct ok.
    + destruct Ei as (_ & ->). reflexivity.
    + destruct Ei as (ys1 & y & ys2 & E & _ & N & _). rewrite E in F. apply Forall_app in F. destruct F as (_ & F). inversion F; contradiction.
Qed.

Theorem unwinds effs : start_up env args = (effs, Unwinding) <->
  exists doc g k opened x rest, configured env args doc g /\ log_opens env g /\ chosen doc k /\
    openings g = opened ++ x :: rest /\ Forall (opens env) opened /\ ~ opens env x /\ effs = begun g ++ map opening opened.
Proof.
  split.
  - intros H. destruct start_up_cases as [(ls & _ & effs' & E & _)|(doc & g & k & HC & HL & HM & E)]; rewrite E in H; [discriminate|].
    destruct (initialize_all env g (t_sockets broker_tables)) as (effs', ok) eqn:Ei. destruct ok; [discriminate|]. injection H as <-.
    apply initialize_spec in Ei. cbn zeta iota in Ei. rewrite setup_openings in Ei. destruct Ei as (ys1 & y & ys2 & E' & F & N & ->).
    exists doc, g, k, ys1, y, ys2. split; [exact HC|]. split; [exact HL|]. split; [|auto].
    destruct HC as (file & _ & _ & El). apply (chosen_iff _ _ _ El). exact HM.
  - intros (doc & g & k & ys1 & y & ys2 & HC & HL & HM & E' & F & N & ->). pose proof HC as (file & _ & _ & El). apply (chosen_iff _ _ _ El) in HM.
    rewrite (start_up_configured _ _ _ HC HL HM). destruct (initialize_all env g (t_sockets broker_tables)) as (effs', ok) eqn:Ei.
    apply initialize_spec in Ei. cbn zeta iota in Ei. rewrite setup_openings in Ei. destruct ok.
    + destruct Ei as (F' & _). rewrite E' in F'. apply Forall_app in F'. destruct F' as (_ & F'). inversion F'; contradiction.
    + destruct Ei as (zs1 & z & zs2 & E2 & F2 & N2 & ->). rewrite E' in E2. f_equal. f_equal. f_equal. clear - E2 F F2 N N2.
      revert zs1 E2 F2. induction ys1 as [|a ys1 IH]; intros [|b zs1] E2 F2; cbn in E2.
      * reflexivity.
      * injection E2 as <- _. inversion F2; contradiction.
      * injection E2 as <- _. inversion F; contradiction.
      * injection E2 as <- E2. inversion F; inversion F2; subst. f_equal. apply IH; assumption.
Qed.

Theorem refuses effs c : start_up env args = (effs, Exited c) ->
  c = 1%N /\ refused env args (lines effs) /\ told_log env args (silent effs).
Proof.
  intros H. destruct start_up_cases as [(ls & HR & effs' & E & <- & F)|(doc & g & k & HC & HL & HM & E)]; rewrite E in H.
  - injection H as <- <-. split; [reflexivity|]. split; [exact HR|]. exact F.
  - destruct (initialize_all _ _ _) as (effs', [|]); discriminate.
Qed.

Theorem refused_exits ls : refused env args ls -> exists effs, start_up env args = (effs, Exited 1%N).
Proof.
  intros H. destruct start_up_cases as [(ls' & _ & effs' & E & _)|(doc & g & k & HC & HL & HM & E)]; [eauto|]. exfalso.
  pose proof HC as (file & Eo & Ef & El). destruct H as [what H|f H|f what H H'|f d text H H' HE|d g' what H H'|d g' t H HL' Hw H1 H2].
  - congruence.
  - congruence.
  - rewrite Eo in H. injection H as <-. congruence.
  - rewrite Eo in H. injection H as <-. assert (d = doc) as -> by congruence.
    assert (HF : exists e, load (e_conversions env) doc = inl e).
    { apply fails. destruct HE as [(Hn & _)|(path & conv & val & get & def & t & Hin & Hw & Hc & _)]; [left; exact Hn|right; eauto 10]. }
    destruct HF as (e & HF). congruence.
  - destruct (configured_same _ _ _ _ H HC) as (_ & ->). unfold log_opens in HL. congruence.
  - destruct (configured_same _ _ _ _ H HC) as (-> & ->). apply (chosen_iff _ _ _ El) in HM.
    assert (U : forall t', written ["queue_manager"] doc t' -> t' = t) by (intros t' Ht'; apply scalar_at_iff in Ht', Hw; congruence).
    destruct HM as [(_ & HM)|(_ & [HM|HM])]; [apply U in HM; congruence|apply U in HM; congruence|exact (HM _ Hw)].
Qed.

Theorem process_course o fuel ws : (forall w, In w ws -> w_async w = []) ->
  match process env args o (S fuel) ws with
  | (effs, Exited c) => c = 1%N /\ refused env args (lines effs)
  | (effs, Serving l) => exists first k g tr, start_up env args = (first, Serving (k, g)) /\
      run o (handler_config g) k tr (l_states l 0) /\ effs = first ++ map Act (flat_map event_actions tr) /\
      (forall key, In key ["clients"; "workers"] -> inputs_on key tr ++ named_msgs key (l_queues l key) = named_msgs key (arrived_on key ws)) /\
      inputs_on "timer" tr = map timer_msg ws
  | (effs, Unwinding) => start_up env args = (effs, Unwinding) \/
      exists first k g tr s m outs f, start_up env args = (first, Serving (k, g)) /\ run o (handler_config g) k tr s /\
      crashes o (handler_config g) s m outs f /\
      effs = first ++ map Act (flat_map event_actions tr ++ ACall 0 m :: flat_map broker_route outs)
  end.
Proof.
  intros Hw. unfold process. destruct (start_up env args) as (first, [c| |(k, g)]) eqn:E.
  - destruct (refuses _ _ E) as (-> & HR & _). auto.
  - left. reflexivity.
  - destruct (loop_broker o (handler_config g) k fuel ws [] (broker_start (empty_manager k)) (run_nil _ _ _) eq_refl Hw) as (acts & r & EL & HD).
    rewrite EL. destruct r as [e|l].
    + destruct HD as (tr & s & m & outs & f & _ & HR & HC & -> & _). right. exists first, k, g, tr, s, m, outs, f. auto.
    + destruct HD as (tr & HR & -> & _ & _ & HI & HT). exists first, k, g, tr. split; [reflexivity|]. split; [exact HR|]. split; [reflexivity|].
      split; [|exact HT]. intros key Hk. specialize (HI key Hk). cbn [broker_start l_queues app] in HI. exact HI.
Qed.

Theorem configured_numbers doc g : configured env args doc g ->
  let number path n def := (forall t, written path doc t -> as_size (e_conversions env) t = Some n) /\ ((forall t, ~ written path doc t) -> n = def) in
  number ["workers"; "max_liveness"] (c_max_liveness (handler_config g)) 4%N /\
  number ["workers"; "max_request_failures"] (c_max_failures (handler_config g)) 3%N /\
  (forall t n, written ["workers"; "ping_interval"] doc t -> as_size (e_conversions env) t = Some n -> (n < 2 ^ 63)%N -> c_ping_interval (handler_config g) = Z.of_N n) /\
  ((forall t, ~ written ["workers"; "ping_interval"] doc t) -> c_ping_interval (handler_config g) = 1000%Z).
Proof.
  intros (file & _ & _ & HL). cbn zeta. cbn [handler_config c_max_liveness c_max_failures c_ping_interval].
  destruct (numbers _ doc g ["workers"; "max_liveness"] (as_size (e_conversions env)) same (fun g => Some (Z.of_N (g_max_liveness g))) (Some 4%Z) HL
    ltac:(do 2 right; left; reflexivity)) as (L1 & L2).
  destruct (numbers _ doc g ["workers"; "max_request_failures"] (as_size (e_conversions env)) same (fun g => Some (Z.of_N (g_max_failures g))) (Some 3%Z) HL
    ltac:(do 3 right; left; reflexivity)) as (F1 & F2).
  destruct (numbers _ doc g ["workers"; "ping_interval"] (as_size (e_conversions env)) wrapped (fun g => Some (g_ping_interval g)) (Some 1000%Z) HL
    ltac:(do 4 right; left; reflexivity)) as (P1 & P2).
  split; [split|split; [split|split]].
  - intros t Ht. destruct (L1 t Ht) as (n & z & Hn & Hz & [= E]). unfold same in Hz. rewrite Hn. f_equal. lia.
  - intros H. injection (L2 H) as E. lia.
  - intros t Ht. destruct (F1 t Ht) as (n & z & Hn & Hz & [= E]). unfold same in Hz. rewrite Hn. f_equal. lia.
  - intros H. injection (F2 H) as E. lia.
  - intros t n Ht Hn Hlt. destruct (P1 t Ht) as (n' & z & Hn' & (Hz & q & Hq) & [= E]). rewrite Hn in Hn'. injection Hn' as <-. nia.
  - intros H. injection (P2 H) as E. lia.
Qed.
End Env.
