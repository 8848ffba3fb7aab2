(* C48: what starting the broker does, and how the process ends. *)
From Verif Require Import Base Bytes Containers Worker Multi Single Queue Handler SpecText Spec SpecRun Demo
  Reactor SpecReactor Config SpecConfig Logger Startup SpecStartup StartupFacts PropConfig.
Local Open Scope string_scope.
Local Open Scope list_scope.

(* an environment where b.yml is the document of the examples, x.yml is no map, y.yml has a bad number, z.yml
   an unknown queue manager, and no other file is there; sockets whose endpoint is taken fail *)
Definition demo_env (log : option string) (taken : string) : environment := mkEnvironment
  (fun args => match args with ["-h"] => Options true None | ["-c"; f] => Options false (Some f) | [] => Options false None | _ => BadOptions "unrecognised option" end)
  "Allowed options for broker:"
  (fun f => if String.eqb f "b.yml" then inr (demo_doc "3" "500") else if String.eqb f "x.yml" then inr Null
            else if String.eqb f "y.yml" then inr (demo_doc "three" "500")
            else if String.eqb f "z.yml" then inr (Map [(Scalar "queue_manager", Scalar "best")]) else inl "bad file")
  demo_cv (fun t => "bad conversion") (fun _ _ _ _ => log) (fun _ a => negb (String.eqb a taken)).

(* the broker comes to serve exactly if the options are fine, the document loads, the log and the three
   sockets open and the queue manager is known, and this is all it does before *)
Theorem C48_serves : forall env args effs k g, start_up env args = (effs, Serving (k, g)) <->
  exists doc, configured env args doc g /\ log_opens env g /\ chosen doc k /\
    Forall (opens env) (openings g) /\ effs = begun g ++ map opening (openings g).
Proof. exact serves. Qed.
Print Assumptions C48_serves.
(* the log of the examples *)
Definition demo_begun : list effect :=
  [OpenLog "/tmp" "b.log" (1024 * 1024) 3;
   Note LInfo "------------------------------"; Note LInfo "    Started ReCodEx broker"; Note LInfo "------------------------------";
   Note LInfo "Initializing CURL..."; CurlInit; Note LInfo "CURL initialized."; Note LInfo "Initializing broker connection...";
   Note LDebug "Binding clients to tcp://*:9658"; Note LDebug "Binding workers to tcp://*:0"; Note LDebug "Binding monitor to tcp://127.0.0.1:7894";
   Note LInfo "Broker connection initialized."; Note LInfo "Broker will now start brokering."].
Example C48_example_serves : exists g, start_up (demo_env None "") ["-c"; "b.yml"] =
  (demo_begun ++ [Bind "tcp://*:9658"; Dial "tcp://127.0.0.1:7894"; Bind "tcp://*:0"], Serving (KMulti, g)).
Proof. eexists. vm_compute. reflexivity. Qed.

(* an exception leaves broker_core::run: exactly if a socket does not open *)
Theorem C48_sockets : forall env args effs, start_up env args = (effs, Unwinding) <->
  exists doc g k opened x rest, configured env args doc g /\ log_opens env g /\ chosen doc k /\
    openings g = opened ++ x :: rest /\ Forall (opens env) opened /\ ~ opens env x /\ effs = begun g ++ map opening opened.
Proof. exact unwinds. Qed.
Print Assumptions C48_sockets.
Example C48_example_sockets : start_up (demo_env None "tcp://*:0") ["-c"; "b.yml"] =
  (demo_begun ++ [Bind "tcp://*:9658"; Dial "tcp://127.0.0.1:7894"], Unwinding).
Proof. vm_compute. reflexivity. Qed.

(* otherwise it exits with status 1, also for --help, having said why, in the log too if there is one, and
   without a socket *)
Theorem C48_refuses : forall env args,
  (forall effs c, start_up env args = (effs, Exited c) ->
    c = 1%N /\ refused env args (lines effs) /\ told_log env args (silent effs)) /\
  (forall ls, refused env args ls -> exists effs, start_up env args = (effs, Exited 1%N)).
Proof. exact (fun env args => conj (refuses env args) (refused_exits env args)). Qed.
Print Assumptions C48_refuses.
Example C48_example_refuses :
  let on := demo_env None "" in
  start_up on ["-h"] = ([Stderr "Allowed options for broker:"], Exited 1%N) /\
  start_up on ["--port"] = ([Stderr "Error in loading a parameter: unrecognised option"], Exited 1%N) /\
  start_up on [] = ([Stderr "Error loading config file: bad file"], Exited 1%N) /\
  start_up on ["-c"; "x.yml"] = ([Stderr "Error loading config file: The configuration is not a YAML map"], Exited 1%N) /\
  start_up on ["-c"; "y.yml"] = ([Stderr "Error loading config file: Default broker configuration was not loaded: bad conversion"], Exited 1%N) /\
  start_up on ["-c"; "z.yml"] = ([OpenLog "/var/log/recodex/" "broker" (1024 * 1024) 3;
    Note LInfo "------------------------------"; Note LInfo "    Started ReCodEx broker"; Note LInfo "------------------------------";
    Note LInfo "Initializing CURL..."; CurlInit; Note LInfo "CURL initialized."; Note LInfo "Initializing broker connection...";
    Note LCritical "Unknown queue manager 'best'. Available managers are 'single' and 'multi'.";
    Stderr "Unknown queue manager 'best'. Available managers are 'single' and 'multi'."], Exited 1%N) /\
  start_up (demo_env (Some "disk full") "") ["-c"; "b.yml"] = ([Stderr "Logger: disk full"; Stderr "Something very bad happend!"], Exited 1%N).
Proof. vm_compute. repeat split. Qed.

(* the numbers with which the handlers work are those of the document *)
Theorem C48_numbers : forall env args doc g, configured env args doc g ->
  let number path n def := (forall t, written path doc t -> as_size (e_conversions env) t = Some n) /\ ((forall t, ~ written path doc t) -> n = def) in
  number ["workers"; "max_liveness"] (c_max_liveness (handler_config g)) 4%N /\
  number ["workers"; "max_request_failures"] (c_max_failures (handler_config g)) 3%N /\
  (forall t n, written ["workers"; "ping_interval"] doc t -> as_size (e_conversions env) t = Some n -> (n < 2 ^ 63)%N -> c_ping_interval (handler_config g) = Z.of_N n) /\
  ((forall t, ~ written ["workers"; "ping_interval"] doc t) -> c_ping_interval (handler_config g) = 1000%Z).
Proof. exact configured_numbers. Qed.
Print Assumptions C48_numbers.
Example C48_example_numbers : exists g, configured (demo_env None "") ["-c"; "b.yml"] (demo_doc "3" "500") g /\
  handler_config g = mkConfig 3 3 500.
Proof. eexists. split; [exists (Some "b.yml"); repeat split|reflexivity]. Qed.

(* The whole process (the notifier's thread sends nothing back to the reactor): it exits with 1 and a reason, or a socket
   does not open, or what it does from then on is a run of the handlers with the configured numbers on what
   arrived, ending, if at all, with an exception of a handler. It never ends otherwise. *)
Theorem C48_process : forall env args o fuel ws, (forall w, In w ws -> w_async w = []) ->
  match process env args o (S fuel) ws with
  | (effs, Exited c) => c = 1%N /\ refused env args (lines effs)
  | (effs, Serving l) => exists first k g tr, start_up env args = (first, Serving (k, g)) /\
      run o (handler_config g) k tr (l_states l 0) /\ effs = first ++ map Act (flat_map event_actions tr) /\
      (forall key, In key ["clients"; "workers"] -> inputs_on key tr ++ named_msgs key (l_queues l key) = named_msgs key (arrived_on key ws)) /\
      inputs_on "timer" tr = map timer_msg ws
  | (effs, Unwinding) => start_up env args = (effs, Unwinding) \/
      exists first k g tr s m outs f, start_up env args = (first, Serving (k, g)) /\ run o (handler_config g) k tr s /\
      crashes o (handler_config g) s m outs f /\
      effs = first ++ map Act (flat_map event_actions tr ++ ACall 0 m :: flat_map broker_route outs)
  end.
Proof. exact process_course. Qed.
Print Assumptions C48_process.
Example C48_example_process :
  let ws := [mkWait [("workers", ("A", ["init"; "g"]))] [] 0 0; mkWait [("clients", ("C", ["eval"; "j1"; "hwgroup=g"; ""; "body"]))] [] 0 1000000] in
  exists l, process (demo_env None "") ["-c"; "b.yml"] demo_oracle 1 ws =
    (demo_begun ++ [Bind "tcp://*:9658"; Dial "tcp://127.0.0.1:7894"; Bind "tcp://*:0";
      Act (ACall 0 (from_worker "A" ["init"; "g"])); Act (ACall 0 (tick "0"));
      Act (ACall 0 (from_client "C" ["eval"; "j1"; "hwgroup=g"; ""; "body"]));
      Act (ASend 1 (Msg "clients" "C" ["ack"])); Act (ASend 0 (Msg "workers" "A" ["eval"; "j1"; "body"])); Act (ASend 1 (Msg "clients" "C" ["accept"]));
      Act (ACall 0 (tick "1"))], Serving l).
Proof. eexists. vm_compute. reflexivity. Qed.
