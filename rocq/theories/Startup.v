(* From main to the loop: src/main.cpp, src/broker_core.cpp, src/broker_connect.cpp,
   src/reactor/socket_wrapper_base.cpp. The lines that broker_handler logs are in LogHandler.v. *)
From Verif Require Import Base Bytes Containers Worker Multi Single Queue Handler Spec Reactor Config Logger.
Local Open Scope string_scope.
Local Open Scope list_scope.

(* What boost::program_options makes of the arguments: an exception, or which options are there. *)
Inductive options : Type := BadOptions (what : string) | Options (help : bool) (config_file : option string).

(* The surroundings of the process. Texts of exceptions (what()) and the description of the options come
   from libraries. *)
Record environment : Type := mkEnvironment {
  e_options : list string -> options;
  e_description : string;
  e_file : string -> string + yaml;                       (* YAML::LoadFile *)
  e_conversions : conversions;
  e_conversion_error : string -> string;                  (* YAML::Exception for a text *)
  e_log : string -> string -> N -> N -> option string;    (* log directory and file: fs::filesystem_error or spdlog::spdlog_ex *)
  e_open : bool -> string -> bool }.                      (* bind (true) or connect (false); false: zmq::error_t *)

(* what the process does *)
Inductive effect : Type :=
| Stderr (line : string)
| OpenLog (directory basename : string) (size count : N)
| Note (l : level) (text : string)                        (* a call of the logger *)
| CurlInit
| CurlCleanup
| Bind (endpoint : string)
| Dial (endpoint : string)
| Act (a : action).                                       (* the reactor's loop *)

(* How far the process comes. Exited: std::exit, or the end of main. Unwinding: an exception leaves
   broker_core::run, and the broker_core of main is destroyed (Ending.v). Serving: the loop runs. *)
Inductive progress (A : Type) : Type := Exited (code : N) | Unwinding | Serving (a : A).
Arguments Exited {A}. Arguments Unwinding {A}. Arguments Serving {A}.

(* main, main.cpp:7-19: an exception of the constructor, before there is a thread *)
Definition thrown {A} (effs : list effect) : list effect * progress A := (effs ++ [Stderr "Something very bad happend!"], Exited 1%N).
(* force_exit, broker_core.cpp:70-81; logger: whether there is one *)
Definition force_exit {A} (logger : bool) (text : string) (effs : list effect) : list effect * progress A :=
  (effs ++ (if negb (String.eqb text "") then (if logger then [Note LCritical text] else []) ++ [Stderr text] else []), Exited 1%N).

(* the text of a config_error, broker_config.cpp:8, 88-90 *)
Definition config_error_text (env : environment) (e : config_failure) : string :=
  match e with
  | NotAMap => "The configuration is not a YAML map"
  | BadConversion t => "Default broker configuration was not loaded: " ++ e_conversion_error env t
  end.

(* the sockets by number (broker_connect.cpp:24-36): bound, endpoint *)
Definition socket_setup (g : settings) (n : nat) : bool * string :=
  match n with
  | 0 => (true, endpoint (g_worker_address g) (g_worker_port g))
  | 1 => (true, endpoint (g_client_address g) (g_client_port g))
  | _ => (false, endpoint (g_monitor_address g) (g_monitor_port g))
  end.
(* start_loop, reactor.cpp:63-68, with socket_wrapper_base::initialize: the effects, and whether all went well *)
Fixpoint initialize_all (env : environment) (g : settings) (sockets : list (string * nat)) : list effect * bool :=
  match sockets with
  | [] => ([], true)
  | (_, n) :: rest =>
      let '(bound, address) := socket_setup g n in
      if e_open env bound address then
        let '(effs, ok) := initialize_all env g rest in
        ((if bound then Bind address else Dial address) :: effs, ok)
      else ([], false)
  end.

(* broker_core::curl_init, broker_core.cpp:146-153; what curl_global_init returns is ignored *)
Definition curl_init : list effect := [Note LInfo "Initializing CURL..."; CurlInit; Note LInfo "CURL initialized."].
(* the lines of broker_connect::broker_connect, broker_connect.cpp:24-32 *)
Definition connect_lines (g : settings) : list effect :=
  [Note LDebug ("Binding clients to " ++ endpoint (g_client_address g) (g_client_port g));
   Note LDebug ("Binding workers to " ++ endpoint (g_worker_address g) (g_worker_port g));
   Note LDebug ("Binding monitor to " ++ endpoint (g_monitor_address g) (g_monitor_port g))].

(* broker_core::broker_init, run and start_loop up to the first poll, broker_core.cpp:126-144, 26-31 *)
Definition begin_serving (env : environment) (g : settings) (effs : list effect) : list effect * progress (kind * settings) :=
  let effs := effs ++ [Note LInfo "Initializing broker connection..."] in
  match choose_manager g with
  | None => force_exit true ("Unknown queue manager '" ++ g_queue_manager g ++ "'. Available managers are 'single' and 'multi'.") effs
  | Some k =>
      let effs := effs ++ connect_lines g ++ [Note LInfo "Broker connection initialized."; Note LInfo "Broker will now start brokering."] in
      let '(opened, ok) := initialize_all env g (t_sockets broker_tables) in
      if ok then (effs ++ opened, Serving (k, g)) else (effs ++ opened, Unwinding)
  end.

(* broker_core::log_init, broker_core.cpp:83-124, and curl_init *)
Definition log_init (env : environment) (g : settings) : list effect * progress (kind * settings) :=
  match e_log env (g_log_path g) (g_log_basename g) (g_log_size g) (g_log_count g) with
  | Some what => thrown [Stderr ("Logger: " ++ what)]
  | None => begin_serving env g (OpenLog (g_log_path g) (g_log_basename g) (g_log_size g) (g_log_count g) ::
                                 map (fun p => Note (fst p) (snd p)) (header (get_log_level (g_log_level g))) ++ curl_init)
  end.

(* broker_core::load_config, broker_core.cpp:60-68 *)
Definition load_config (env : environment) (file : string) : list effect * progress (kind * settings) :=
  match e_file env file with
  | inl what => force_exit false ("Error loading config file: " ++ what) []
  | inr doc =>
      match load (e_conversions env) doc with
      | inl e => force_exit false ("Error loading config file: " ++ config_error_text env e) []
      | inr g => log_init env g
      end
  end.

(* broker_core::broker_core with parse_params, broker_core.cpp:5-18, 33-58 *)
Definition start_up (env : environment) (args : list string) : list effect * progress (kind * settings) :=
  match e_options env args with
  | BadOptions what => force_exit false ("Error in loading a parameter: " ++ what) []
  | Options true _ => force_exit false "" [Stderr (e_description env)]
  | Options false file => load_config env (match file with Some f => f | None => "config.yml" end)
  end.

(* The whole process, with what the loop meets (Reactor.v). terminate() is never called, so the loop
   ends only by an exception. *)
Definition process (env : environment) (args : list string) (o : oracle) (fuel : nat) (ws : list wait) : list effect * progress (loop_state state) :=
  match start_up env args with
  | (effs, Exited c) => (effs, Exited c)
  | (effs, Unwinding) => (effs, Unwinding)
  | (effs, Serving (k, g)) =>
      let '(acts, r) := loop state broker_tables (broker_handlers o (handler_config g)) fuel ws (broker_start (empty_manager k)) in
      (effs ++ map Act acts, match r with inl _ => Unwinding | inr l => Serving l end)
  end.
