(* What starting the broker means, and why it may fail. *)
From Verif Require Import Base Bytes Containers Worker Multi Single Queue Handler Spec Reactor Config SpecConfig Logger Startup.
Local Open Scope string_scope.
Local Open Scope list_scope.

Definition tcp (address : string) (port : N) : string := ("tcp://" ++ address ++ ":" ++ to_string_N port)%string.

(* the arguments lead to the document doc with settings g *)
Definition configured (env : environment) (args : list string) (doc : yaml) (g : settings) : Prop :=
  exists file, e_options env args = Options false file /\
    e_file env (match file with Some f => f | None => "config.yml" end) = inr doc /\ load (e_conversions env) doc = inr g.
Definition log_opens (env : environment) (g : settings) : Prop :=
  e_log env (g_log_path g) (g_log_basename g) (g_log_size g) (g_log_count g) = None.
Definition log_opened (g : settings) : effect := OpenLog (g_log_path g) (g_log_basename g) (g_log_size g) (g_log_count g).
(* the sockets in the order in which they are opened *)
Definition openings (g : settings) : list (bool * string) :=
  [(true, tcp (g_client_address g) (g_client_port g)); (false, tcp (g_monitor_address g) (g_monitor_port g));
   (true, tcp (g_worker_address g) (g_worker_port g))].
Definition opening (x : bool * string) : effect := if fst x then Bind (snd x) else Dial (snd x).
Definition opens (env : environment) (x : bool * string) : Prop := e_open env (fst x) (snd x) = true.

(* what happens before: the head of the log, curl, and the lines about the connection *)
Definition log_head (g : settings) : list effect :=
  (if Z.leb (enum (get_log_level (g_log_level g))) (enum LInfo)
   then [Note LInfo "------------------------------"; Note LInfo "    Started ReCodEx broker"; Note LInfo "------------------------------"]
   else [Note LCritical "--- Started ReCodEx broker ---"]) ++
  [Note LInfo "Initializing CURL..."; CurlInit; Note LInfo "CURL initialized."; Note LInfo "Initializing broker connection..."].
Definition begun (g : settings) : list effect :=
  log_opened g :: log_head g ++
  [Note LDebug ("Binding clients to " ++ tcp (g_client_address g) (g_client_port g));
   Note LDebug ("Binding workers to " ++ tcp (g_worker_address g) (g_worker_port g));
   Note LDebug ("Binding monitor to " ++ tcp (g_monitor_address g) (g_monitor_port g));
   Note LInfo "Broker connection initialized."; Note LInfo "Broker will now start brokering."].

(* the queue manager that a document chooses *)
Definition chosen (doc : yaml) (k : kind) : Prop :=
  k = KMulti /\ written ["queue_manager"] doc "multi" \/
  k = KSingle /\ (written ["queue_manager"] doc "single" \/ forall t, ~ written ["queue_manager"] doc t).

(* the broker does not start, and these are the lines it leaves on standard error *)
Inductive refused (env : environment) (args : list string) : list string -> Prop :=
| re_options : forall what, e_options env args = BadOptions what -> refused env args [("Error in loading a parameter: " ++ what)%string]
| re_help : forall file, e_options env args = Options true file -> refused env args [e_description env]
| re_file : forall file what, e_options env args = Options false file ->
    e_file env (match file with Some f => f | None => "config.yml" end) = inl what -> refused env args [("Error loading config file: " ++ what)%string]
| re_document : forall file doc text, e_options env args = Options false file ->
    e_file env (match file with Some f => f | None => "config.yml" end) = inr doc ->
    ((forall es, doc <> Map es) /\ text = "The configuration is not a YAML map" \/
     exists path conv val get def t, In (path, conv, val, get, def) (number_settings (e_conversions env)) /\ written path doc t /\ conv t = None /\
       text = ("Default broker configuration was not loaded: " ++ e_conversion_error env t)%string) ->
    refused env args [("Error loading config file: " ++ text)%string]
| re_log : forall doc g what, configured env args doc g ->
    e_log env (g_log_path g) (g_log_basename g) (g_log_size g) (g_log_count g) = Some what ->
    refused env args [("Logger: " ++ what)%string; "Something very bad happend!"]
| re_manager : forall doc g t, configured env args doc g -> log_opens env g -> written ["queue_manager"] doc t -> t <> "single" -> t <> "multi" ->
    refused env args [("Unknown queue manager '" ++ t ++ "'. Available managers are 'single' and 'multi'.")%string].

(* what is written to standard error *)
Definition lines (effs : list effect) : list string := flat_map (fun e => match e with Stderr l => [l] | _ => [] end) effs.

(* If the broker does not start: what it does but for writing to standard error. Nothing, or the log is opened
   and told why. *)
Inductive told_log (env : environment) (args : list string) : list effect -> Prop :=
| rt_nothing : told_log env args []
| rt_manager : forall doc g t, configured env args doc g -> log_opens env g -> written ["queue_manager"] doc t -> t <> "single" -> t <> "multi" ->
    told_log env args (log_opened g :: log_head g ++ [Note LCritical ("Unknown queue manager '" ++ t ++ "'. Available managers are 'single' and 'multi'.")]).
Definition silent (effs : list effect) : list effect := filter (fun e => match e with Stderr _ => false | _ => true end) effs.
