(* The lines broker_handler writes to its log, src/handlers/broker_handler.cpp. The functions of Handler.v
   that log or call one that does, again, with the lines in between the messages; the others are taken
   over as they are. A line is the call of the logger: level, format and arguments; numbers are given in
   decimal. Filtering by level is Logger.written_lines; the test should_log at broker_handler.cpp:254 is
   left out, since it suppresses exactly a line the logger would not write. Time stamps, the file and its
   rotation belong to spdlog. *)
From Verif Require Import Base Bytes Containers Worker Multi Single Queue Handler Logger.
Local Open Scope string_scope.

(* what the handler does in order: calls respond or the logger *)
Inductive out : Type := Say (m : msg) | Line (l : level) (fmt : string) (args : list string).

Definition L (A : Type) : Type := state -> list out * (fault + A * state).
Definition lret {A} (a : A) : L A := fun s => ([], inr (a, s)).
Definition lbind {A B} (m : L A) (k : A -> L B) : L B := fun s =>
  match m s with
  | (o1, inl f) => (o1, inl f)
  | (o1, inr (a, s1)) => let '(o2, r) := k a s1 in (o1 ++ o2, r)%list
  end.
(* code that does not log *)
Definition plain {A} (m : M A) : L A := fun s => let '(outs, r) := m s in (map Say outs, r).
Definition log (l : level) (fmt : string) (args : list string) : L unit := fun s => ([Line l fmt args], inr (tt, s)).

Local Notation "x <- m ;; k" := (lbind m (fun x => k))
  (at level 61, m at next level, right associativity).
Local Notation "m ;; k" := (lbind m (fun _ => k)) (at level 61, right associativity).

(* fmt::format with "{}" for the arguments in order; None is format_error, thrown when there are too few,
   which spdlog catches and then writes no line. Formats without other braces only. *)
Fixpoint render (fmt : string) (args : list string) : option string :=
  match fmt with
  | EmptyString => Some ""
  | String a t =>
      match t with
      | String b t' =>
          if Ascii.eqb a "{" && Ascii.eqb b "}" then
            match args with
            | [] => None
            | x :: args => option_map (fun y => x ++ y) (render t' args)
            end
          else option_map (String a) (render t args)
      | EmptyString => Some fmt
      end
  end.

Section WithConfig.
Context (o : oracle) (cfg : config).

(* send_request, broker_handler.cpp:483-487 *)
Definition send_request_log (w : worker) (r : request) : L unit :=
  plain (send_request w r) ;;
  log LDebug " - job {} sent to worker {}" [r_job r; get_description w].
Definition send_if_log (w : worker) (x : option request) : L unit :=
  match x with Some r => send_request_log w r | None => lret tt end.

(* reassign_request, broker_handler.cpp:461-481 *)
Definition reassign_request_log (r : request) : L bool :=
  s <- plain get ;;
  log LDebug " - reassigning job {} ({} attempts already failed)" [r_job r; to_string_N (failures r s)] ;;
  result <- plain (queue_call (q_enqueue_request o r)) ;;
  if negb (enqueued result) then
    plain (notify_monitor (r_job r) "FAILED") ;;
    log LDebug " - failed to enqueue job {}" [r_job r] ;;
    lret false
  else
    match assigned_to result with
    | Some w => send_request_log w r
    | None => log LDebug " - job {} is now waiting in the queue" [r_job r]
    end ;;
    lret true.

(* the lines of the loop at broker_handler.cpp:167-170 *)
Fixpoint reject_lines (headers : mmap string) : L unit :=
  match headers with
  | [] => lret tt
  | (k, v) :: t => log LErr " - {}: {}" [k; v] ;; reject_lines t
  end.

(* process_client_eval, broker_handler.cpp:86-175 *)
Definition process_client_eval_log (identity : string) (message : list string) : L unit :=
  log LInfo "Received message 'eval' from clients" [] ;;
  plain (respond (Msg KEY_CLIENTS identity ["ack"])) ;;
  job_id <- plain (at_ message 1) ;;
  parsed <- plain (lift (parse_eval_headers (skipn 2 message) [] [])) ;;
  match parsed with
  | None => log LWarn "Unexpected end of message from frontend. Skipped." []
  | Some (headers, metadata, additional) =>
      s <- plain get ;;
      if s_frozen s then
        plain (respond (Msg KEY_CLIENTS identity ["reject"; "The broker is frozen."])) ;;
        log LErr "Request '{}' rejected. {}" [job_id; "The broker is frozen."]
      else
        log LDebug " - incoming job {}" [job_id] ;;
        let r := complete_request (s_next_r s) headers metadata job_id additional in
        plain (modify (set_next_r (S (s_next_r s)))) ;;
        result <- plain (queue_call (q_enqueue_request o r)) ;;
        if enqueued result then
          match assigned_to result with
          | Some w => send_request_log w r
          | None => log LDebug " - saved to queue" []
          end ;;
          plain (respond (Msg KEY_CLIENTS identity ["accept"]))
        else
          log LErr "Request '{}' rejected. No worker available for headers:" [job_id] ;;
          reject_lines headers ;;
          plain (respond (Msg KEY_CLIENTS identity
            ["reject"; reject_text "No worker available for given headers: " headers])) ;;
          plain (notify_monitor job_id "FAILED")
  end.

(* the text streamed at broker_handler.cpp:255-256 *)
Fixpoint spaced (frames : list string) : string :=
  match frames with [] => "" | f :: t => f ++ " " ++ spaced t end.

(* process_worker_init, broker_handler.cpp:177-259 *)
Definition process_worker_init_log (identity : string) (message : list string) : L unit :=
  log LInfo "Received message 'init' from workers" [] ;;
  if Nat.ltb (length message) 2 then log LWarn "Init command without argument. Nothing to do." []
  else
    hwgroup <- plain (at_ message 1) ;;
    let '(headers, rest) := parse_init_headers (skipn 2 message) [] in
    s <- plain get ;;
    let register :=
      new_worker <- plain (lift (make_worker (s_next_w s) (o_addr o (s_next_w s)) identity hwgroup headers)) ;;
      plain (modify (set_next_w (S (s_next_w s)))) ;;
      let '(desc, cur, next) := parse_init_extra rest "" None (s_next_r s) in
      plain (modify (set_next_r next)) ;;
      let new_worker := set_description desc new_worker in
      plain (modify (fun s => set_reg (reg_add new_worker (s_reg s)) s)) ;;
      request <- plain (queue_call (q_add_worker o new_worker cur)) ;;
      send_if_log new_worker request ;;
      plain (modify (fun s => set_timers (pm_emplace new_worker 0%Z (s_timers s)) s)) ;;
      log LDebug " - added new worker {} with headers: {}" [get_description new_worker; spaced (skipn 1 message)]
    in
    match find_worker_by_identity identity (s_reg s) with
    | Some current_worker =>
        if headers_equal current_worker headers then lret tt
        else
          plain (notify_error ("Received two different INIT messages from the same worker (" ++
            get_description current_worker ++ ")")) ;;
          register
    | None => register
    end.

(* process_worker_done, broker_handler.cpp:261-352 *)
Definition process_worker_done_log (identity : string) (message : list string) : L unit :=
  log LInfo "Received message 'done' from workers" [] ;;
  s <- plain get ;;
  match find_worker_by_identity identity (s_reg s) with
  | None => log LWarn "Got 'done' message from an unknown worker" []
  | Some worker =>
      if Nat.ltb (length message) 3 then
        log LErr "Got 'done' message with not enough arguments from worker {}" [get_description worker]
      else
        current <- plain (queue_call (q_get_current worker)) ;;
        job <- plain (at_ message 1) ;;
        match current with
        | None => plain (fail NullDeref)
        | Some current =>
            if negb (String.eqb job (r_job current)) then
              log LErr "Got 'done' message from worker {} with mismatched job id - {} (message) vs. {} (worker)"
                [get_description worker; job; r_job current]
            else
              status <- plain (at_ message 2) ;;
              let finish :=
                now <- plain (queue_call (q_get_current worker)) ;;
                match now with
                | None => log LDebug " - worker {} is now free" [get_description worker]
                | Some _ => lret tt
                end in
              if String.eqb status "OK" then
                plain (job_done job) ;;
                next_request <- plain (queue_call (q_worker_finished o worker)) ;;
                send_if_log worker next_request ;;
                plain (stat_incr STATS_EVALUATED_JOBS) ;;
                finish
              else if String.eqb status "INTERNAL_ERROR" then
                if negb (Nat.eqb (length message) 4) then
                  log LWarn "Invalid number of arguments in a 'done' message with status 'INTERNAL_FAILURE' from worker {}"
                    [get_description worker]
                else
                  failed <- plain (queue_call (q_worker_cancelled worker)) ;;
                  match failed with
                  | None => plain (fail NullDeref)
                  | Some failed_request =>
                      plain (failures_incr failed_request) ;;
                      text <- plain (at_ message 3) ;;
                      (if negb (r_complete failed_request) then
                         plain (rejected_job (r_job failed_request)
                           ("Job failed with '" ++ text ++ "' and cannot be reassigned"))
                       else
                         ok <- plain (check_failure_count cfg failed_request text) ;;
                         if (ok : bool) then (reassign_request_log failed_request ;; lret tt)
                         else
                           new_request <- plain (queue_call (q_assign_request o worker)) ;;
                           send_if_log worker new_request) ;;
                      plain (stat_incr STATS_FAILED_JOBS) ;;
                      finish
                  end
              else if String.eqb status "FAILED" then
                if negb (Nat.eqb (length message) 4) then
                  log LWarn "Invalid number of arguments in a 'done' message with status 'FAILED' from worker {}"
                    [get_description worker]
                else
                  text <- plain (at_ message 3) ;;
                  plain (job_failed job text) ;;
                  failed <- plain (queue_call (q_worker_cancelled worker)) ;;
                  match failed with
                  | None => plain (fail NullDeref)
                  | Some failed_request =>
                      plain (failures_incr failed_request) ;;
                      new_request <- plain (queue_call (q_assign_request o worker)) ;;
                      send_if_log worker new_request ;;
                      plain (stat_incr STATS_FAILED_JOBS) ;;
                      finish
                  end
              else
                log LWarn "Received unexpected status code {} from worker {}" [status; get_description worker] ;;
                finish
        end
  end.

(* inner loop of process_timer, broker_handler.cpp:419-435 *)
Fixpoint expire_requests_log (rs : list request) : L (list request) :=
  match rs with
  | [] => lret []
  | r :: t =>
      if negb (r_complete r) then
        plain (rejected_job (r_job r) failure_msg) ;;
        plain (notify_monitor (r_job r) "FAILED") ;;
        expire_requests_log t
      else
        ok <- plain (check_failure_count cfg r failure_msg) ;;
        if negb ok then expire_requests_log t
        else
          done <- reassign_request_log r ;;
          if negb done then
            rest <- expire_requests_log t ;; lret (r :: rest)
          else
            plain (notify_monitor (r_job r) "ABORTED") ;;
            expire_requests_log t
  end.

(* second loop, broker_handler.cpp:408-445 *)
Fixpoint expire_workers_log (ws : list worker) : L unit :=
  match ws with
  | [] => lret tt
  | w :: t =>
      log LInfo "Worker {} expired" [get_description w] ;;
      plain (modify (fun s => set_reg (reg_remove w (s_reg s)) s)) ;;
      current <- plain (queue_call (q_get_current w)) ;;
      plain (match current with Some r => failures_incr r | None => ret tt end) ;;
      requests <- plain (queue_call (q_worker_terminated w)) ;;
      unassigned <- expire_requests_log requests ;;
      plain (reject_all ("Worker " ++ get_description w ++ " dieded") unassigned) ;;
      expire_workers_log t
  end.

(* process_timer, broker_handler.cpp:383-459 *)
Definition process_timer_log (message : msg) : L unit :=
  match m_data message with
  | [] => plain (fail DerefEnd)
  | front :: _ =>
      time <- plain (lift (stoll front)) ;;
      s <- plain get ;;
      to_remove <- plain (timer_scan cfg time (s_reg s)) ;;
      expire_workers_log to_remove ;;
      s <- plain get ;;
      plain (stat_set STATS_QUEUED_JOBS (N.of_nat (q_queued_count (s_queue s)))) ;;
      plain (stat_set STATS_WORKER_COUNT (N.of_nat (length (s_reg s)))) ;;
      plain (stat_set STATS_IDLE_WORKER_COUNT 0) ;;
      plain (count_idle (s_reg s)) ;;
      s <- plain get ;;
      plain (stat_set STATS_JOBS_IN_PROGRESS (size_sub (stat STATS_WORKER_COUNT s) (stat STATS_IDLE_WORKER_COUNT s)))
  end.

(* process_client_get_runtime_stats, broker_handler.cpp:517-535 *)
Definition process_client_get_runtime_stats_log (identity : string) (message : list string) : L unit :=
  log LDebug "Client requested runtime statistics" [] ;;
  plain (process_client_get_runtime_stats identity message).

(* process_client_freeze / unfreeze, broker_handler.cpp:537-555 *)
Definition process_client_freeze_log (identity : string) (message : list string) : L unit :=
  plain (modify (set_frozen true)) ;;
  log LInfo "The broker was frozen and will not accept any requests until it is restarted or unfrozen" [] ;;
  plain (respond (Msg KEY_CLIENTS identity ["ack"])).
Definition process_client_unfreeze_log (identity : string) (message : list string) : L unit :=
  plain (modify (set_frozen false)) ;;
  log LInfo "The broker was unfrozen and will now accept requests again" [] ;;
  plain (respond (Msg KEY_CLIENTS identity ["ack"])).

(* command_holder::call_function and the commands, as in Handler.v *)
Definition call_function_log (commands : list (string * (string -> list string -> L unit)))
    (command identity : string) (message : list string) : L unit :=
  match sm_find command commands with
  | Some f => f identity message
  | None => lret tt
  end.
Definition client_commands_log : list (string * (string -> list string -> L unit)) :=
  [("eval", process_client_eval_log);
   ("get-runtime-stats", process_client_get_runtime_stats_log);
   ("freeze", process_client_freeze_log);
   ("unfreeze", process_client_unfreeze_log)].
Definition worker_commands_log : list (string * (string -> list string -> L unit)) :=
  [("init", process_worker_init_log);
   ("done", process_worker_done_log);
   ("ping", fun identity message => plain (process_worker_ping identity message));
   ("progress", fun identity message => plain (process_worker_progress identity message))].

(* on_request, broker_handler.cpp:64-84 *)
Definition when_log (b : bool) (m : L unit) : L unit := if b then m else lret tt.
Definition on_request_log (message : msg) : L unit :=
  when_log (String.eqb (m_key message) KEY_WORKERS) (
    s <- plain get ;;
    plain (match find_worker_by_identity (m_ident message) (s_reg s) with
    | Some w =>
        bind (modify (fun s => set_live (tbl_set (w_id w) (c_max_liveness cfg) (s_live s)) s)) (fun _ =>
        modify (fun s => set_timers (pm_set w 0%Z (s_timers s)) s))
    | None => ret tt
    end) ;;
    command <- plain (at_ (m_data message) 0) ;;
    call_function_log worker_commands_log command (m_ident message) (m_data message)) ;;
  when_log (String.eqb (m_key message) KEY_CLIENTS) (
    command <- plain (at_ (m_data message) 0) ;;
    call_function_log client_commands_log command (m_ident message) (m_data message)) ;;
  when_log (String.eqb (m_key message) KEY_TIMER) (process_timer_log message).

End WithConfig.

(* the texts a logger set to lvl writes *)
Definition texts (lvl : level) (l : list out) : list string :=
  flat_map (fun x => match x with
                     | Say _ => []
                     | Line lv fmt args => if should_log lvl lv then match render fmt args with Some t => [t] | None => [] end else []
                     end) l.
