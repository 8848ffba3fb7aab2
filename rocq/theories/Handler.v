(* src/handlers/broker_handler.h / .cpp, src/notifier/reactor_status_notifier.cpp,
   src/reactor/command_holder.cpp *)
From Verif Require Import Base Bytes Containers Worker Multi Single Queue.
Local Open Scope string_scope.

(* The three settings the handler reads: get_max_worker_liveness, get_max_request_failures,
   get_worker_ping_interval (src/config/broker_config.h:72-92). *)
Record config : Type := mkConfig {
  c_max_liveness : N;
  c_max_failures : N;
  c_ping_interval : Z }.

(* broker_handler.h:47-72. liveness (worker.h:174) and failure_count (worker.h:96) are fields of the
   pointed-to objects, kept here in tables; next_w/next_r number the allocations. *)
Record state : Type := mkState {
  s_reg : list worker;
  s_queue : manager;
  s_timers : pmap Z;
  s_live : table;
  s_fails : table;
  s_stats : smap N;
  s_frozen : bool;
  s_next_w : nat;
  s_next_r : nat }.

Definition set_reg x s := mkState x (s_queue s) (s_timers s) (s_live s) (s_fails s) (s_stats s) (s_frozen s) (s_next_w s) (s_next_r s).
Definition set_queue x s := mkState (s_reg s) x (s_timers s) (s_live s) (s_fails s) (s_stats s) (s_frozen s) (s_next_w s) (s_next_r s).
Definition set_timers x s := mkState (s_reg s) (s_queue s) x (s_live s) (s_fails s) (s_stats s) (s_frozen s) (s_next_w s) (s_next_r s).
Definition set_live x s := mkState (s_reg s) (s_queue s) (s_timers s) x (s_fails s) (s_stats s) (s_frozen s) (s_next_w s) (s_next_r s).
Definition set_fails x s := mkState (s_reg s) (s_queue s) (s_timers s) (s_live s) x (s_stats s) (s_frozen s) (s_next_w s) (s_next_r s).
Definition set_stats x s := mkState (s_reg s) (s_queue s) (s_timers s) (s_live s) (s_fails s) x (s_frozen s) (s_next_w s) (s_next_r s).
Definition set_frozen x s := mkState (s_reg s) (s_queue s) (s_timers s) (s_live s) (s_fails s) (s_stats s) x (s_next_w s) (s_next_r s).
Definition set_next_w x s := mkState (s_reg s) (s_queue s) (s_timers s) (s_live s) (s_fails s) (s_stats s) (s_frozen s) x (s_next_r s).
Definition set_next_r x s := mkState (s_reg s) (s_queue s) (s_timers s) (s_live s) (s_fails s) (s_stats s) (s_frozen s) (s_next_w s) x.

(* Handler code: reads and writes the state, calls respond (messages in order), may fail. *)
Definition M (A : Type) : Type := state -> list msg * (fault + A * state).

Definition ret {A} (a : A) : M A := fun s => ([], inr (a, s)).
Definition bind {A B} (m : M A) (k : A -> M B) : M B := fun s =>
  match m s with
  | (o1, inl f) => (o1, inl f)
  | (o1, inr (a, s1)) => let '(o2, r) := k a s1 in (o1 ++ o2, r)%list
  end.
Definition fail {A} (f : fault) : M A := fun _ => ([], inl f).
Definition get : M state := fun s => ([], inr (s, s)).
Definition modify (f : state -> state) : M unit := fun s => ([], inr (tt, f s)).
Definition lift {A} (x : res A) : M A := match x with Val a => ret a | Fail f => fail f end.
(* respond(message) *)
Definition respond (m : msg) : M unit := fun s => ([m], inr (tt, s)).

Notation "x <- m ;; k" := (bind m (fun x => k))
  (at level 61, m at next level, right associativity).
Notation "' p <- m ;; k" := (bind m (fun x => match x with p => k end))
  (at level 61, p pattern, m at next level, right associativity).
Notation "m ;; k" := (bind m (fun _ => k)) (at level 61, right associativity).
Definition when (b : bool) (m : M unit) : M unit := if b then m else ret tt.

(* a call on the queue manager *)
Definition queue_call {A} (f : manager -> res (A * manager)) : M A := fun s =>
  match f (s_queue s) with
  | Val (a, m) => ([], inr (a, set_queue m s))
  | Fail e => ([], inl e)
  end.

(* src/broker_connect.cpp:3-11 *)
Definition KEY_WORKERS := "workers".
Definition KEY_CLIENTS := "clients".
Definition KEY_MONITOR := "monitor".
Definition KEY_STATUS_NOTIFIER := "status_notifier".
Definition KEY_TIMER := "timer".
Definition MONITOR_IDENTITY := "recodex-monitor".

(* broker_handler.h:35-45 *)
Definition STATS_QUEUED_JOBS := "queued-jobs".
Definition STATS_EVALUATED_JOBS := "evaluated-jobs".
Definition STATS_JOBS_IN_PROGRESS := "jobs-in-progress".
Definition STATS_FAILED_JOBS := "failed-jobs".
Definition STATS_WORKER_COUNT := "worker-count".
Definition STATS_IDLE_WORKER_COUNT := "idle-worker-count".

(* reactor_status_notifier, src/notifier/reactor_status_notifier.cpp:9-39 *)
Definition notify_error (desc : string) : M unit :=
  respond (Msg KEY_STATUS_NOTIFIER "" ["type"; "error"; "message"; desc]).
Definition rejected_job (job desc : string) : M unit :=
  respond (Msg KEY_STATUS_NOTIFIER ""
    ["type"; "job-status"; "id"; job; "status"; "FAILED"; "message"; desc]).
Definition job_done (job : string) : M unit :=
  respond (Msg KEY_STATUS_NOTIFIER "" ["type"; "job-status"; "id"; job; "status"; "OK"]).
Definition job_failed (job desc : string) : M unit :=
  respond (Msg KEY_STATUS_NOTIFIER ""
    ["type"; "job-status"; "id"; job; "status"; "FAILED"; "message"; desc]).

(* runtime_stats_[k] += 1 and runtime_stats_[k] = v; the counters are unbounded here. *)
Definition stat (k : string) (s : state) : N :=
  match sm_find k (s_stats s) with Some v => v | None => 0%N end.
Definition stat_set (k : string) (v : N) : M unit := modify (fun s => set_stats (sm_set k v (s_stats s)) s).
Definition stat_incr (k : string) : M unit := modify (fun s => set_stats (sm_set k (stat k s + 1)%N (s_stats s)) s).

(* request->failure_count *)
Definition failures (r : request) (s : state) : N := tbl_get (r_id r) (s_fails s).
Definition failures_incr (r : request) : M unit :=
  modify (fun s => set_fails (tbl_set (r_id r) (failures r s + 1)%N (s_fails s)) s).

(* std::vector::at *)
Definition at_ (v : list string) (i : nat) : M string :=
  match nth_error v i with Some x => ret x | None => fail OutOfRange end.

Section WithConfig.
Context (o : oracle) (cfg : config).

(* send_request, broker_handler.cpp:483-487 *)
Definition send_request (w : worker) (r : request) : M unit :=
  respond (Msg KEY_WORKERS (w_identity w) (r_frames r)).
Definition send_if (w : worker) (x : option request) : M unit :=
  match x with Some r => send_request w r | None => ret tt end.

(* notify_monitor, broker_handler.cpp:505-515 *)
Definition notify_monitor (job text : string) : M unit :=
  respond (Msg KEY_MONITOR MONITOR_IDENTITY [job; text]).

(* check_failure_count, broker_handler.cpp:489-503 *)
Definition check_failure_count (r : request) (failure_msg : string) : M bool :=
  s <- get ;;
  if N.leb (c_max_failures cfg) (failures r s) then
    job_failed (r_job r) ("Job was reassigned too many (" ++ to_string_N (size_pred (failures r s)) ++
      ") times. Last failure message was: " ++ failure_msg) ;;
    notify_monitor (r_job r) "FAILED" ;;
    ret false
  else ret true.

(* reassign_request, broker_handler.cpp:461-481 *)
Definition reassign_request (r : request) : M bool :=
  result <- queue_call (q_enqueue_request o r) ;;
  if negb (enqueued result) then
    notify_monitor (r_job r) "FAILED" ;; ret false
  else
    match assigned_to result with
    | Some w => send_request w r
    | None => ret tt
    end ;;
    ret true.

(* The header loop of process_client_eval, broker_handler.cpp:103-133. `None` is the early return of
   114-115. An empty remainder is the dereference of end() at 107, possible only on entry. *)
Definition metadata_key_prefix := "meta.".
Fixpoint parse_eval_headers (frames : list string) (headers : mmap string) (metadata : smap string)
  : res (option (mmap string * smap string * list string)) :=
  match frames with
  | [] => Fail DerefEnd
  | f :: rest =>
      if String.eqb f "" then Val (Some (headers, metadata, rest))
      else match rest with
           | [] => Val None
           | _ :: _ =>
               let '(k, v) := split_header f in
               if String.eqb (str_take (String.length metadata_key_prefix) k) metadata_key_prefix
               then parse_eval_headers rest headers
                      (sm_emplace (str_drop (String.length metadata_key_prefix) k) v metadata)
               else parse_eval_headers rest (mm_emplace k v headers) metadata
           end
  end.

(* the text built in broker_handler.cpp:165-170 *)
Fixpoint reject_text (acc : string) (headers : mmap string) : string :=
  match headers with
  | [] => acc
  | (k, v) :: t => reject_text (acc ++ k ++ "=" ++ v ++ "; ") t
  end.

(* process_client_eval, broker_handler.cpp:86-175 *)
Definition process_client_eval (identity : string) (message : list string) : M unit :=
  respond (Msg KEY_CLIENTS identity ["ack"]) ;;
  job_id <- at_ message 1 ;;
  parsed <- lift (parse_eval_headers (skipn 2 message) [] []) ;;
  match parsed with
  | None => ret tt
  | Some (headers, metadata, additional) =>
      s <- get ;;
      if s_frozen s then
        respond (Msg KEY_CLIENTS identity ["reject"; "The broker is frozen."])
      else
        let r := complete_request (s_next_r s) headers metadata job_id additional in
        modify (set_next_r (S (s_next_r s))) ;;
        result <- queue_call (q_enqueue_request o r) ;;
        if enqueued result then
          match assigned_to result with
          | Some w => send_request w r
          | None => ret tt
          end ;;
          respond (Msg KEY_CLIENTS identity ["accept"])
        else
          respond (Msg KEY_CLIENTS identity
            ["reject"; reject_text "No worker available for given headers: " headers]) ;;
          notify_monitor job_id "FAILED"
  end.

(* first loop of process_worker_init, broker_handler.cpp:194-206: the headers and the frames from
   the empty one on *)
Fixpoint parse_init_headers (frames : list string) (headers : mmap string) : mmap string * list string :=
  match frames with
  | [] => (headers, [])
  | f :: rest =>
      if String.eqb f "" then (headers, f :: rest)
      else let '(k, v) := split_header f in parse_init_headers rest (mm_emplace k v headers)
  end.

(* second loop, broker_handler.cpp:226-240: description, current request, next request number *)
Fixpoint parse_init_extra (frames : list string) (desc : string) (cur : option request) (next : nat)
  : string * option request * nat :=
  match frames with
  | [] => (desc, cur, next)
  | f :: rest =>
      let '(k, v) := split_header f in
      if String.eqb k "description" then parse_init_extra rest v cur next
      else if String.eqb k "current_job" then
        parse_init_extra rest desc (Some (incomplete_request next v)) (S next)
      else parse_init_extra rest desc cur next
  end.

(* process_worker_init, broker_handler.cpp:177-259 *)
Definition process_worker_init (identity : string) (message : list string) : M unit :=
  if Nat.ltb (length message) 2 then ret tt
  else
    hwgroup <- at_ message 1 ;;
    let '(headers, rest) := parse_init_headers (skipn 2 message) [] in
    s <- get ;;
    let register :=
      new_worker <- lift (make_worker (s_next_w s) (o_addr o (s_next_w s)) identity hwgroup headers) ;;
      modify (set_next_w (S (s_next_w s))) ;;
      let '(desc, cur, next) := parse_init_extra rest "" None (s_next_r s) in
      modify (set_next_r next) ;;
      let new_worker := set_description desc new_worker in
      modify (fun s => set_reg (reg_add new_worker (s_reg s)) s) ;;
      request <- queue_call (q_add_worker o new_worker cur) ;;
      send_if new_worker request ;;
      modify (fun s => set_timers (pm_emplace new_worker 0%Z (s_timers s)) s)
    in
    match find_worker_by_identity identity (s_reg s) with
    | Some current_worker =>
        if headers_equal current_worker headers then ret tt
        else
          notify_error ("Received two different INIT messages from the same worker (" ++
            get_description current_worker ++ ")") ;;
          register
    | None => register
    end.

(* process_worker_done, broker_handler.cpp:261-352 *)
Definition process_worker_done (identity : string) (message : list string) : M unit :=
  s <- get ;;
  match find_worker_by_identity identity (s_reg s) with
  | None => ret tt
  | Some worker =>
      if Nat.ltb (length message) 3 then ret tt
      else
        current <- queue_call (q_get_current worker) ;;
        job <- at_ message 1 ;;
        match current with
        | None => fail NullDeref
        | Some current =>
            if negb (String.eqb job (r_job current)) then ret tt
            else
              status <- at_ message 2 ;;
              let finish := queue_call (q_get_current worker) ;; ret tt in
              if String.eqb status "OK" then
                job_done job ;;
                next_request <- queue_call (q_worker_finished o worker) ;;
                send_if worker next_request ;;
                stat_incr STATS_EVALUATED_JOBS ;;
                finish
              else if String.eqb status "INTERNAL_ERROR" then
                if negb (Nat.eqb (length message) 4) then ret tt
                else
                  failed <- queue_call (q_worker_cancelled worker) ;;
                  match failed with
                  | None => fail NullDeref
                  | Some failed_request =>
                      failures_incr failed_request ;;
                      text <- at_ message 3 ;;
                      (if negb (r_complete failed_request) then
                         rejected_job (r_job failed_request)
                           ("Job failed with '" ++ text ++ "' and cannot be reassigned")
                       else
                         ok <- check_failure_count failed_request text ;;
                         if ok then (reassign_request failed_request ;; ret tt)
                         else
                           new_request <- queue_call (q_assign_request o worker) ;;
                           send_if worker new_request) ;;
                      stat_incr STATS_FAILED_JOBS ;;
                      finish
                  end
              else if String.eqb status "FAILED" then
                if negb (Nat.eqb (length message) 4) then ret tt
                else
                  text <- at_ message 3 ;;
                  job_failed job text ;;
                  failed <- queue_call (q_worker_cancelled worker) ;;
                  match failed with
                  | None => fail NullDeref
                  | Some failed_request =>
                      failures_incr failed_request ;;
                      new_request <- queue_call (q_assign_request o worker) ;;
                      send_if worker new_request ;;
                      stat_incr STATS_FAILED_JOBS ;;
                      finish
                  end
              else finish
        end
  end.

(* process_worker_ping, broker_handler.cpp:354-368 *)
Definition process_worker_ping (identity : string) (message : list string) : M unit :=
  s <- get ;;
  match find_worker_by_identity identity (s_reg s) with
  | None => respond (Msg KEY_WORKERS identity ["intro"])
  | Some _ => respond (Msg KEY_WORKERS identity ["pong"])
  end.

(* process_worker_progress, broker_handler.cpp:370-381 *)
Definition process_worker_progress (identity : string) (message : list string) : M unit :=
  respond (Msg KEY_MONITOR MONITOR_IDENTITY (skipn 1 message)).

(* first loop of process_timer, broker_handler.cpp:386-403; returns to_remove *)
Fixpoint timer_scan (time : Z) (ws : list worker) : M (list worker) :=
  match ws with
  | [] => ret []
  | w :: t =>
      s <- get ;;
      let old := match pm_find w (s_timers s) with Some z => z | None => 0%Z end in
      let new := (old + time)%Z in
      if negb (in_i64 new) then fail IntOverflow
      else if Z.ltb (c_ping_interval cfg) new then
        let l := size_pred (tbl_get (w_id w) (s_live s)) in
        modify (fun s => set_live (tbl_set (w_id w) l (s_live s)) s) ;;
        modify (fun s => set_timers (pm_set w 0%Z (s_timers s)) s) ;;
        rest <- timer_scan time t ;;
        ret (if N.leb l 0 then w :: rest else rest)
      else
        modify (fun s => set_timers (pm_set w new (s_timers s)) s) ;;
        timer_scan time t
  end.

Definition failure_msg := "Worker timed out and its job cannot be reassigned".

(* inner loop, broker_handler.cpp:419-435; returns unassigned_requests *)
Fixpoint expire_requests (rs : list request) : M (list request) :=
  match rs with
  | [] => ret []
  | r :: t =>
      if negb (r_complete r) then
        rejected_job (r_job r) failure_msg ;;
        notify_monitor (r_job r) "FAILED" ;;
        expire_requests t
      else
        ok <- check_failure_count r failure_msg ;;
        if negb ok then expire_requests t
        else
          done <- reassign_request r ;;
          if negb done then
            rest <- expire_requests t ;; ret (r :: rest)
          else
            notify_monitor (r_job r) "ABORTED" ;;
            expire_requests t
  end.

(* broker_handler.cpp:441-443 *)
Fixpoint reject_all (desc : string) (rs : list request) : M unit :=
  match rs with
  | [] => ret tt
  | r :: t => rejected_job (r_job r) desc ;; reject_all desc t
  end.

(* second loop, broker_handler.cpp:408-445 *)
Fixpoint expire_workers (ws : list worker) : M unit :=
  match ws with
  | [] => ret tt
  | w :: t =>
      modify (fun s => set_reg (reg_remove w (s_reg s)) s) ;;
      current <- queue_call (q_get_current w) ;;
      match current with Some r => failures_incr r | None => ret tt end ;;
      requests <- queue_call (q_worker_terminated w) ;;
      unassigned <- expire_requests requests ;;
      reject_all ("Worker " ++ get_description w ++ " dieded") unassigned ;;
      expire_workers t
  end.

(* broker_handler.cpp:450-455 *)
Fixpoint count_idle (ws : list worker) : M unit :=
  match ws with
  | [] => ret tt
  | w :: t =>
      current <- queue_call (q_get_current w) ;;
      match current with None => stat_incr STATS_IDLE_WORKER_COUNT | Some _ => ret tt end ;;
      count_idle t
  end.

(* size_t subtraction *)
Definition size_sub (a b : N) : N := if N.leb b a then (a - b)%N else (two64 - (b - a))%N.

(* process_timer, broker_handler.cpp:383-459 *)
Definition process_timer (message : msg) : M unit :=
  match m_data message with
  | [] => fail DerefEnd
  | front :: _ =>
      time <- lift (stoll front) ;;
      s <- get ;;
      to_remove <- timer_scan time (s_reg s) ;;
      expire_workers to_remove ;;
      s <- get ;;
      stat_set STATS_QUEUED_JOBS (N.of_nat (q_queued_count (s_queue s))) ;;
      stat_set STATS_WORKER_COUNT (N.of_nat (length (s_reg s))) ;;
      stat_set STATS_IDLE_WORKER_COUNT 0 ;;
      count_idle (s_reg s) ;;
      s <- get ;;
      stat_set STATS_JOBS_IN_PROGRESS (size_sub (stat STATS_WORKER_COUNT s) (stat STATS_IDLE_WORKER_COUNT s))
  end.

(* process_client_get_runtime_stats, broker_handler.cpp:517-535 *)
Definition process_client_get_runtime_stats (identity : string) (message : list string) : M unit :=
  s <- get ;;
  respond (Msg KEY_CLIENTS identity
    (flat_map (fun p => [fst p; to_string_N (snd p)]) (s_stats s) ++
     ["is-frozen"; if s_frozen s then "1" else "0"])%list).

(* process_client_freeze / unfreeze, broker_handler.cpp:537-555 *)
Definition process_client_freeze (identity : string) (message : list string) : M unit :=
  modify (set_frozen true) ;; respond (Msg KEY_CLIENTS identity ["ack"]).
Definition process_client_unfreeze (identity : string) (message : list string) : M unit :=
  modify (set_frozen false) ;; respond (Msg KEY_CLIENTS identity ["ack"]).

(* command_holder::call_function, src/reactor/command_holder.cpp:3-12, with the commands registered
   in broker_handler.cpp:23-61 *)
Definition call_function (commands : list (string * (string -> list string -> M unit)))
    (command identity : string) (message : list string) : M unit :=
  match sm_find command commands with
  | Some f => f identity message
  | None => ret tt
  end.
Definition client_commands : list (string * (string -> list string -> M unit)) :=
  [("eval", process_client_eval);
   ("get-runtime-stats", process_client_get_runtime_stats);
   ("freeze", process_client_freeze);
   ("unfreeze", process_client_unfreeze)].
Definition worker_commands : list (string * (string -> list string -> M unit)) :=
  [("init", process_worker_init);
   ("done", process_worker_done);
   ("ping", process_worker_ping);
   ("progress", process_worker_progress)].

(* on_request, broker_handler.cpp:64-84. The three `if`s test one key against different constants,
   so at most one body runs. *)
Definition on_request (message : msg) : M unit :=
  when (String.eqb (m_key message) KEY_WORKERS) (
    s <- get ;;
    match find_worker_by_identity (m_ident message) (s_reg s) with
    | Some w =>
        modify (fun s => set_live (tbl_set (w_id w) (c_max_liveness cfg) (s_live s)) s) ;;
        modify (fun s => set_timers (pm_set w 0%Z (s_timers s)) s)
    | None => ret tt
    end ;;
    command <- at_ (m_data message) 0 ;;
    call_function worker_commands command (m_ident message) (m_data message)) ;;
  when (String.eqb (m_key message) KEY_CLIENTS) (
    command <- at_ (m_data message) 0 ;;
    call_function client_commands command (m_ident message) (m_data message)) ;;
  when (String.eqb (m_key message) KEY_TIMER) (process_timer message).

(* broker_handler::broker_handler, broker_handler.cpp:7-21, with the empty registry and queue manager
   created by broker_core::broker_init (src/broker_core.cpp:125-147) *)
Definition init_stats : smap N :=
  sm_emplace STATS_IDLE_WORKER_COUNT 0%N
    (sm_emplace STATS_WORKER_COUNT 0%N
      (sm_emplace STATS_FAILED_JOBS 0%N
        (sm_emplace STATS_EVALUATED_JOBS 0%N
          (sm_emplace STATS_QUEUED_JOBS 0%N [])))).
Definition init_state (m : manager) : state := mkState [] m [] [] [] init_stats false 0 0.

End WithConfig.
