(* C78: the log of the whole process, and that it can be reproduced. *)
From Coq Require Import Lia.
From Verif Require Import Base Bytes Containers Worker Multi Single Queue Handler SpecText Spec SpecRun SpecOracle SpecJournal SpecChronicle Demo
  Reactor SpecReactor Config SpecConfig Logger LogHandler Startup SpecStartup SpecWhole Chronicle OracleLog ChronicleFacts PropConfig PropStartup PropOracle PropWhole.
Local Open Scope string_scope.
Local Open Scope list_scope.

(* What the process logs: its first lines, and then for each message of the agenda exactly the record that the journal
   (C64) prescribes; if a message ends the process, that message's last words. *)
Theorem C78_log : forall env args o fuel ws, (forall w, In w ws -> w_async w = []) ->
  match process env args o (S fuel) ws with
  | (effs, Exited _) => mentions effs (log_calls env args o (S fuel) ws)
  | (effs, Serving _) => exists g k tr s ls c, started env args g k /\ run o (handler_config g) k tr s /\ map ev_in tr = agenda [] [] ws /\
      Forall2 (kept (handler_config g)) tr ls /\ puts_down (concat ls) c /\ log_calls env args o (S fuel) ws = first_lines g ++ c
  | (effs, Unwinding) => start_up env args = (effs, Unwinding) /\ mentions effs (log_calls env args o (S fuel) ws) \/
      exists g k tr s m later outs f ls l c, started env args g k /\ run o (handler_config g) k tr s /\ agenda [] [] ws = map ev_in tr ++ m :: later /\
      crashes o (handler_config g) s m outs f /\ Forall2 (kept (handler_config g)) tr ls /\ last_words m outs l /\
      puts_down (concat ls ++ l) c /\ log_calls env args o (S fuel) ws = first_lines g ++ c
  end.
Proof. exact log_process. Qed.
Print Assumptions C78_log.

(* The record of a message that ends the broker. *)
Theorem C78_last_words : forall o cfg k tr s m outs f, run o cfg k tr s -> crashes o cfg s m outs f ->
  last_words m outs (fst (on_request_log o cfg m s)).
Proof. exact fatal_record. Qed.
Print Assumptions C78_last_words.

(* Two histories with the same messages have the same records, whatever the addresses, the clock and std::sort; and so
   has any further message, also one that ends the broker. *)
Theorem C78_multi : forall o1 o2 cfg tr1 s1 tr2 s2, run o1 cfg KMulti tr1 s1 -> run o2 cfg KMulti tr2 s2 -> map ev_in tr1 = map ev_in tr2 ->
  map (record o1 cfg) tr1 = map (record o2 cfg) tr2 /\ forall m, fst (on_request_log o1 cfg m s1) = fst (on_request_log o2 cfg m s2).
Proof. exact multi_log. Qed.
Print Assumptions C78_multi.

(* With one queue for all workers the orders of the addresses and of the clock readings must agree, and the results of
   std::sort if the clock can show the same time twice. *)
Theorem C78_single : forall o1 o2 cfg tr1 s1 tr2 s2, same_addresses o1 o2 -> same_clocks o1 o2 -> no_ties o1 \/ same_ties o1 o2 ->
  run o1 cfg KSingle tr1 s1 -> run o2 cfg KSingle tr2 s2 -> map ev_in tr1 = map ev_in tr2 ->
  map (record o1 cfg) tr1 = map (record o2 cfg) tr2 /\ forall m, fst (on_request_log o1 cfg m s1) = fst (on_request_log o2 cfg m s2).
Proof. exact single_log. Qed.
Print Assumptions C78_single.

(* So the whole process does and logs the same. *)
Theorem C78_process_multi : forall env args o1 o2 fuel ws, (forall w, In w ws -> w_async w = []) -> (forall g, ~ started env args g KSingle) ->
  fst (process env args o1 (S fuel) ws) = fst (process env args o2 (S fuel) ws) /\ log_calls env args o1 (S fuel) ws = log_calls env args o2 (S fuel) ws.
Proof. exact process_multi. Qed.
Print Assumptions C78_process_multi.
Theorem C78_process : forall env args o1 o2 fuel ws, same_addresses o1 o2 -> same_clocks o1 o2 -> no_ties o1 \/ same_ties o1 o2 ->
  (forall w, In w ws -> w_async w = []) ->
  fst (process env args o1 (S fuel) ws) = fst (process env args o2 (S fuel) ws) /\ log_calls env args o1 (S fuel) ws = log_calls env args o2 (S fuel) ws.
Proof. exact process_single. Qed.
Print Assumptions C78_process.

(* The texts of a record are determined; at a level those of that level and above are written. *)
Theorem C78_texts : forall l c1 c2, puts_down l c1 -> puts_down l c2 -> c1 = c2.
Proof. exact puts_down_fun. Qed.
Print Assumptions C78_texts.
Theorem C78_levels : forall lvl l c, puts_down l c -> texts lvl l = written_lines lvl c.
Proof. exact levels_written. Qed.
Print Assumptions C78_levels.

(* the log of PropWhole's session, which a bare "eval" ends, in two environments *)
Example C78_example :
  log_calls (demo_env None "") ["-c"; "b.yml"] demo_oracle 1 whole_waits = log_calls (demo_env None "") ["-c"; "b.yml"] env_back 1 whole_waits /\
  written_lines LDebug (log_calls (demo_env None "") ["-c"; "b.yml"] demo_oracle 1 whole_waits) =
    ["------------------------------"; "    Started ReCodEx broker"; "------------------------------"; "Initializing CURL..."; "CURL initialized.";
     "Initializing broker connection..."; "Binding clients to tcp://*:9658"; "Binding workers to tcp://*:0"; "Binding monitor to tcp://127.0.0.1:7894";
     "Broker connection initialized."; "Broker will now start brokering."; "Received message 'init' from workers"; " - added new worker 41 with headers: g ";
     "Received message 'eval' from clients"; " - incoming job j1"; " - job j1 sent to worker 41"; "Received message 'eval' from clients"].
Proof. split; vm_compute; reflexivity. Qed.

(* With one queue the order of the addresses shows in the log. *)
Example C78_addresses_refuted : exists o1 o2 ms, same_clocks o1 o2 /\ no_ties o1 /\ same_ties o1 o2 /\
  texts LDebug (handler_record o1 demo_cfg (start KSingle) ms) =
    ["Received message 'init' from workers"; " - added new worker 41 with headers: g env=c "; "Received message 'init' from workers"; " - added new worker 42 with headers: g env=c ";
     "Received message 'eval' from clients"; " - incoming job j1"; " - job j1 sent to worker 41"] /\
  nth 6 (texts LDebug (handler_record o2 demo_cfg (start KSingle) ms)) "" = " - job j1 sent to worker 42".
Proof.
  exists env_up, demo_oracle, (firstn 3 env_inputs). split; [env|]. split; [env|]. split; [env|]. split; vm_compute; reflexivity.
Qed.
