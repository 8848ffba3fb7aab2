(* C74: from the command line to the messages. *)
From Verif Require Import Base Bytes Containers Worker Multi Single Queue Handler SpecText Spec SpecRun SpecFatal SpecLedger SpecPool SpecOracle Demo
  Reactor SpecReactor Config SpecConfig Logger Startup SpecStartup SpecWhole Whole WholeTies PropConfig PropStartup.
Local Open Scope string_scope.
Local Open Scope list_scope.

(* What the process does: it refuses to start and says why, or a socket does not open, or it handles the messages of the
   agenda and shows exactly what the ledger or the hall answers, until a message that these call doomed, if any, ends it.
   The notifier's thread sends nothing back to the reactor. *)
Theorem C74_process : forall env args o fuel ws, (forall w, In w ws -> w_async w = []) ->
  match process env args o (S fuel) ws with
  | (effs, Exited c) => c = 1%N /\ refused env args (lines effs)
  | (effs, Serving l) => exists g k outss L, started env args g k /\ answered o (handler_config g) k (agenda [] [] ws) outss L /\
      effs = prelude g ++ shown (agenda [] [] ws) outss
  | (effs, Unwinding) => start_up env args = (effs, Unwinding) \/
      exists g k ms m later outss L outs f, started env args g k /\ agenda [] [] ws = ms ++ m :: later /\
        answered o (handler_config g) k ms outss L /\ doomed L m outs f /\ effs = prelude g ++ shown ms outss ++ shown_one (m, outs)
  end.
Proof. exact whole_process. Qed.
Print Assumptions C74_process.

(* And the other way round; with one queue for all workers, if the clock never shows the same time twice. *)
Theorem C74_complete : forall env args o fuel ws g k outss L, (forall w, In w ws -> w_async w = []) -> (k = KSingle -> no_ties o) ->
  started env args g k -> answered o (handler_config g) k (agenda [] [] ws) outss L ->
  exists l, process env args o (S fuel) ws = (prelude g ++ shown (agenda [] [] ws) outss, Serving l).
Proof. exact whole_complete. Qed.
Print Assumptions C74_complete.

Theorem C74_dies : forall env args o fuel ws g k ms m later outss L outs f, (forall w, In w ws -> w_async w = []) -> (k = KSingle -> no_ties o) ->
  started env args g k -> agenda [] [] ws = ms ++ m :: later -> answered o (handler_config g) k ms outss L -> doomed L m outs f ->
  process env args o (S fuel) ws = (prelude g ++ shown ms outss ++ shown_one (m, outs), Unwinding).
Proof. exact whole_dies. Qed.
Print Assumptions C74_dies.

(* With any clock, whatever the hall allows, the process does for some results of std::sort. *)
Theorem C74_allows : forall env args rank clock tie0 fuel ws g k outss L, (forall w, In w ws -> w_async w = []) ->
  started env args g k -> answered (mkOracle rank clock tie0) (handler_config g) k (agenda [] [] ws) outss L ->
  exists tie l, process env args (mkOracle rank clock tie) (S fuel) ws = (prelude g ++ shown (agenda [] [] ws) outss, Serving l).
Proof. exact whole_allows. Qed.
Print Assumptions C74_allows.

Theorem C74_may_die : forall env args rank clock tie0 fuel ws g k ms m later outss L outs f, (forall w, In w ws -> w_async w = []) ->
  started env args g k -> agenda [] [] ws = ms ++ m :: later -> answered (mkOracle rank clock tie0) (handler_config g) k ms outss L -> doomed L m outs f ->
  exists tie, process env args (mkOracle rank clock tie) (S fuel) ws = (prelude g ++ shown ms outss ++ shown_one (m, outs), Unwinding).
Proof. exact whole_may_die. Qed.
Print Assumptions C74_may_die.

(* Two messages of a worker arrive at once: the second is handled after the tick of the first round. Then a client's bare
   "eval" ends the process; the worker's ping of the same round is not handled any more. *)
Definition whole_waits : list wait :=
  [mkWait [("workers", ("A", ["init"; "g"])); ("workers", ("A", ["ping"])); ("monitor", ("m", ["hello"]))] [] 0 0;
   mkWait [("clients", ("C", ["eval"; "j1"; "hwgroup=g"; ""; "body"]))] [] 0 1000000;
   mkWait [("workers", ("A", ["ping"])); ("clients", ("C", ["eval"]))] [] 0 0].
Example C74_example :
  agenda [] [] whole_waits =
    [from_worker "A" ["init"; "g"]; tick "0"; from_client "C" ["eval"; "j1"; "hwgroup=g"; ""; "body"]; from_worker "A" ["ping"]; tick "1";
     from_client "C" ["eval"]; from_worker "A" ["ping"]; tick "0"] /\
  exists g, started (demo_env None "") ["-c"; "b.yml"] g KMulti /\
  (exists L, answered demo_oracle (handler_config g) KMulti (agenda [] [] (firstn 2 whole_waits))
    [[]; []; [Msg "clients" "C" ["ack"]; Msg "workers" "A" ["eval"; "j1"; "body"]; Msg "clients" "C" ["accept"]]; [Msg "workers" "A" ["pong"]]; []] L /\
    doomed L (from_client "C" ["eval"]) [Msg "clients" "C" ["ack"]] OutOfRange) /\
  process (demo_env None "") ["-c"; "b.yml"] demo_oracle 1 whole_waits =
    (prelude g ++ [Act (ACall 0 (from_worker "A" ["init"; "g"])); Act (ACall 0 (tick "0"));
      Act (ACall 0 (from_client "C" ["eval"; "j1"; "hwgroup=g"; ""; "body"]));
      Act (ASend 1 (Msg "clients" "C" ["ack"])); Act (ASend 0 (Msg "workers" "A" ["eval"; "j1"; "body"])); Act (ASend 1 (Msg "clients" "C" ["accept"]));
      Act (ACall 0 (from_worker "A" ["ping"])); Act (ASend 0 (Msg "workers" "A" ["pong"])); Act (ACall 0 (tick "1"));
      Act (ACall 0 (from_client "C" ["eval"])); Act (ASend 1 (Msg "clients" "C" ["ack"]))], Unwinding).
Proof.
  split; [vm_compute; reflexivity|].
  pose (p := snd (start_up (demo_env None "") ["-c"; "b.yml"])). vm_compute in p.
  match goal with x := Serving (_, ?g) |- _ => exists g end. clear p.
  split; [apply started_serves; vm_compute; reflexivity|]. split; [|vm_compute; reflexivity].
  match goal with |- exists L, answered ?o (handler_config ?g) _ ?ms _ L /\ _ => change (handler_config g) with (mkConfig 3 3 500);
    destruct (exec o (mkConfig 3 3 500) (start KMulti) ms) as (tr, [f|s]) eqn:E; [vm_compute in E; discriminate|] end.
  pose proof (exec_start _ _ _ _ _ _ E) as HR. destruct (run_answered _ _ _ _ _ HR) as (L & HA & HF). exists L. split; [|apply dm_eval_bare].
  vm_compute in E. injection E as <- <-. exact HA.
Qed.
