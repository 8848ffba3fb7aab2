(* C65: how the process ends. *)
From Coq Require Import Permutation.
From Verif Require Import Base Bytes Containers Worker Multi Single Queue Handler SpecText Spec SpecRun Demo
  Reactor SpecReactor Config SpecConfig Logger Startup SpecStartup Ending SpecEnding EndingFacts PropConfig PropStartup.
Local Open Scope string_scope.
Local Open Scope list_scope.

(* C65. Whatever order the containers use: a broker whose start is refused exits with status 1 and says why.
   A broker that serves goes on, unless a socket cannot be opened or a handler throws. Then curl is cleaned
   up, and the socket to the notifier's thread is used after its end, which is undefined. The
   broker never returns from main. *)
Theorem C65_course : forall handlers sockets, Permutation handlers handler_owners -> Permutation sockets socket_owners ->
  forall env args o fuel ws, (forall w, In w ws -> w_async w = []) ->
  match whole handlers sockets env args o (S fuel) ws with
  | (ds, Status c) => c = 1%N /\ exists effs, ds = map Does effs /\ refused env args (lines effs)
  | (ds, Endless) => exists first k g tr s, start_up env args = (first, Serving (k, g)) /\
      run o (handler_config g) k tr s /\ ds = map Does (first ++ map Act (flat_map event_actions tr))
  | (ds, Unknown) => False
  | (ds, Undefined n) => n = "async_handler_socket_" /\ exists effs, ds = map Does (effs ++ curl_end) /\
      (start_up env args = (effs, Unwinding) \/
       exists first k g tr s m outs f, start_up env args = (first, Serving (k, g)) /\ run o (handler_config g) k tr s /\
         crashes o (handler_config g) s m outs f /\
         effs = first ++ map Act (flat_map event_actions tr ++ ACall 0 m :: flat_map broker_route outs))
  end.
Proof. exact whole_course. Qed.
Print Assumptions C65_course.

(* The lines about the end of the loop are never logged, the notifier's thread is never joined, and curl is
   cleaned up exactly before undefined behaviour, with that thread still there. *)
Theorem C65_never : forall handlers sockets, Permutation handlers handler_owners -> Permutation sockets socket_owners ->
  forall env args o fuel ws ds e, (forall w, In w ws -> w_async w = []) -> whole handlers sockets env args o (S fuel) ws = (ds, e) ->
  (forall l t, In (Does (Note l t)) ds -> t <> "The main loop terminated" /\ t <> "Broker will now end.") /\
  ~ In SendTerminate ds /\ ~ In JoinThread ds /\
  (In (Does CurlCleanup) ds <-> exists n, e = Undefined n).
Proof. exact never_said. Qed.
Print Assumptions C65_never.

(* If something called reactor::terminate, which only the tests do, the thread would be joined before curl is
   cleaned up, and main would return 0. *)
Theorem C65_terminated : forall handlers sockets, Permutation handlers handler_owners -> Permutation sockets socket_owners ->
  terminated handlers sockets =
  ([SendTerminate; JoinThread] ++ map Does (Note LCritical "The main loop terminated" :: Note LInfo "Broker will now end." :: curl_end), Status 0%N).
Proof. exact terminated_end. Qed.
Print Assumptions C65_terminated.

(* ---- examples ---- *)

(* the port of the workers is taken *)
Example C65_example_taken : whole handler_owners socket_owners (demo_env None "tcp://*:0") ["-c"; "b.yml"] demo_oracle 1 [] =
  (map Does (demo_begun ++ [Bind "tcp://*:9658"; Dial "tcp://127.0.0.1:7894"] ++
     [Note LInfo "Cleanup after CURL..."; CurlCleanup; Note LInfo "CURL cleaned."]), Undefined "async_handler_socket_").
Proof. vm_compute. reflexivity. Qed.

(* A worker sends a message without frames while there is a notification on the way. That main catches the
   exception of a handler and returns 1 is false. *)
Example C65_exception_refuted :
  let ws := map (fun x => mkWait [x] [] 0 0)
    [("workers", ("A", ["init"; "g"])); ("clients", ("C", ["eval"; "j1"; "hwgroup=g"; ""; "body"])); ("workers", ("A", ["done"; "j1"; "OK"]));
     ("workers", ("A", []))] in
  exists ds, whole handler_owners socket_owners (demo_env None "") ["-c"; "b.yml"] demo_oracle 1 ws = (ds, Undefined "async_handler_socket_") /\
    In (Does (Act (APass 0 (Msg "status_notifier" "" ["type"; "job-status"; "id"; "j1"; "status"; "OK"])))) ds /\
    In (Does CurlCleanup) ds /\ ~ In (Does (Stderr "Something very bad happend!")) ds.
Proof.
  eexists. split; [vm_compute; reflexivity|]. split; [cbn; tauto|]. split; [cbn; tauto|]. cbn. intuition discriminate.
Qed.

(* With async_handler_socket_ declared before handlers_ the thread would be joined and main would return 1;
   curl would still be cleaned up before. *)
Example C65_example_reordered :
  let reordered n := if String.eqb n "reactor_" then mkClass []
      [Member "unique_id"; Member "sockets_"; Owner "context"; Member "async_handler_socket_"; Member "handlers_"; Member "termination_flag_"]
    else broker_classes handler_owners socket_owners n in
  let r := destroy reordered 8 "core" serving_life in
  fst r = map Does [Note LInfo "Cleanup after CURL..."; CurlCleanup; Note LInfo "CURL cleaned."] ++ [SendTerminate; JoinThread] /\
  match snd r with
  | inl _ => False
  | inr s => map (f_owners s) ["config"; "logger"; "registry"; "queue"; "context"; "broker"; "notifier"; "handler wrapper"; "broker handler"] = repeat 0 9
  end.
Proof. vm_compute. split; reflexivity. Qed.
