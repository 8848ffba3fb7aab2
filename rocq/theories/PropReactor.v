(* Properties C38 and C40. *)
From Coq Require Import Sorted.
From Verif Require Import Base Bytes Containers Worker Multi Single Queue Handler SpecText Spec SpecRun SpecMsg SpecPings Demo
  Reactor SpecReactor ReactorFacts ReactorRun Clock.
Local Open Scope string_scope.
Local Open Scope list_scope.

(* C38. The tables hold what was registered: the first socket of a name, every subscription. *)
Theorem C38_tables : forall xs k,
  sm_find k (t_sockets (build xs)) = socket_named k xs /\ mm_equal_range k (t_handlers (build xs)) = subscribers k xs.
Proof. exact tables_spec. Qed.
Print Assumptions C38_tables.

(* Sockets are served in the order of their names. *)
Theorem C38_order : forall xs, StronglySorted (fun a b => String.ltb a b = true) (map fst (t_sockets (build xs))).
Proof. exact sockets_increasing. Qed.
Print Assumptions C38_order.

(* Whatever the handlers send, and however deep: a message goes out only on the socket of its key, and
   only subscribers of its key get it. *)
Theorem C38_sound : forall St xs (handler : nat -> msg -> St -> list msg * (fault + St)) fuel active m ss a,
  In a (fst (send_message St (build xs) handler fuel active m ss)) ->
  match a with
  | ASend s m => socket_named (m_key m) xs = Some s
  | APass i m => In (Async i) (subscribers (m_key m) xs)
  | ACall h m => In (Sync h) (subscribers (m_key m) xs)
  end.
Proof. intros St xs handler fuel active m ss. exact (proj1 (Forall_forall _ _) (send_proper xs handler fuel active m ss)). Qed.
Print Assumptions C38_sound.

(* A message with a socket is sent there, once, and nothing else happens. *)
Theorem C38_socket : forall St xs (handler : nat -> msg -> St -> list msg * (fault + St)) fuel active m ss s,
  socket_named (m_key m) xs = Some s -> send_message St (build xs) handler (S fuel) active m ss = ([ASend s m], inr ss).
Proof. exact @send_socket. Qed.
Print Assumptions C38_socket.

(* Any other message is treated like one received for its key. *)
Theorem C38_no_socket : forall St xs (handler : nat -> msg -> St -> list msg * (fault + St)) fuel active m ss,
  socket_named (m_key m) xs = None ->
  send_message St (build xs) handler (S fuel) active m ss =
  process_message St (build xs) handler (send_message St (build xs) handler fuel) active m ss.
Proof. exact @send_handlers. Qed.
Print Assumptions C38_no_socket.

(* A received message is handled by its subscribers in order, once per subscription; what a handler sends
   is routed before the next handler is called. *)
Theorem C38_process : forall St xs (handler : nat -> msg -> St -> list msg * (fault + St)) fuel m ss,
  (forall h s, In (Sync h) (subscribers (m_key m) xs) -> Forall (leaf xs) (fst (handler h m s))) ->
  exists acts r, process_message St (build xs) handler (send_message St (build xs) handler (S fuel)) [] m ss = (acts, r) /\
    handled handler xs m (subscribers (m_key m) xs) ss acts r.
Proof. exact @process_leaf. Qed.
Print Assumptions C38_process.

(* A round does the jobs of SpecReactor.jobs_of in that order, and takes exactly their messages. *)
Theorem C38_round : forall St xs (handler : nat -> msg -> St -> list msg * (fault + St)) fuel w l q,
  let names := map fst (t_sockets (build xs)) in
  let send := send_message St (build xs) handler fuel in
  (forall k, q k = l_queues l k ++ arrived_on k [w]) ->
  match perform (process_message St (build xs) handler send []) (send []) (jobs_of names q (l_async l ++ w_async w) (elapsed_ms w)) (l_states l) with
  | (a, inl e) => iteration St (build xs) handler fuel w l = (a, inl e)
  | (a, inr ss) => exists l', iteration St (build xs) handler fuel w l = (a, inr l') /\ l_states l' = ss /\
      (forall k, l_queues l' k = if existsb (String.eqb k) names then tl (q k) else q k) /\
      l_async l' = tl (l_async l ++ w_async w)
  end.
Proof. intros St xs handler fuel. exact (iteration_spec (build xs) handler fuel (build_nodup xs)). Qed.
Print Assumptions C38_round.

(* A message that has n others before it on its socket is the first one after n rounds. *)
Theorem C38_fair : forall St xs (handler : nat -> msg -> St -> list msg * (fault + St)) fuel k s x n ws l acts l',
  socket_named k xs = Some s -> nth_error (l_queues l k) n = Some x -> length ws = n ->
  loop St (build xs) handler fuel ws l = (acts, inr l') -> exists rest, l_queues l' k = x :: rest.
Proof. exact @turn_comes. Qed.
Print Assumptions C38_fair.

(* The broker: however messages arrive, the loop is a run of the broker. Every message a client or a
   worker sends is handled, once and in order, or is still waiting; every round ends with one timer message;
   every output goes to its socket, and to the notifier if it has none. *)
Theorem C38_broker : forall o cfg k fuel ws tr0 l, run o cfg k tr0 (l_states l 0) -> l_async l = [] -> (forall w, In w ws -> w_async w = []) ->
  exists acts r, loop state broker_tables (broker_handlers o cfg) (S fuel) ws l = (acts, r) /\
  match r with
  | inr l' => exists tr, run o cfg k (tr0 ++ tr) (l_states l' 0) /\ acts = flat_map event_actions tr /\ l_async l' = [] /\
      Forall (fun e => In (m_key (ev_in e)) ["clients"; "workers"; "timer"]) tr /\
      (forall key, In key ["clients"; "workers"] ->
        inputs_on key tr ++ named_msgs key (l_queues l' key) = named_msgs key (l_queues l key ++ arrived_on key ws)) /\
      inputs_on "timer" tr = map timer_msg ws
  | inl e => exists tr s m outs f, e = Threw f /\ run o cfg k (tr0 ++ tr) s /\ crashes o cfg s m outs f /\
      acts = flat_map event_actions tr ++ ACall 0 m :: flat_map broker_route outs /\
      ((exists w, In w ws /\ m = timer_msg w) \/
       exists key, In key ["clients"; "workers"] /\ In m (named_msgs key (l_queues l key ++ arrived_on key ws)))
  end.
Proof. exact broker_loop. Qed.
Print Assumptions C38_broker.

(* The tables of the broker are those of broker_connect; the loop starts in the initial state. *)
Theorem C38_broker_setup : forall o cfg k, build broker_setup = broker_tables /\ run o cfg k [] (l_states (broker_start (empty_manager k)) 0).
Proof. exact broker_begins. Qed.
Print Assumptions C38_broker_setup.

(* C40. Equal arrivals and equal waiting times, rounded down to milliseconds: equal behaviour. *)
Theorem C40_depends : forall St t (handler : nat -> msg -> St -> list msg * (fault + St)) fuel ws ws' l,
  map w_arrived ws = map w_arrived ws' -> map w_async ws = map w_async ws' -> counted ws = counted ws' ->
  loop St t handler fuel ws l = loop St t handler fuel ws' l.
Proof. exact @loop_depends. Qed.
Print Assumptions C40_depends.

(* A worker is kept while the time counted since it was heard is short enough. *)
Theorem C40_kept : forall o cfg k fuel tr1 e l ws acts l' w, run o cfg k (tr1 ++ [e]) (l_states l 0) -> hears w e ->
  l_async l = [] -> (forall x, In x ws -> w_async x = []) ->
  loop state broker_tables (broker_handlers o cfg) (S fuel) ws l = (acts, inr l') ->
  Forall (fun z => 0 <= z /\ in_i64 z = true)%Z (counted ws) -> (1 <= c_max_liveness cfg)%N ->
  (sum (counted ws) < Z.of_N (c_max_liveness cfg) * (c_ping_interval cfg + 1))%Z ->
  In w (s_reg (l_states l' 0)).
Proof. exact kept. Qed.
Print Assumptions C40_kept.

(* A worker of which nothing arrives is removed once the time counted is long enough. *)
Theorem C40_removed : forall o cfg k fuel tr1 e l ws acts l' w d, run o cfg k (tr1 ++ [e]) (l_states l 0) -> hears w e ->
  l_async l = [] -> (forall x, In x ws -> w_async x = []) ->
  (forall i m, In (i, m) (l_queues l "workers" ++ arrived_on "workers" ws) -> i <> w_identity w) ->
  loop state broker_tables (broker_handlers o cfg) (S fuel) ws l = (acts, inr l') ->
  Forall (fun z => 0 <= z <= d)%Z (counted ws) -> (0 <= d)%Z -> in_i64 d = true ->
  (0 <= c_ping_interval cfg)%Z -> (1 <= c_max_liveness cfg)%N ->
  (Z.of_N (c_max_liveness cfg - 1) * (c_ping_interval cfg + d) + c_ping_interval cfg < sum (counted ws))%Z ->
  ~ In w (s_reg (l_states l' 0)).
Proof. exact removed. Qed.
Print Assumptions C40_removed.

(* For every duration, in nanoseconds, and every configuration: a worker sends nothing for longer than that,
   while a client asks for the statistics in every round, and the worker stays registered. *)
Theorem C40_uncounted : forall o cfg, (0 <= c_ping_interval cfg)%Z -> forall k fuel D, exists first ws,
  clock_ok 0 (first ++ ws) /\ (D <= clock_end 0 (first ++ ws) - clock_end 0 first)%Z /\
  Forall (fun w => w_arrived w = [("clients", ("C", ["get-runtime-stats"]))] /\ w_async w = []) ws /\
  exists w, w_identity w = "A" /\ forall ws1 ws2, ws = ws1 ++ ws2 -> exists acts l',
    loop state broker_tables (broker_handlers o cfg) (S fuel) (first ++ ws1) (broker_start (empty_manager k)) = (acts, inr l') /\
    In w (s_reg (l_states l' 0)).
Proof. exact uncounted. Qed.
Print Assumptions C40_uncounted.

(* ---- examples ---- *)

(* two handlers of one key, one of them subscribed twice; the second socket "b" is never used *)
Definition two : list setup :=
  [AddSocket "b" 7; AddSocket "a" 3; AddHandler ["x"; "b"] (Sync 0); AddSocket "b" 9; AddHandler ["x"; "y"; "x"] (Async 5)].
Definition two_handler (h : nat) (m : msg) (s : nat) : list msg * (fault + nat) :=
  ([Msg "a" "i" ["1"]; Msg "y" "" [m_ident m]], inr (s + length (m_data m))).

Example C38_example_tables : socket_named "b" two = Some 7 /\ subscribers "x" two = [Sync 0; Async 5; Async 5] /\
  map fst (t_sockets (build two)) = ["a"; "b"].
Proof. repeat split; reflexivity. Qed.

Example C38_example_process :
  fst (process_message nat (build two) two_handler (send_message nat (build two) two_handler 1) [] (Msg "x" "j" ["p"; "q"]) (fun _ => 0)) =
  [ACall 0 (Msg "x" "j" ["p"; "q"]); ASend 3 (Msg "a" "i" ["1"]); APass 5 (Msg "y" "" ["j"]);
   APass 5 (Msg "x" "j" ["p"; "q"]); APass 5 (Msg "x" "j" ["p"; "q"])].
Proof. reflexivity. Qed.

(* one message of each socket per round, in the order of names; then the timer *)
Example C38_example_round :
  fst (loop nat (build (two ++ [AddHandler ["timer"; "a"] (Sync 1)])) (fun h m s => ([], inr s)) 1
    [mkWait [("b", ("1", [])); ("b", ("2", [])); ("a", ("3", ["z"]))] [Msg "b" "4" ["t"]] 0 2999999; mkWait [] [] 5000000 5000000]
    (mkLoop (fun _ => 0) (fun _ => []) [])) =
  [ACall 1 (Msg "a" "3" ["z"]); ACall 0 (Msg "b" "1" []); ASend 7 (Msg "b" "4" ["t"]); ACall 1 (Msg "timer" "" ["2"]);
   ACall 0 (Msg "b" "2" []); ACall 1 (Msg "timer" "" ["0"])].
Proof. vm_compute. reflexivity. Qed.

(* a worker registers, a client submits: the job goes out on the workers' socket in the second round *)
Example C38_example_broker :
  fst (loop state broker_tables (broker_handlers demo_oracle demo_cfg) 1
    [mkWait [("workers", ("A", ["init"; "g"])); ("monitor", ("M", ["?"]))] [] 0 0;
     mkWait [("clients", ("C", ["eval"; "j1"; "hwgroup=g"; ""; "body"]))] [] 0 1000000] (broker_start (empty_manager KMulti))) =
  [ACall 0 (from_worker "A" ["init"; "g"]); ACall 0 (tick "0");
   ACall 0 (from_client "C" ["eval"; "j1"; "hwgroup=g"; ""; "body"]);
   ASend 1 (Msg "clients" "C" ["ack"]); ASend 0 (Msg "workers" "A" ["eval"; "j1"; "body"]); ASend 1 (Msg "clients" "C" ["accept"]);
   ACall 0 (tick "1")].
Proof. vm_compute. reflexivity. Qed.

(* removed in the second round of more than the interval of 1000 ms; kept for 100 rounds of 999999 ns *)
Definition long_wait : wait := mkWait [] [] 0 1001000000.
Definition after (ws : list wait) : list string :=
  match snd (loop state broker_tables (broker_handlers demo_oracle demo_cfg) 1 ([intro_wait; ping_wait] ++ ws) (broker_start (empty_manager KMulti))) with
  | inr l => map w_identity (s_reg (l_states l 0))
  | inl _ => ["stopped"]
  end.
Example C40_example : after [long_wait] = ["A"] /\ after [long_wait; long_wait] = [] /\ after (map busy_wait (seq 0 100)) = ["A"].
Proof. vm_compute. auto. Qed.
