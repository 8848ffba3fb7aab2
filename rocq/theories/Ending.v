(* How objects end when an exception leaves broker_core::run, or when it returns: src/main.cpp and the
   destructors of broker_core, broker_connect, reactor and asynchronous_handler_wrapper. *)
From Verif Require Import Base Bytes Containers Worker Multi Single Queue Handler Spec Reactor Config Logger Startup.
Local Open Scope string_scope.
Local Open Scope list_scope.

(* C++: the body of the destructor is executed, then the members are destroyed in the reverse order of
   their declaration; a shared_ptr destroys its object if it is the last one. Objects have names; a part is
   a member or a shared_ptr to the object of the name. *)
Inductive part : Type := Member (n : string) | Owner (n : string).
(* what a thread does besides: the termination message is sent, the thread is joined *)
Inductive deed : Type := Does (e : effect) | SendTerminate | JoinThread.
(* Uses: a member function of object n is called *)
Inductive order : Type := Deed (d : deed) | Uses (n : string).
Record class : Type := mkClass { d_body : list order; d_parts : list part }.

(* the objects that have ended, and how many shared_ptrs objects have *)
Record life : Type := mkLife { f_ended : list string; f_owners : string -> nat }.
(* Over n: object n was used after its end, the behaviour is undefined. Deep: not enough depth. *)
Inductive damage : Type := Over (n : string) | Deep.

Fixpoint execute (body : list order) (s : life) : list deed * option damage :=
  match body with
  | [] => ([], None)
  | Deed d :: rest => let '(ds, r) := execute rest s in (d :: ds, r)
  | Uses n :: rest => if existsb (String.eqb n) (f_ended s) then ([], Some (Over n)) else execute rest s
  end.
Fixpoint in_order (f : part -> life -> list deed * (damage + life)) (ps : list part) (s : life) : list deed * (damage + life) :=
  match ps with
  | [] => ([], inr s)
  | p :: rest =>
      match f p s with
      | (ds, inl e) => (ds, inl e)
      | (ds, inr s1) => let '(ds2, r) := in_order f rest s1 in (ds ++ ds2, r)
      end
  end.
Section Objects.
Context (classes : string -> class).
Fixpoint destroy (depth : nat) (n : string) (s : life) : list deed * (damage + life) :=
  match depth with
  | O => ([], inl Deep)
  | S depth =>
      match execute (d_body (classes n)) s with
      | (ds, Some e) => (ds, inl e)
      | (ds, None) =>
          let release p s := match p with
            | Member m => destroy depth m s
            | Owner m =>
                let s1 := mkLife (f_ended s) (fun i => if String.eqb i m then Nat.pred (f_owners s i) else f_owners s i) in
                if Nat.eqb (f_owners s1 m) 0 then destroy depth m s1 else ([], inr s1)
            end in
          let '(ds2, r) := in_order release (rev (d_parts (classes n))) s in
          (ds ++ ds2, match r with inl e => inl e | inr s2 => inr (mkLife (n :: f_ended s2) (f_owners s2)) end)
      end
  end.
End Objects.

(* asynchronous_handler_wrapper::~asynchronous_handler_wrapper, reactor.cpp:157-167 *)
Definition wrapper_end : list order :=
  [Uses "async_handler_socket_"; Uses "async_handler_socket_"; Deed SendTerminate; Deed JoinThread].
(* broker_core::~broker_core with curl_fini, broker_core.cpp:20-24, 155-161 *)
Definition core_end : list order :=
  [Uses "logger"; Deed (Does (Note LInfo "Cleanup after CURL...")); Deed (Does CurlCleanup);
   Uses "logger"; Deed (Does (Note LInfo "CURL cleaned."))].

(* The members as declared: broker_core.h:108-129, broker_connect.h:25-33, reactor.h:135-219, 43, 89-116,
   broker_handler.h:48-69, status_notifier_handler.h:42-47. Those of types whose destructors do nothing of
   interest have no parts. The elements of the containers sockets_ and handlers_, as filled by
   broker_connect.cpp:34-41, are given by their owners; the C++ standard does not say in which order a
   container destroys them. *)
Definition socket_owners : list part := [Owner "clients socket"; Owner "monitor socket"; Owner "workers socket"].
Definition handler_owners : list part :=
  [Owner "handler wrapper"; Owner "asynchronous wrapper"; Owner "handler wrapper"; Owner "handler wrapper"].
Definition broker_classes (handlers sockets : list part) (n : string) : class :=
  if String.eqb n "core" then mkClass core_end
    [Member "args_"; Member "config_filename_"; Owner "config"; Owner "logger"; Owner "registry"; Owner "queue"; Owner "context"; Owner "broker"]
  else if String.eqb n "broker" then mkClass []
    [Owner "config"; Owner "logger"; Owner "registry"; Owner "queue"; Member "reactor_"]
  else if String.eqb n "reactor_" then mkClass []
    [Member "unique_id"; Member "sockets_"; Member "handlers_"; Owner "context"; Member "async_handler_socket_"; Member "termination_flag_"]
  else if String.eqb n "sockets_" then mkClass [] sockets
  else if String.eqb n "handlers_" then mkClass [] handlers
  else if String.eqb n "handler wrapper" then mkClass [] [Owner "broker handler"]
  else if String.eqb n "asynchronous wrapper" then mkClass wrapper_end [Owner "notifier"; Member "worker_"; Member "unique_id_"]
  else if String.eqb n "broker handler" then mkClass []
    [Owner "config"; Owner "registry"; Owner "queue"; Owner "logger"; Member "worker_timers_"; Member "runtime_stats_"; Member "worker_commands_"; Member "client_commands_"]
  else if String.eqb n "notifier" then mkClass [] [Member "notifier config_"; Owner "logger"]
  else mkClass [] [].
(* who owns what while the loop runs *)
Definition owners (n : string) : nat :=
  if String.eqb n "config" then 3 else if String.eqb n "logger" then 4 else if String.eqb n "registry" then 3
  else if String.eqb n "queue" then 3 else if String.eqb n "context" then 2 else if String.eqb n "handler wrapper" then 3 else 1.
Definition serving_life : life := mkLife [] owners.

(* Unknown: not enough depth *)
Inductive ending : Type := Status (c : N) | Undefined (n : string) | Endless | Unknown.
(* main, main.cpp:7-19: the handler of catch runs after core is destroyed *)
Definition main_end (handlers sockets : list part) (r : life) (raised : bool) : list deed * ending :=
  match destroy (broker_classes handlers sockets) 8 "core" r with
  | (ds, inl (Over n)) => (ds, Undefined n)
  | (ds, inl Deep) => (ds, Unknown)
  | (ds, inr _) => if raised then (ds ++ [Does (Stderr "Something very bad happend!")], Status 1%N) else (ds, Status 0%N)
  end.

(* the whole process: process of Startup.v and how it ends. A fault of a handler that is undefined behaviour
   itself is treated like an exception. *)
Definition whole (handlers sockets : list part) (env : environment) (args : list string) (o : oracle) (fuel : nat) (ws : list wait)
  : list deed * ending :=
  match process env args o fuel ws with
  | (effs, Exited c) => (map Does effs, Status c)
  | (effs, Serving _) => (map Does effs, Endless)
  | (effs, Unwinding) => let '(ds, e) := main_end handlers sockets serving_life true in (map Does effs ++ ds, e)
  end.

(* What would happen if something called reactor::terminate: start_loop empties handlers_ (reactor.cpp:124),
   start_brokering and run go on (broker_connect.cpp:46-47, broker_core.cpp:29-31), core is destroyed. *)
Definition terminated (handlers sockets : list part) : list deed * ending :=
  match destroy (broker_classes handlers sockets) 8 "handlers_" serving_life with
  | (ds, inl (Over n)) => (ds, Undefined n)
  | (ds, inl Deep) => (ds, Unknown)
  | (ds, inr s) =>
      let '(ds2, e) := main_end [] sockets (mkLife (filter (fun n => negb (String.eqb n "handlers_")) (f_ended s)) (f_owners s)) false in
      (ds ++ [Does (Note LCritical "The main loop terminated"); Does (Note LInfo "Broker will now end.")] ++ ds2, e)
  end.
