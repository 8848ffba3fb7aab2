(* src/reactor/reactor.cpp: the tables of the reactor and its loop; src/broker_connect.cpp: the tables
   of the broker *)
From Verif Require Import Base Bytes Containers Worker Multi Single Queue Handler.
Local Open Scope string_scope.
Local Open Scope list_scope.

(* handler_wrapper / asynchronous_handler_wrapper, by number *)
Inductive wrapper : Type := Sync (h : nat) | Async (a : nat).

(* sockets_ and handlers_, reactor.h:176-181; sockets by number *)
Record tables : Type := mkTables { t_sockets : smap nat; t_handlers : mmap wrapper }.

(* add_socket, reactor.cpp:14-17 *)
Definition add_socket (name : string) (socket : nat) (t : tables) : tables :=
  mkTables (sm_emplace name socket (t_sockets t)) (t_handlers t).
(* add_handler, add_async_handler, reactor.cpp:19-35 *)
Definition add_handler (origins : list string) (w : wrapper) (t : tables) : tables :=
  mkTables (t_sockets t) (fold_left (fun hs o => mm_emplace o w hs) origins (t_handlers t)).

(* What the reactor does: calls a synchronous handler, gives a message to a socket, or to the
   asynchronous wrapper (Async.v) *)
Inductive action : Type :=
| ACall (h : nat) (m : msg)
| ASend (socket : nat) (m : msg)
| APass (a : nat) (m : msg).

(* How start_loop can end early. Threw: an exception or undefined behaviour in a handler. TooDeep: the
   chain of responses is longer than the fuel. Reentered: a handler is called while it is running; the
   model does not cover this (the broker never does it, PropReactor.C38_broker). *)
Inductive stop : Type := Threw (f : fault) | TooDeep | Reentered.

Section Loop.
Variable St : Type.
Variable t : tables.
(* on_request of handler h: the messages given to its response callback, in order, and its end. Because
   a running handler is not called again, its state matters only before and after. *)
Variable handler : nat -> msg -> St -> list msg * (fault + St).

Definition states : Type := nat -> St.
Definition set_state (h : nat) (s : St) (ss : states) : states := fun n => if Nat.eqb n h then s else ss n.
Definition outcome : Type := list action * (stop + states).
Definition andthen (x : outcome) (k : states -> outcome) : outcome :=
  match x with
  | (a, inl e) => (a, inl e)
  | (a, inr ss) => let '(b, r) := k ss in (a ++ b, r)
  end.

Section WithSend.
Variable send : list nat -> msg -> states -> outcome.   (* reactor::send_message *)

Fixpoint respond_all (active : list nat) (ms : list msg) (ss : states) : outcome :=
  match ms with
  | [] => ([], inr ss)
  | m :: rest => andthen (send active m ss) (respond_all active rest)
  end.

(* handler_wrapper::operator(), reactor.cpp:142-145; asynchronous: the message goes to the other thread *)
Definition call (active : list nat) (w : wrapper) (m : msg) (ss : states) : outcome :=
  match w with
  | Async a => ([APass a m], inr ss)
  | Sync h =>
      if existsb (Nat.eqb h) active then ([], inl Reentered)
      else
        let '(outs, r) := handler h m (ss h) in
        andthen ([ACall h m], inr ss) (fun ss =>
        andthen (respond_all (h :: active) outs ss) (fun ss =>
        match r with
        | inl f => ([], inl (Threw f))
        | inr s => ([], inr (set_state h s ss))
        end))
  end.

(* process_message, reactor.cpp:49-56 *)
Fixpoint call_all (active : list nat) (ws : list wrapper) (m : msg) (ss : states) : outcome :=
  match ws with
  | [] => ([], inr ss)
  | w :: rest => andthen (call active w m ss) (call_all active rest m)
  end.
Definition process_message (active : list nat) (m : msg) (ss : states) : outcome :=
  call_all active (mm_equal_range (m_key m) (t_handlers t)) m ss.
End WithSend.

(* send_message, reactor.cpp:37-47 *)
Fixpoint send_message (fuel : nat) (active : list nat) (m : msg) (ss : states) : outcome :=
  match fuel with
  | O => ([], inl TooDeep)
  | S fuel =>
      match sm_find (m_key m) (t_sockets t) with
      | Some socket => ([ASend socket m], inr ss)
      | None => process_message (send_message fuel) active m ss
      end
  end.

(* What waits on the sockets (by key; identity and data of each message) and on the socket of the
   asynchronous handlers. *)
Record loop_state : Type := mkLoop {
  l_states : states;
  l_queues : string -> list (string * list string);
  l_async : list msg }.

(* One call of poll: what has arrived since the last one, and the clock before and after (nanoseconds,
   std::chrono::system_clock of libstdc++). Poll marks exactly the sockets that have a message. Receiving
   a message that is there neither blocks nor fails. *)
Record wait : Type := mkWait {
  w_arrived : list (string * (string * list string));
  w_async : list msg;
  w_before : Z;
  w_after : Z }.

Definition arrive (q : string -> list (string * list string)) (x : string * (string * list string)) :=
  fun k => if String.eqb k (fst x) then q k ++ [snd x] else q k.
Definition nonempty {A} (l : list A) : bool := match l with [] => false | _ :: _ => true end.
(* duration_cast<milliseconds>: towards zero *)
Definition elapsed_ms (w : wait) : Z := Z.quot (w_after w - w_before w) 1000000.

Variable fuel : nat.

(* the sockets' part of the loop over pollitems, reactor.cpp:84-95; items: name, marked by poll *)
Fixpoint serve_sockets (items : list (string * bool)) (l : loop_state) : list action * (stop + loop_state) :=
  match items with
  | [] => ([], inr l)
  | (name, marked) :: rest =>
      match marked, l_queues l name with
      | true, (ident, data) :: q =>
          match process_message (send_message fuel) [] (Msg name ident data) (l_states l) with
          | (a, inl e) => (a, inl e)
          | (a, inr ss) =>
              let '(b, r) := serve_sockets rest
                (mkLoop ss (fun k => if String.eqb k name then q else l_queues l k) (l_async l)) in
              (a ++ b, r)
          end
      | _, _ => serve_sockets rest l
      end
  end.

(* reactor.cpp:96-118 *)
Definition serve_async (marked : bool) (l : loop_state) : list action * (stop + loop_state) :=
  match marked, l_async l with
  | true, m :: q =>
      match send_message fuel [] m (l_states l) with
      | (a, inl e) => (a, inl e)
      | (a, inr ss) => (a, inr (mkLoop ss (l_queues l) q))
      end
  | _, _ => ([], inr l)
  end.

(* reactor.cpp:121-125 *)
Definition serve_timer (w : wait) (l : loop_state) : list action * (stop + loop_state) :=
  match process_message (send_message fuel) [] (Msg KEY_TIMER "" [to_string_Z (elapsed_ms w)]) (l_states l) with
  | (a, inl e) => (a, inl e)
  | (a, inr ss) => (a, inr (mkLoop ss (l_queues l) (l_async l)))
  end.

(* one round of the loop, reactor.cpp:75-126 *)
Definition iteration (w : wait) (l : loop_state) : list action * (stop + loop_state) :=
  let l := mkLoop (l_states l) (fold_left arrive (w_arrived w) (l_queues l)) (l_async l ++ w_async w) in
  let items := map (fun s => (fst s, nonempty (l_queues l (fst s)))) (t_sockets t) in
  match serve_sockets items l with
  | (a, inl e) => (a, inl e)
  | (a, inr l1) =>
      match serve_async (nonempty (l_async l)) l1 with
      | (b, inl e) => (a ++ b, inl e)
      | (b, inr l2) => let '(c, r) := serve_timer w l2 in (a ++ b ++ c, r)
      end
  end.

(* start_loop, reactor.cpp:58-128, until the termination flag is set: one wait per round *)
Fixpoint loop (ws : list wait) (l : loop_state) : list action * (stop + loop_state) :=
  match ws with
  | [] => ([], inr l)
  | w :: rest =>
      match iteration w l with
      | (a, inl e) => (a, inl e)
      | (a, inr l1) => let '(b, r) := loop rest l1 in (a ++ b, r)
      end
  end.
End Loop.

Arguments mkLoop {St}.
Arguments l_states {St}.
Arguments l_queues {St}.
Arguments l_async {St}.

(* broker_connect::broker_connect, broker_connect.cpp:34-41. Sockets 0 workers, 1 clients, 2 monitor;
   handler 0 is the broker_handler, wrapper 0 runs the status_notifier_handler. *)
Definition broker_tables : tables :=
  add_handler [KEY_STATUS_NOTIFIER] (Async 0)
    (add_handler [KEY_CLIENTS; KEY_WORKERS; KEY_TIMER] (Sync 0)
      (add_socket KEY_MONITOR 2 (add_socket KEY_CLIENTS 1 (add_socket KEY_WORKERS 0 (mkTables [] []))))).
Definition broker_handlers (o : oracle) (cfg : config) (h : nat) (m : msg) (s : state) : list msg * (fault + state) :=
  match on_request o cfg m s with
  | (outs, inl f) => (outs, inl f)
  | (outs, inr (_, s')) => (outs, inr s')
  end.
Definition broker_start (m : manager) : loop_state state := mkLoop (fun _ => init_state m) (fun _ => []) [].
