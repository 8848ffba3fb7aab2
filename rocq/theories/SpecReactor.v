(* The reactor, specified independently of its tables and loop. *)
From Coq Require Import Sorted.
From Verif Require Import Base Bytes Containers Worker Multi Single Queue Handler Spec Reactor.
Local Open Scope string_scope.
Local Open Scope list_scope.

(* ---- building the tables ---- *)

Inductive setup : Type := AddSocket (name : string) (socket : nat) | AddHandler (origins : list string) (w : wrapper).
Definition do_setup (t : tables) (x : setup) : tables :=
  match x with AddSocket name s => add_socket name s t | AddHandler origins w => add_handler origins w t end.
Definition build (xs : list setup) : tables := fold_left do_setup xs (mkTables [] []).

(* the first socket added under a name *)
Fixpoint socket_named (k : string) (xs : list setup) : option nat :=
  match xs with
  | [] => None
  | AddSocket name s :: rest => if String.eqb name k then Some s else socket_named k rest
  | AddHandler _ _ :: rest => socket_named k rest
  end.
(* the handlers subscribed to a key, in order of subscription; once per subscription *)
Definition subscribers (k : string) (xs : list setup) : list wrapper :=
  flat_map (fun x => match x with
                     | AddSocket _ _ => []
                     | AddHandler origins w => map (fun _ => w) (filter (String.eqb k) origins)
                     end) xs.

(* ---- one message ---- *)

(* a message whose key has a socket, or only asynchronous subscribers *)
Definition leaf (xs : list setup) (m : msg) : Prop :=
  socket_named (m_key m) xs <> None \/ forall w, In w (subscribers (m_key m) xs) -> exists a, w = Async a.
Definition route (xs : list setup) (m : msg) : list action :=
  match socket_named (m_key m) xs with
  | Some s => [ASend s m]
  | None => flat_map (fun w => match w with Async a => [APass a m] | Sync _ => [] end) (subscribers (m_key m) xs)
  end.

(* Message m handled by the wrappers ws one after the other; what a handler answers is routed before the
   next one is called. *)
Inductive handled {St} (handler : nat -> msg -> St -> list msg * (fault + St)) (xs : list setup) (m : msg)
  : list wrapper -> (nat -> St) -> list action -> stop + (nat -> St) -> Prop :=
| h_done : forall ss, handled handler xs m [] ss [] (inr ss)
| h_async : forall a ws ss acts r, handled handler xs m ws ss acts r ->
    handled handler xs m (Async a :: ws) ss (APass a m :: acts) r
| h_sync : forall h ws ss outs s acts r, handler h m (ss h) = (outs, inr s) ->
    handled handler xs m ws (fun n => if Nat.eqb n h then s else ss n) acts r ->
    handled handler xs m (Sync h :: ws) ss (ACall h m :: flat_map (route xs) outs ++ acts) r
| h_throw : forall h ws ss outs f, handler h m (ss h) = (outs, inl f) ->
    handled handler xs m (Sync h :: ws) ss (ACall h m :: flat_map (route xs) outs) (inl (Threw f)).

(* ---- one round ---- *)

Inductive job : Type := Process (m : msg) | Forward (m : msg).
(* what a round has to do: the first message of every socket that has one, in the order of names; the
   first message of the asynchronous handlers; the timer *)
Definition jobs_of (names : list string) (queues : string -> list (string * list string)) (async : list msg) (ms : Z) : list job :=
  flat_map (fun n => match queues n with (i, d) :: _ => [Process (Msg n i d)] | [] => [] end) names ++
  match async with m :: _ => [Forward m] | [] => [] end ++
  [Process (Msg "timer" "" [to_string_Z ms])].

(* doing them one after the other, up to the first one that does not return *)
Fixpoint perform {St} (process forward : msg -> (nat -> St) -> list action * (stop + (nat -> St))) (js : list job)
    (ss : nat -> St) : list action * (stop + (nat -> St)) :=
  match js with
  | [] => ([], inr ss)
  | j :: rest =>
      match (match j with Process m => process m ss | Forward m => forward m ss end) with
      | (a, inl e) => (a, inl e)
      | (a, inr ss1) => let '(b, r) := perform process forward rest ss1 in (a ++ b, r)
      end
  end.

(* the messages that have arrived on socket k *)
Definition arrived_on (k : string) (ws : list wait) : list (string * list string) :=
  flat_map (fun w => map snd (filter (fun x => String.eqb (fst x) k) (w_arrived w))) ws.

(* ---- the broker in the reactor ---- *)

Definition broker_setup : list setup :=
  [AddSocket "workers" 0; AddSocket "clients" 1; AddSocket "monitor" 2;
   AddHandler ["clients"; "workers"; "timer"] (Sync 0); AddHandler ["status_notifier"] (Async 0)].
Definition broker_route (m : msg) : list action :=
  if String.eqb (m_key m) "workers" then [ASend 0 m]
  else if String.eqb (m_key m) "clients" then [ASend 1 m]
  else if String.eqb (m_key m) "monitor" then [ASend 2 m]
  else [APass 0 m].
(* the actions of the reactor for one processed message *)
Definition event_actions (e : event) : list action := ACall 0 (ev_in e) :: flat_map broker_route (ev_out e).
(* the messages that arrived on socket k, as the handler gets them *)
Definition named_msgs (k : string) (q : list (string * list string)) : list msg := map (fun x => Msg k (fst x) (snd x)) q.
Definition timer_msg (w : wait) : msg := Msg "timer" "" [to_string_Z ((w_after w - w_before w) ÷ 1000000)%Z].
(* the messages of a run that came with key k *)
Definition inputs_on (k : string) (tr : list event) : list msg := filter (fun m => String.eqb (m_key m) k) (map ev_in tr).

(* the messages passed to wrapper a *)
Definition passed_on (a : nat) (acts : list action) : list msg :=
  flat_map (fun x => match x with APass i m => if Nat.eqb i a then [m] else [] | _ => [] end) acts.

(* ---- time ---- *)

(* the clock never goes back: neither during a poll nor between two *)
Fixpoint clock_ok (t : Z) (ws : list wait) : Prop :=
  match ws with
  | [] => True
  | w :: rest => (t <= w_before w <= w_after w)%Z /\ clock_ok (w_after w) rest
  end.
(* the time of the last poll; t if there is none *)
Definition clock_end (t : Z) (ws : list wait) : Z := last (map w_after ws) t.
(* the time spent in poll, each wait rounded down to milliseconds *)
Definition counted (ws : list wait) : list Z := map (fun w => (w_after w - w_before w) ÷ 1000000)%Z ws.
