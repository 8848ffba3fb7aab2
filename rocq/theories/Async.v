(* asynchronous_handler_wrapper, src/reactor/reactor.cpp:147-212: the reactor's thread writes to a ROUTER
   socket shared by all wrappers, the thread of each wrapper reads from a DEALER socket connected to it.
   The way back (send_response) is in Replies.v. *)
From Verif Require Import Base Wire.
Local Open Scope string_scope.
Local Open Scope list_scope.

(* TERMINATE_MSG, reactor.cpp:147 *)
Definition TERMINATE_MSG : string := "TERMINATE".

(* operator(), reactor.cpp:169-178; id is unique_id_ *)
Definition pass_frames (id : string) (m : msg) : list frame :=
  Frame id true :: Frame (m_key m) true :: Frame (m_ident m) true :: data_frames (m_data m).
(* the destructor up to the join, reactor.cpp:159-163 *)
Definition terminate_frames (id : string) : list frame := [Frame id true; Frame TERMINATE_MSG false].

(* One round of handler_thread, reactor.cpp:186-208, on the frames of the next message of its socket. A
   DEALER socket returns the frames of a message together. *)
Inductive taken : Type := Handle (m : msg) | Skip | Return.
Definition thread_round (frames : list string) : taken :=
  match frames with
  | [] => Skip
  | key :: rest =>
      if String.eqb key TERMINATE_MSG then Return
      else match rest with
           | [] => Skip
           | ident :: data => Handle (Msg key ident data)
           end
  end.

(* What the ROUTER socket knows of a wrapper: whether its thread has connected, the messages in between,
   whether the thread has returned. *)
Record peer : Type := mkPeer { p_known : bool; p_pipe : list (list string); p_returned : bool }.
Record channel : Type := mkChannel { ch_router : router; ch_peers : string -> peer }.
Definition set_peer (id : string) (p : peer) (ps : string -> peer) : string -> peer :=
  fun i => if String.eqb i id then p else ps i.

(* At most hwm messages fit in between: the sum of the two high water marks (libzmq). *)
Definition can_take (hwm : nat) (ch : channel) (id : string) : bool :=
  let p := ch_peers ch id in p_known p && negb (p_returned p) && Nat.ltb (length (p_pipe p)) hwm.
Definition deliver (ps : string -> peer) (d : string * list string) : string -> peer :=
  let p := ps (fst d) in set_peer (fst d) (mkPeer (p_known p) (p_pipe p ++ [snd d]) (p_returned p)) ps.
Definition send_frames (hwm : nat) (fs : list frame) (ch : channel) : channel :=
  let '(ds, r) := router_send_all (can_take hwm ch) fs (ch_router ch) in
  mkChannel r (fold_left deliver ds (ch_peers ch)).

(* Steps of the threads. Connect: the ROUTER socket gets to know the thread (reactor.cpp:182-184). Pass,
   Terminate: the reactor's thread. Take: a round of the handler's thread; without a message it waits. *)
Inductive step : Type := Connect (id : string) | Pass (id : string) (m : msg) | Terminate (id : string) | Take (id : string).

(* what the handlers' threads do: Some m: on_request is called; None: the thread returns, so that join
   (reactor.cpp:166) does *)
Definition exec_step (hwm : nat) (e : step) (ch : channel) : list (string * option msg) * channel :=
  match e with
  | Connect id =>
      let p := ch_peers ch id in
      ([], mkChannel (ch_router ch) (set_peer id (mkPeer (negb (p_returned p)) (p_pipe p) (p_returned p)) (ch_peers ch)))
  | Pass id m => ([], send_frames hwm (pass_frames id m) ch)
  | Terminate id => ([], send_frames hwm (terminate_frames id) ch)
  | Take id =>
      let p := ch_peers ch id in
      if p_returned p then ([], ch)
      else match p_pipe p with
           | [] => ([], ch)
           | frames :: rest =>
               let next returned := mkChannel (ch_router ch) (set_peer id (mkPeer (p_known p) rest returned) (ch_peers ch)) in
               match thread_round frames with
               | Handle m => ([(id, Some m)], next false)
               | Skip => ([], next false)
               | Return => ([(id, None)], next true)
               end
           end
  end.
Fixpoint exec_steps (hwm : nat) (es : list step) (ch : channel) : list (string * option msg) * channel :=
  match es with
  | [] => ([], ch)
  | e :: rest => let '(a, ch1) := exec_step hwm e ch in
                 let '(b, ch2) := exec_steps hwm rest ch1 in (a ++ b, ch2)
  end.
Definition new_channel : channel := mkChannel None (fun _ => mkPeer false [] false).
