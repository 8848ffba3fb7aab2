(* The way back: an asynchronous handler's thread answers through its DEALER socket
   (asynchronous_handler_wrapper::send_response, src/reactor/reactor.cpp:214-222), the reactor's thread reads the answers
   from the ROUTER socket (reactor.cpp:97-112). Reactor.v takes it from there (serve_async). *)
From Verif Require Import Base Wire.
Local Open Scope string_scope.
Local Open Scope list_scope.

(* The sending half of a DEALER socket with one connection (libzmq, not in this repository): frames are collected up to the
   first one without MORE, which completes the message. If the connection takes no more messages, the sender waits. *)
Definition dealer : Type := list string.
Definition dealer_send (f : frame) (d : dealer) : list (list string) * dealer :=
  if f_more f then ([], d ++ [f_bytes f]) else ([d ++ [f_bytes f]], []).
Fixpoint dealer_send_all (fs : list frame) (d : dealer) : list (list string) * dealer :=
  match fs with
  | [] => ([], d)
  | f :: t => let '(a, d1) := dealer_send f d in
              let '(b, d2) := dealer_send_all t d1 in (a ++ b, d2)
  end.

(* send_response, reactor.cpp:214-222 *)
Definition response_frames (m : msg) : list frame :=
  Frame (m_key m) true :: Frame (m_ident m) true :: data_frames (m_data m).

(* The receiving half of a ROUTER socket (libzmq): a message of peer id comes out as a frame with its
   identity followed by its frames. *)
Definition incoming (id : string) (frames : list string) : list frame := data_frames (id :: frames).

(* reactor.cpp:97-112 on the frames the socket holds: identity (which the code ignores; kept here for the statements), key
   and identity frame are read without looking at MORE, then frames as long as there are more. None: the call blocks. *)
Definition read_response (fs : list frame) : option (string * msg * list frame) :=
  match fs with
  | id :: key :: ident :: t =>
      match receive_data (f_more ident) t with
      | Some (data, rest) => Some (f_bytes id, Msg (f_bytes key) (f_bytes ident) data, rest)
      | None => None
      end
  | _ => None
  end.

(* For each handler, by the identity of its socket: the begun message, the complete ones on their way; and what the ROUTER
   socket will give the reactor next. *)
Record replies : Type := mkReplies { rp_begun : string -> dealer; rp_pipe : string -> list (list string); rp_in : list frame }.
Definition at_ {A} (id : string) (x : A) (f : string -> A) : string -> A := fun i => if String.eqb i id then x else f i.

(* Steps of the threads and the socket. Respond: send_response in the thread of handler id. Choose: the ROUTER socket, which
   takes from its peers as it likes, takes the next message of id. Read: the reactor's thread reads; without a
   complete message it blocks. *)
Inductive reply_step : Type := Respond (id : string) (m : msg) | Choose (id : string) | Read.
Definition reply (e : reply_step) (r : replies) : option (list (string * msg) * replies) :=
  match e with
  | Respond id m =>
      let '(sent, begun) := dealer_send_all (response_frames m) (rp_begun r id) in
      Some ([], mkReplies (at_ id begun (rp_begun r)) (at_ id (rp_pipe r id ++ sent) (rp_pipe r)) (rp_in r))
  | Choose id =>
      match rp_pipe r id with
      | [] => None
      | x :: rest => Some ([], mkReplies (rp_begun r) (at_ id rest (rp_pipe r)) (rp_in r ++ incoming id x))
      end
  | Read =>
      match read_response (rp_in r) with
      | Some (id, m, rest) => Some ([(id, m)], mkReplies (rp_begun r) (rp_pipe r) rest)
      | None => None
      end
  end.
(* what the reactor has read, oldest first, with the handler it came from *)
Fixpoint replies_all (es : list reply_step) (r : replies) : option (list (string * msg) * replies) :=
  match es with
  | [] => Some ([], r)
  | e :: t => match reply e r with
              | None => None
              | Some (a, r1) => match replies_all t r1 with Some (b, r2) => Some (a ++ b, r2) | None => None end
              end
  end.
Definition no_replies : replies := mkReplies (fun _ => []) (fun _ => []) [].
