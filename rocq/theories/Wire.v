(* src/reactor/router_socket_wrapper.cpp, and the ROUTER socket it drives *)
From Verif Require Import Base.
Local Open Scope string_scope.
Local Open Scope list_scope.

(* a frame on its way to or from a socket, with its MORE flag *)
Record frame : Type := Frame { f_bytes : string; f_more : bool }.

(* The sending half of a ROUTER socket without ZMQ_ROUTER_MANDATORY (libzmq, not in this repository).
   Between messages (None), the next frame names the addressee; without MORE it is ignored. Inside a
   message, the frames up to the first one without MORE are the message. A message for a peer that is
   not connected, or cannot take more, is dropped; `can` says which peers can take a message.
   Sending never fails and never blocks. *)
Definition router : Type := option (option string * list string).
Definition router_send (can : string -> bool) (f : frame) (r : router) : list (string * list string) * router :=
  match r with
  | None =>
      if f_more f then ([], Some (if can (f_bytes f) then Some (f_bytes f) else None, []))
      else ([], None)
  | Some (to, sofar) =>
      if f_more f then ([], Some (to, sofar ++ [f_bytes f]))
      else (match to with Some i => [(i, sofar ++ [f_bytes f])] | None => [] end, None)
  end.
Fixpoint router_send_all (can : string -> bool) (fs : list frame) (r : router) : list (string * list string) * router :=
  match fs with
  | [] => ([], r)
  | f :: t => let '(d1, r1) := router_send can f r in
              let '(d2, r2) := router_send_all can t r1 in (d1 ++ d2, r2)
  end.

(* the loop of router_socket_wrapper.cpp:19-25: MORE on all frames but the last *)
Fixpoint data_frames (d : list string) : list frame :=
  match d with
  | [] => []
  | x :: t => Frame x (match t with [] => false | _ :: _ => true end) :: data_frames t
  end.

(* router_socket_wrapper::send_message, router_socket_wrapper.cpp:9-28. Peers come and go only between
   calls. The result `true` is not used by any caller. *)
Definition message_frames (m : msg) : list frame := Frame (m_ident m) true :: data_frames (m_data m).
Definition send_message (can : string -> bool) (m : msg) (r : router) : list (string * list string) * router :=
  router_send_all can (message_frames m) r.

(* messages sent one after the other, each with the peers that can take it then *)
Fixpoint send_messages (ms : list ((string -> bool) * msg)) (r : router) : list (string * list string) * router :=
  match ms with
  | [] => ([], r)
  | (can, m) :: t => let '(d1, r1) := send_message can m r in
                     let '(d2, r2) := send_messages t r1 in (d1 ++ d2, r2)
  end.

(* router_socket_wrapper::receive_message, router_socket_wrapper.cpp:30-54, on the frames the socket
   holds. None: the call blocks. The key is filled in by the caller (reactor.cpp:91). *)
Fixpoint receive_data (more : bool) (fs : list frame) : option (list string * list frame) :=
  if more then
    match fs with
    | [] => None
    | f :: t => match receive_data (f_more f) t with
                | Some (d, rest) => Some (f_bytes f :: d, rest)
                | None => None
                end
    end
  else Some ([], fs).
Definition receive_message (key : string) (fs : list frame) : option (msg * list frame) :=
  match fs with
  | [] => None
  | f :: t => match receive_data (f_more f) t with
              | Some (d, rest) => Some (Msg key (f_bytes f) d, rest)
              | None => None
              end
  end.
Fixpoint receive_messages (key : string) (n : nat) (fs : list frame) : option (list msg * list frame) :=
  match n with
  | O => Some ([], fs)
  | S n => match receive_message key fs with
           | Some (m, rest) => match receive_messages key n rest with
                               | Some (ms, rest') => Some (m :: ms, rest')
                               | None => None
                               end
           | None => None
           end
  end.
