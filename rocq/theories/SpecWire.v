(* What a ROUTER socket should deliver, message by message. *)
From Verif Require Import Base Handler Wire Spec.
Local Open Scope string_scope.
Local Open Scope list_scope.

(* a message as it arrives at a peer: the peer and the frames *)
Definition delivery : Type := (string * list string)%type.

(* the ideal: each message that can be taken is delivered to its addressee, with its frames *)
Fixpoint ideal (ms : list ((string -> bool) * msg)) : list delivery :=
  match ms with
  | [] => []
  | (can, m) :: t => (if can (m_ident m) then [(m_ident m, m_data m)] else []) ++ ideal t
  end.

(* what arrives at peer i *)
Definition arrives_at (i : string) (ds : list delivery) : list (list string) :=
  map snd (filter (fun d => String.eqb (fst d) i) ds).

(* What really happens, with all peers connected, to messages of which some have no data frames: a
   message without frames swallows the identities of the following messages, up to and including the
   first message with frames, and the whole goes to the addressee of the first message. *)
Inductive glued : list msg -> list delivery -> Prop :=
| gl_end : forall es, (forall m, In m es -> m_data m = []) -> glued es []
| gl_block : forall es m ms i is ds, (forall x, In x es -> m_data x = []) -> m_data m <> [] ->
    map m_ident (es ++ [m]) = i :: is -> glued ms ds ->
    glued (es ++ m :: ms) ((i, is ++ m_data m) :: ds).

(* a multipart message as a receiver sees it: MORE on all frames but the last *)
Inductive multipart : list string -> list frame -> Prop :=
| mp_last : forall x, multipart [x] [Frame x false]
| mp_more : forall x l fs, multipart l fs -> multipart (x :: l) (Frame x true :: fs).
(* such messages one after the other, each preceded by the identity of its sender *)
Inductive incoming : list msg -> list frame -> Prop :=
| ic_none : incoming [] []
| ic_msg : forall m ms fs gs, multipart (m_ident m :: m_data m) fs -> incoming ms gs -> incoming (m :: ms) (fs ++ gs).

(* the messages sent on one socket in a history *)
Definition sent_on (key : string) (tr : list event) : list msg :=
  filter (fun m => String.eqb (m_key m) key) (flat_map ev_out tr).
(* each message together with the peers that can take one at that moment *)
Definition paired (cans : list (string -> bool)) (ms : list msg) : list ((string -> bool) * msg) := combine cans ms.
