(* Vocabulary for the queue managers on their own: what a worker offers, and valid uses of the
   interface. *)
From Coq Require Import Permutation.
From Verif Require Import Base Bytes Containers Worker Multi Single Queue SpecText Handler Spec SpecRun SpecMsg.
Local Open Scope string_scope.
Local Open Scope list_scope.

(* a worker as the constructor makes it, possibly given a description *)
Definition constructed (w : worker) : Prop :=
  exists wid addr ident hw hs w0 d, make_worker wid addr ident hw hs = Val w0 /\ w = set_description d w0.

(* worker w meets the requirement h = v *)
Inductive meets (w : worker) : string -> string -> Prop :=
| me_hwgroup : forall v, In (w_hwgroup w) (alternatives v) -> meets w "hwgroup" v
| me_threads : forall d v n m, In ("threads", d) (w_headers_copy w) -> denotes d n -> denotes v m -> (m <= n)%N ->
    meets w "threads" v
| me_other : forall h v, In (h, v) (w_headers_copy w) -> h <> "threads" -> meets w h v.

(* worker w can run request r *)
Definition fits (w : worker) (r : request) : Prop := forall h v, In (h, v) (r_headers r) -> meets w h v.

(* every thread count the request asks for is a number *)
Definition numeric (r : request) : Prop := forall v, In ("threads", v) (r_headers r) -> exists n, denotes v n.

Section WithOracle.
Context (o : oracle).

(* given log m ws: m is reached from an empty manager by interface calls, in any order and number, that
   respect the following; ws are the workers added and not terminated, oldest first, and log those of
   them that were given a request by enqueue_request, in order.
   Workers are added once, with no current request or one that is not complete; enqueued requests are
   complete; assign_request is only called for an idle worker; the other calls are for known workers. *)
Inductive given : list worker -> manager -> list worker -> Prop :=
| gi_empty : forall k, given [] (empty_manager k) []
| gi_add : forall log m ws w cur x m', given log m ws -> constructed w -> (forall w', In w' ws -> w_id w' <> w_id w) ->
    (forall r, cur = Some r -> r_complete r = false) ->
    q_add_worker o w cur m = Val (x, m') -> given log m' (ws ++ [w])
| gi_assign : forall log m ws w x m', given log m ws -> In w ws -> current_of m w = None ->
    q_assign_request o w m = Val (x, m') -> given log m' ws
| gi_terminated : forall log m ws w x m', given log m ws -> In w ws ->
    q_worker_terminated w m = Val (x, m') -> given (list_remove w log) m' (list_remove w ws)
| gi_enqueue_to : forall log m ws r x m' w, given log m ws -> r_complete r = true ->
    q_enqueue_request o r m = Val (x, m') -> In w ws -> Permutation (owned m' w) (r :: owned m w) ->
    given (log ++ [w]) m' ws
| gi_enqueue : forall log m ws r x m', given log m ws -> r_complete r = true ->
    q_enqueue_request o r m = Val (x, m') -> (forall w, In w ws -> owned m' w = owned m w) ->
    given log m' ws
| gi_current : forall log m ws w x m', given log m ws -> In w ws -> q_get_current w m = Val (x, m') -> given log m' ws
| gi_finished : forall log m ws w x m', given log m ws -> In w ws -> q_worker_finished o w m = Val (x, m') -> given log m' ws
| gi_cancelled : forall log m ws w x m', given log m ws -> In w ws -> q_worker_cancelled w m = Val (x, m') -> given log m' ws.

(* m is reached by a valid use of the interface, with workers ws *)
Definition used (m : manager) (ws : list worker) : Prop := exists log, given log m ws.

End WithOracle.

(* the workers other than w have the current requests they had, and w has x *)
Definition now_has (m m' : manager) (w : worker) (x : option request) : Prop :=
  current_of m' w = x /\ forall w', w_id w' <> w_id w -> current_of m' w' = current_of m w'.

(* a request handed out to w was queued and w fits it; the others stay queued *)
Definition handed_out (m m' : manager) (w : worker) (x : option request) : Prop :=
  Permutation (queued m) (olist x ++ queued m') /\ forall r, x = Some r -> fits w r.

(* a worker that asks for its next request *)
Inductive asks (o : oracle) (m : manager) (ws : list worker) (w : worker) (x : option request) (m' : manager) : Prop :=
| as_assign : In w ws -> current_of m w = None -> q_assign_request o w m = Val (x, m') -> asks o m ws w x m'
| as_finished : In w ws -> q_worker_finished o w m = Val (x, m') -> asks o m ws w x m'
| as_added : constructed w -> (forall w', In w' ws -> w_id w' <> w_id w) -> q_add_worker o w None m = Val (x, m') ->
    asks o m ws w x m'.

(* since w was last given a request, w' has been given one; true if w has never been given one *)
Definition longer_ago (log : list worker) (w w' : worker) : Prop :=
  forall l1 l2, log = l1 ++ w :: l2 -> ~ In w l2 -> In w' l2.

(* successive enqueue_request calls from m to m', with the requests and the workers that were given them *)
Inductive enqueues (o : oracle) (ws : list worker) : manager -> list (request * worker) -> manager -> Prop :=
| en_nil : forall m, enqueues o ws m [] m
| en_cons : forall m r x m1 w rest m', q_enqueue_request o r m = Val (x, m1) ->
    In w ws -> Permutation (owned m1 w) (r :: owned m w) ->
    enqueues o ws m1 rest m' -> enqueues o ws m ((r, w) :: rest) m'.

(* request r has been in the queue since time t *)
Definition waiting_since (m : manager) (r : request) (t : Z) : Prop :=
  match m with QSingle q => In (mkEntry r t) (sq_jobs q) | QMulti _ => False end.

(* request r waits in a queue that worker w takes its requests from, and w can run it *)
Definition waits_for (m : manager) (r : request) (w : worker) : Prop :=
  match m with
  | QSingle _ => In r (queued m) /\ fits w r
  | QMulti _ => In r (own_queue m w)
  end.

(* the same requests wait, in the same places *)
Definition still_wait (m m' : manager) : Prop :=
  queued m' = queued m /\ (forall w, own_queue m' w = own_queue m w) /\ forall r t, waiting_since m' r t <-> waiting_since m r t.

(* r waits, too: at the end of the single queue, or at the end of the queue of one busy worker that fits it *)
Definition lines_up (m m' : manager) (r : request) : Prop :=
  Permutation (queued m') (r :: queued m) /\
  match m with
  | QSingle _ => queued m' = queued m ++ [r] /\ exists t, forall r' t', waiting_since m' r' t' <-> waiting_since m r' t' \/ r' = r /\ t' = t
  | QMulti _ => exists w, fits w r /\ current_of m w <> None /\ own_queue m' w = own_queue m w ++ [r] /\
                  forall w', w_id w' <> w_id w -> own_queue m' w' = own_queue m w'
  end.

(* the requests `gone` wait no more, the others wait as before, w has no queue any more *)
Definition leave (m m' : manager) (w : worker) (gone : list request) : Prop :=
  Permutation (queued m) (gone ++ queued m') /\ (forall w', w_id w' <> w_id w -> own_queue m' w' = own_queue m w') /\
  forall r t, waiting_since m r t <-> waiting_since m' r t \/ waiting_since m r t /\ In r gone.

(* w has nothing to do although a request waits for it *)
Definition starves (m : manager) (w : worker) : Prop := current_of m w = None /\ exists r, waits_for m r w.

(* w reported INTERNAL_ERROR for its current request and has been idle ever since *)
Definition idle_after_error (tr : list event) (w : worker) : Prop :=
  exists tr1 e tr2, tr = tr1 ++ e :: tr2 /\ credited "INTERNAL_ERROR" e = true /\
    sender (m_ident (ev_in e)) (ev_pre e) = Some w /\
    forall e', In e' (e :: tr2) -> current_of (s_queue (ev_post e')) w = None.

(* l1 is obtained from l2 by leaving out elements *)
Inductive subseq {A} : list A -> list A -> Prop :=
| ss_nil : forall l, subseq [] l
| ss_take : forall a l1 l2, subseq l1 l2 -> subseq (a :: l1) (a :: l2)
| ss_skip : forall a l1 l2, subseq l1 l2 -> subseq l1 (a :: l2).

(* the message that hands request r to worker w *)
Definition handover (w : worker) (r : request) : msg := Msg "workers" (w_identity w) (r_frames r).
