(* The broker together with its workers: messages between them take time but stay in order, and every
   worker follows the protocol. Environment, not code of the repository; used to state what the
   broker guarantees to a system of this kind. *)
From Verif Require Import Base Bytes Containers Worker Multi Single Queue Handler SpecText Spec SpecRun SpecMsg SpecFatal.
Local Open Scope string_scope.
Local Open Scope list_scope.

(* what a worker declares about itself *)
Record card : Type := mkCard { c_hwgroup : string; c_hdrs : list string; c_desc : string }.
Definition proper (c : card) : Prop :=
  ~ In "" (c_hdrs c) /\ forall f v, In f (c_hdrs c) -> header_frame f "threads" v -> exists n, denotes v n.

(* what a worker says to the broker *)
Inductive verdict : Type := VOk | VFailed (text : string) | VError (text : string).
Inductive saying : Type :=
| Hello (job : option string)              (* here I am; the job I am working on *)
| Ping
| Progress (frames : list string)
| Done (job : string) (v : verdict).
Definition verdict_frames (v : verdict) : list string :=
  match v with VOk => ["OK"] | VFailed t => ["FAILED"; t] | VError t => ["INTERNAL_ERROR"; t] end.
Definition frames (c : card) (m : saying) : list string :=
  match m with
  | Hello job => "init" :: c_hwgroup c :: c_hdrs c ++ "" :: ("description=" ++ c_desc c)%string ::
                 match job with Some j => [("current_job=" ++ j)%string] | None => [] end
  | Ping => ["ping"]
  | Progress fr => "progress" :: fr
  | Done j v => "done" :: j :: verdict_frames v
  end.

(* a worker: not started, or started and working on a job or on nothing; the messages on their way to
   it and those on their way from it, oldest first *)
Inductive proc : Type := Off | On (job : option string).
Record node : Type := mkNode { n_proc : proc; n_inbox : list (list string); n_outbox : list saying }.

(* what a worker does: it introduces itself when it starts and whenever asked to, stating truthfully what
   it is working on; starts working on a job it is given; reports the end of its job once *)
Inductive work : node -> node -> Prop :=
| wk_start : forall inb out, work (mkNode Off inb out) (mkNode (On None) inb (out ++ [Hello None]))
| wk_ping : forall job inb out, work (mkNode (On job) inb out) (mkNode (On job) inb (out ++ [Ping]))
| wk_progress : forall job fr inb out, work (mkNode (On job) inb out) (mkNode (On job) inb (out ++ [Progress fr]))
| wk_done : forall j v inb out, work (mkNode (On (Some j)) inb out) (mkNode (On None) inb (out ++ [Done j v]))
| wk_eval : forall job j payload inb out,
    work (mkNode (On job) (("eval" :: j :: payload) :: inb) out) (mkNode (On (Some j)) inb out)
| wk_intro : forall job inb out, work (mkNode (On job) (["intro"] :: inb) out) (mkNode (On job) inb (out ++ [Hello job]))
| wk_other : forall job m inb out, (forall j payload, m <> "eval" :: j :: payload) -> m <> ["intro"] ->
    work (mkNode (On job) (m :: inb) out) (mkNode (On job) inb out).

Definition nodes : Type := string -> node.
Definition put (i : string) (n : node) (ns : nodes) : nodes := fun x => if String.eqb x i then n else ns x.
(* The messages the broker sends go to the inboxes of the workers. This is what should happen; what the socket
   between them does to messages without frames is in SpecWired.v (C57). *)
Definition mail (i : string) (outs : list msg) : list (list string) :=
  map m_data (filter (fun m => String.eqb (m_key m) "workers" && String.eqb (m_ident m) i) outs).
Definition deliver (outs : list msg) (ns : nodes) : nodes :=
  fun x => mkNode (n_proc (ns x)) (n_inbox (ns x) ++ mail x outs) (n_outbox (ns x)).
(* the oldest message of worker i has left its outbox *)
Definition taken (i : string) (out : list saying) (ns : nodes) : nodes :=
  put i (mkNode (n_proc (ns i)) (n_inbox (ns i)) out) ns.

(* the states of the whole system that can be reached: tr is the history of the broker. Messages of
   clients and the timer are arbitrary but harmless in themselves (C23), and must satisfy ok. *)
Section System.
Context (o : oracle) (cfg : config) (k : kind) (cards : string -> card).
Context (ok : state -> state -> nodes -> Prop).
Inductive system : list event -> state -> nodes -> Prop :=
| sy_start : system [] (init_state (empty_manager k)) (fun _ => mkNode Off [] [])
| sy_work : forall tr s ns i n, system tr s ns -> work (ns i) n -> system tr s (put i n ns)
| sy_read : forall tr s ns i m out outs s', system tr s ns -> n_outbox (ns i) = m :: out ->
    on_request o cfg (Msg "workers" i (frames (cards i) m)) s = (outs, inr (tt, s')) ->
    system (tr ++ [mkEvent s (Msg "workers" i (frames (cards i) m)) outs s']) s' (deliver outs (taken i out ns))
| sy_other : forall tr s ns m outs s', system tr s ns -> m_key m <> "workers" -> benign s m ->
    on_request o cfg m s = (outs, inr (tt, s')) -> ok s s' ns ->
    system (tr ++ [mkEvent s m outs s']) s' (deliver outs ns).
End System.

(* a worker is given up only while no request to introduce itself is on the way to it, and no
   introduction on the way from it *)
Definition settled (s s' : state) (ns : nodes) : Prop :=
  forall w, In w (s_reg s) -> ~ In w (s_reg s') ->
    ~ In ["intro"] (n_inbox (ns (w_identity w))) /\ forall job, ~ In (Hello job) (n_outbox (ns (w_identity w))).
(* no restriction *)
Definition anytime (s s' : state) (ns : nodes) : Prop := True.
