(* The system of SpecSystem.v with the ROUTER socket between the broker and its workers: what the broker sends
   is cut into frames and arrives as the socket delivers it (Wire.v). All workers are connected, and
   can take messages, at all times. *)
From Verif Require Import Base Bytes Containers Worker Multi Single Queue Handler Wire SpecText Spec SpecRun SpecMsg SpecFatal SpecWire SpecSystem.
Local Open Scope string_scope.
Local Open Scope list_scope.

Definition to_workers (outs : list msg) : list ((string -> bool) * msg) :=
  map (fun m => (fun _ => true, m)) (filter (fun m => String.eqb (m_key m) "workers") outs).
Definition arrive (ds : list delivery) (ns : nodes) : nodes :=
  fun x => mkNode (n_proc (ns x)) (n_inbox (ns x) ++ arrives_at x ds) (n_outbox (ns x)).

Section Wired.
Context (o : oracle) (cfg : config) (k : kind) (cards : string -> card).
Context (ok : state -> state -> nodes -> Prop).
Inductive wired : list event -> state -> nodes -> router -> Prop :=
| wi_start : wired [] (init_state (empty_manager k)) (fun _ => mkNode Off [] []) None
| wi_work : forall tr s ns r i n, wired tr s ns r -> work (ns i) n -> wired tr s (put i n ns) r
| wi_read : forall tr s ns r i m out outs s' ds r', wired tr s ns r -> n_outbox (ns i) = m :: out ->
    on_request o cfg (Msg "workers" i (frames (cards i) m)) s = (outs, inr (tt, s')) -> send_messages (to_workers outs) r = (ds, r') ->
    wired (tr ++ [mkEvent s (Msg "workers" i (frames (cards i) m)) outs s']) s' (arrive ds (taken i out ns)) r'
| wi_other : forall tr s ns r m outs s' ds r', wired tr s ns r -> m_key m <> "workers" -> benign s m ->
    on_request o cfg m s = (outs, inr (tt, s')) -> ok s s' ns -> send_messages (to_workers outs) r = (ds, r') ->
    wired (tr ++ [mkEvent s m outs s']) s' (arrive ds ns) r'.
End Wired.

(* a restriction on when workers are given up that depends only on what every worker does and has on its way *)
Definition local_restriction (ok : state -> state -> nodes -> Prop) : Prop :=
  forall s s' ns ns', (forall i, ns i = ns' i) -> ok s s' ns -> ok s s' ns'.
