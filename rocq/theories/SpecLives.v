(* The broker may be stopped and started again while its workers go on (C63). Each life of the broker begins
   with nothing: the broker keeps all it knows in memory. *)
From Verif Require Import Base Bytes Containers Worker Multi Single Queue Handler SpecText Spec SpecRun SpecMsg SpecFatal SpecQueue SpecSystem.
Local Open Scope string_scope.
Local Open Scope list_scope.

(* What becomes of a worker when the broker is started again, s being the last state of the old one. A worker that the old
   broker did not know finds everything as it was. Of the messages on the way to and from the others, any may be lost; neither
   a request to introduce itself nor an introduction may be among those on the way. A worker may also have been stopped. *)
Definition outlives (s : state) (i : string) (n n' : node) : Prop :=
  (sender i s = None /\ n' = n) \/
  n' = mkNode Off [] [] \/
  (~ In ["intro"] (n_inbox n) /\ (forall job, ~ In (Hello job) (n_outbox n)) /\
   n_proc n' = n_proc n /\ subseq (n_inbox n') (n_inbox n) /\ subseq (n_outbox n') (n_outbox n)).
(* without the condition on what is on the way *)
Definition outlives_anyhow (s : state) (i : string) (n n' : node) : Prop := n' = n.

(* The states of the system that can be reached in some life of the broker: past is what happened in the earlier lives, tr in
   this one. The configuration, the choice of the queue manager, the addresses and the clock may differ from life to life. *)
Section Lives.
Context (cards : string -> card) (passes : state -> string -> node -> node -> Prop).
Inductive lives : oracle -> config -> kind -> list event -> list event -> state -> nodes -> Prop :=
| li_start : forall o cfg k, lives o cfg k [] [] (init_state (empty_manager k)) (fun _ => mkNode Off [] [])
| li_work : forall o cfg k past tr s ns i n, lives o cfg k past tr s ns -> work (ns i) n -> lives o cfg k past tr s (put i n ns)
| li_read : forall o cfg k past tr s ns i m out outs s', lives o cfg k past tr s ns -> n_outbox (ns i) = m :: out ->
    on_request o cfg (Msg "workers" i (frames (cards i) m)) s = (outs, inr (tt, s')) ->
    lives o cfg k past (tr ++ [mkEvent s (Msg "workers" i (frames (cards i) m)) outs s']) s' (deliver outs (taken i out ns))
| li_other : forall o cfg k past tr s ns m outs s', lives o cfg k past tr s ns -> m_key m <> "workers" -> benign s m ->
    on_request o cfg m s = (outs, inr (tt, s')) -> settled s s' ns ->
    lives o cfg k past (tr ++ [mkEvent s m outs s']) s' (deliver outs ns)
| li_again : forall o cfg k past tr s ns o' cfg' k' ns', lives o cfg k past tr s ns -> (forall i, passes s i (ns i) (ns' i)) ->
    lives o' cfg' k' (past ++ tr) [] (init_state (empty_manager k')) ns'.
End Lives.

(* the message to the frontend about job j, which worker and broker agree has ended with verdict v, if the broker has not
   seen the job's submission *)
Definition final_report (j : string) (v : verdict) : msg :=
  Msg "status_notifier" "" (["type"; "job-status"; "id"; j; "status"] ++
    match v with
    | VOk => ["OK"]
    | VFailed t => ["FAILED"; "message"; t]
    | VError t => ["FAILED"; "message"; ("Job failed with '" ++ t ++ "' and cannot be reassigned")%string]
    end).
(* what is sent to the frontend *)
Definition notices (tr : list event) : list msg := filter (fun m => String.eqb (m_key m) "status_notifier") (flat_map ev_out tr).
