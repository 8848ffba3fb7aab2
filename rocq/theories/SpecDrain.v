(* What can be said of the broker and its workers from end to end (C55, C56). *)
From Verif Require Import Base Bytes Containers Worker Multi Single Queue Handler SpecText Spec SpecRun SpecMsg SpecFatal SpecSystem.
Local Open Scope string_scope.
Local Open Scope list_scope.

(* a client has submitted job j with this payload, the broker accepted it, and worker card c offers all
   the job requires *)
Definition ordered_job (tr : list event) (c : card) (j : string) (payload : list string) : Prop :=
  exists sub need, In sub tr /\ submitted sub j need payload /\ forall h v, requires need h v -> offers (c_hwgroup c) (c_hdrs c) h v.
(* what a worker says about a job *)
Definition mentions (m : saying) (j : string) : Prop :=
  match m with Hello (Some j') => j' = j | Done j' _ => j' = j | _ => False end.

(* a continuation in which workers work and the broker reads what they say, without clients and timer *)
Section Serves.
Context (o : oracle) (cfg : config) (cards : string -> card).
Inductive serves : list event -> state -> nodes -> list event -> state -> nodes -> Prop :=
| se_stop : forall tr s ns, serves tr s ns tr s ns
| se_work : forall tr s ns i n tr' s' ns', work (ns i) n -> serves tr s (put i n ns) tr' s' ns' -> serves tr s ns tr' s' ns'
| se_read : forall tr s ns i m out outs s1 tr' s' ns', n_outbox (ns i) = m :: out ->
    on_request o cfg (Msg "workers" i (frames (cards i) m)) s = (outs, inr (tt, s1)) ->
    serves (tr ++ [mkEvent s (Msg "workers" i (frames (cards i) m)) outs s1]) s1 (deliver outs (taken i out ns)) tr' s' ns' ->
    serves tr s ns tr' s' ns'.
End Serves.

(* no worker has reported an internal error about its current job, and no such report is on its way *)
Definition calm (tr : list event) (ns : nodes) : Prop :=
  (forall e, In e tr -> credited "INTERNAL_ERROR" e = false) /\ forall i j t, ~ In (Done j (VError t)) (n_outbox (ns i)).
