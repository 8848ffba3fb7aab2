(* The broker and its workers left to themselves (C58). *)
From Verif Require Import Base Bytes Containers Worker Multi Single Queue Handler SpecText Spec SpecRun SpecMsg SpecFatal SpecSystem.
Local Open Scope string_scope.
Local Open Scope list_scope.

(* what a worker has to do sooner or later: see to the messages it was sent, and end its job, in whatever way *)
Inductive duty : node -> node -> Prop :=
| du_done : forall j v inb out, duty (mkNode (On (Some j)) inb out) (mkNode (On None) inb (out ++ [Done j v]))
| du_eval : forall job j payload inb out,
    duty (mkNode (On job) (("eval" :: j :: payload) :: inb) out) (mkNode (On (Some j)) inb out)
| du_intro : forall job inb out, duty (mkNode (On job) (["intro"] :: inb) out) (mkNode (On job) inb (out ++ [Hello job]))
| du_other : forall job m inb out, (forall j payload, m <> "eval" :: j :: payload) -> m <> ["intro"] ->
    duty (mkNode (On job) (m :: inb) out) (mkNode (On job) inb out).
(* what a worker may do at any time *)
Inductive chat : node -> node -> Prop :=
| ch_ping : forall job inb out, chat (mkNode (On job) inb out) (mkNode (On job) inb (out ++ [Ping]))
| ch_progress : forall job fr inb out, chat (mkNode (On job) inb out) (mkNode (On job) inb (out ++ [Progress fr])).

(* a continuation without clients and timer and without workers that start: the workers do their duty and
   the broker reads what they say, in any order; n such steps, and c times a worker has chatted *)
Section Carries.
Context (o : oracle) (cfg : config) (cards : string -> card).
Inductive carries : nat -> nat -> list event -> state -> nodes -> list event -> state -> nodes -> Prop :=
| ca_stop : forall tr s ns, carries 0 0 tr s ns tr s ns
| ca_duty : forall n c tr s ns i nd tr' s' ns', duty (ns i) nd -> carries n c tr s (put i nd ns) tr' s' ns' -> carries (S n) c tr s ns tr' s' ns'
| ca_chat : forall n c tr s ns i nd tr' s' ns', chat (ns i) nd -> carries n c tr s (put i nd ns) tr' s' ns' -> carries n (S c) tr s ns tr' s' ns'
| ca_read : forall n c tr s ns i m out outs s1 tr' s' ns', n_outbox (ns i) = m :: out ->
    on_request o cfg (Msg "workers" i (frames (cards i) m)) s = (outs, inr (tt, s1)) ->
    carries n c (tr ++ [mkEvent s (Msg "workers" i (frames (cards i) m)) outs s1]) s1 (deliver outs (taken i out ns)) tr' s' ns' ->
    carries (S n) c tr s ns tr' s' ns'.
End Carries.

(* no worker has anything to do, nor the broker anything to read *)
Definition at_rest (ns : nodes) : Prop := forall i, (forall nd, ~ duty (ns i) nd) /\ n_outbox (ns i) = [].
