(* Vocabulary for saying that a job is what its headers require, and a worker what its headers offer, and not how they are
   written: the same messages with the headers of every job in another order, repeated, and with other metadata, and with
   the headers of every worker in another order. *)
From Verif Require Import Base Bytes Containers Worker Multi Single Queue Handler SpecText Spec SpecRun SpecMsg SpecOutcome.
Local Open Scope string_scope.
Local Open Scope list_scope.

(* two lists of header frames require the same *)
Definition same_wants (need need' : list string) : Prop := forall h v, requires need h v <-> requires need' h v.
(* every thread count in them is a number *)
Definition counted (need : list string) : Prop := forall v, requires need "threads" v -> exists n, denotes v n.

(* a message received: only eval and init messages differ, and those only in the headers. Those of a worker give the same
   values, in the same order, for every name; what follows them is the same. *)
Inductive reworded : msg -> msg -> Prop :=
| rw_same : forall m, reworded m m
| rw_eval : forall i job frames frames' need need' payload, header_block frames need payload -> header_block frames' need' payload ->
    same_wants need need' -> counted need ->
    reworded (Msg "clients" i ("eval" :: job :: frames)) (Msg "clients" i ("eval" :: job :: frames'))
| rw_init : forall i hw hdrs hdrs' rest, same_headers hdrs hdrs' -> ~ In "" hdrs -> ~ In "" hdrs' -> hd_error rest = Some "" \/ rest = [] ->
    reworded (Msg "workers" i ("init" :: hw :: hdrs ++ rest)) (Msg "workers" i ("init" :: hw :: hdrs' ++ rest)).

(* a message sent: the headers come back in the text of a refusal, and nowhere else *)
Inductive retold : msg -> msg -> Prop :=
| rt_same : forall m, retold m m
| rt_refusal : forall i need need' text text', same_wants need need' -> enumerates need text -> enumerates need' text' ->
    retold (Msg "clients" i ["reject"; ("No worker available for given headers: " ++ text)%string])
           (Msg "clients" i ["reject"; ("No worker available for given headers: " ++ text')%string]).

(* in states s and s' the same messages are fatal, with the same fault and the same messages sent before it *)
Definition fatal_alike (o o' : oracle) (cfg : config) (s s' : state) : Prop :=
  forall m m' outs f, reworded m m' -> (crashes o cfg s m outs f <-> crashes o' cfg s' m' outs f).
