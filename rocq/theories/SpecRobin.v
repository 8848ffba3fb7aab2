(* Vocabulary for how the multi queue manager shares requests between workers. *)
From Verif Require Import Base Bytes Containers Worker Multi Single Queue Handler SpecText Spec SpecRun SpecMsg SpecQueue SpecWait.
Local Open Scope string_scope.
Local Open Scope list_scope.

(* in event e worker w gives back the job it runs: finished, failed or to be tried again *)
Definition gives_back (w : worker) (e : event) : bool :=
  (credited "OK" e || credited "FAILED" e || credited "INTERNAL_ERROR" e) && by_worker w e.

(* between s1 and s2, with the events tr in between, w gets n requests to run or to keep for later *)
Definition gets (w : worker) (s1 : state) (tr : list event) (s2 : state) (n : nat) : Prop :=
  length (owned (s_queue s2) w) + list_count (gives_back w) tr = length (owned (s_queue s1) w) + n.

(* the broker holds nothing but announced jobs and requests that w could run *)
Definition can_run_all (w : worker) (s : state) : Prop :=
  forall r, In r (held (s_queue s)) -> r_complete r = true -> fits w r.
