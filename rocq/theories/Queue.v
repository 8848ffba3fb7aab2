(* queue_manager_interface (src/queuing/queue_manager_interface.h:25-90): dynamic dispatch to one of
   the two implementations chosen in broker_core::broker_init (src/broker_core.cpp:132-140). *)
From Verif Require Import Base Containers Worker Multi Single.

Inductive manager : Type :=
| QSingle (q : single)
| QMulti (q : multi).

Definition lift_single {A} (x : res (A * single)) : res (A * manager) :=
  let? p := x in Val (fst p, QSingle (snd p)).
Definition lift_multi {A} (x : A * multi) : res (A * manager) := Val (fst x, QMulti (snd x)).

Section WithOracle.
Context (o : oracle).

Definition q_add_worker (w : worker) (cur : option request) (m : manager) : res (option request * manager) :=
  match m with
  | QSingle q => lift_single (single_add_worker o w cur q)
  | QMulti q => lift_multi (multi_add_worker w cur q)
  end.
Definition q_assign_request (w : worker) (m : manager) : res (option request * manager) :=
  match m with
  | QSingle q => lift_single (single_assign o w q)
  | QMulti q => lift_multi (multi_assign w q)
  end.
Definition q_worker_terminated (w : worker) (m : manager) : res (list request * manager) :=
  match m with
  | QSingle q => lift_single (single_worker_terminated w q)
  | QMulti q => lift_multi (multi_worker_terminated w q)
  end.
Definition q_enqueue_request (r : request) (m : manager) : res (enqueue_result * manager) :=
  match m with
  | QSingle q => lift_single (single_enqueue o r q)
  | QMulti q => let? p := multi_enqueue r q in lift_multi p
  end.
Definition q_queued_count (m : manager) : nat :=
  match m with QSingle q => single_queued_count q | QMulti q => multi_queued_count q end.
Definition q_get_current (w : worker) (m : manager) : res (option request * manager) :=
  match m with
  | QSingle q => lift_single (Val (single_get_current w q))
  | QMulti q => lift_multi (multi_get_current w q)
  end.
Definition q_worker_finished (w : worker) (m : manager) : res (option request * manager) :=
  match m with
  | QSingle q => lift_single (single_worker_finished o w q)
  | QMulti q => lift_multi (multi_worker_finished w q)
  end.
Definition q_worker_cancelled (w : worker) (m : manager) : res (option request * manager) :=
  match m with
  | QSingle q => lift_single (Val (single_worker_cancelled w q))
  | QMulti q => lift_multi (multi_worker_cancelled w q)
  end.

End WithOracle.
