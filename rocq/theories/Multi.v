(* src/queuing/multi_queue_manager.h / .cpp *)
From Verif Require Import Base Containers Worker.

(* struct enqueue_result, src/queuing/queue_manager_interface.h:13-23 *)
Record enqueue_result : Type := mkEnq { assigned_to : option worker; enqueued : bool }.

(* Members, src/queuing/multi_queue_manager.h:13-15. A null request_ptr is None. *)
Record multi : Type := mkMulti {
  mq_queues : pmap (list request);          (* front of the std::queue first *)
  mq_current : pmap (option request);
  mq_order : list worker }.                 (* worker_queue_ *)

Definition multi_init : multi := mkMulti [] [] [].

(* add_worker, multi_queue_manager.cpp:3-9 *)
Definition multi_add_worker (w : worker) (cur : option request) (q : multi) : option request * multi :=
  (None, mkMulti (pm_emplace w [] (mq_queues q)) (pm_emplace w cur (mq_current q)) (w :: mq_order q)).

(* std::list::remove(w) *)
Definition list_remove (w : worker) (l : list worker) : list worker :=
  filter (fun w' => negb (same_worker w' w)) l.

(* worker_terminated, multi_queue_manager.cpp:11-29. The while loop moves the whole queue. *)
Definition multi_worker_terminated (w : worker) (q : multi) : list request * multi :=
  let '(cur, current1) := pm_index None w (mq_current q) in
  let '(queued, queues1) := pm_index [] w (mq_queues q) in
  let result := match cur with Some r => [r] | None => [] end ++ queued in
  (result, mkMulti (pm_erase w queues1) (pm_erase w current1) (list_remove w (mq_order q))).

(* first capable worker in worker_queue_, multi_queue_manager.cpp:36-44 *)
Fixpoint multi_select (headers : mmap string) (ws : list worker) : res (option worker) :=
  match ws with
  | [] => Val None
  | w :: t => let? b := check_headers w headers in if b then Val (Some w) else multi_select headers t
  end.

(* enqueue_request, multi_queue_manager.cpp:31-65 *)
Definition multi_enqueue (r : request) (q : multi) : res (enqueue_result * multi) :=
  let? sel := multi_select (r_headers r) (mq_order q) in
  match sel with
  | None => Val (mkEnq None false, q)
  | Some w =>
      let order := list_remove w (mq_order q) ++ [w] in
      let '(cur, current1) := pm_index None w (mq_current q) in
      match cur with
      | None => Val (mkEnq (Some w) true, mkMulti (mq_queues q) (pm_set w (Some r) current1) order)
      | Some _ =>
          let '(queued, queues1) := pm_index [] w (mq_queues q) in
          Val (mkEnq None true, mkMulti (pm_set w (queued ++ [r]) queues1) current1 order)
      end
  end.

(* the common tail of worker_finished (71-79) and assign_request (89-97) *)
Definition multi_take (w : worker) (q : multi) : option request * multi :=
  let '(queued, queues1) := pm_index [] w (mq_queues q) in
  match queued with
  | [] => (None, mkMulti queues1 (mq_current q) (mq_order q))
  | r :: rest => (Some r, mkMulti (pm_set w rest queues1) (pm_set w (Some r) (mq_current q)) (mq_order q))
  end.

(* worker_finished, multi_queue_manager.cpp:67-80 *)
Definition multi_worker_finished (w : worker) (q : multi) : option request * multi :=
  multi_take w (mkMulti (mq_queues q) (pm_set w None (mq_current q)) (mq_order q)).

(* get_current_request, multi_queue_manager.cpp:82-85 *)
Definition multi_get_current (w : worker) (q : multi) : option request * multi :=
  let '(cur, current1) := pm_index None w (mq_current q) in
  (cur, mkMulti (mq_queues q) current1 (mq_order q)).

(* assign_request, multi_queue_manager.cpp:87-98 *)
Definition multi_assign (w : worker) (q : multi) : option request * multi := multi_take w q.

(* worker_cancelled, multi_queue_manager.cpp:100-105 *)
Definition multi_worker_cancelled (w : worker) (q : multi) : option request * multi :=
  let '(cur, current1) := pm_index None w (mq_current q) in
  (cur, mkMulti (mq_queues q) (pm_set w None current1) (mq_order q)).

(* get_queued_request_count, multi_queue_manager.cpp:107-116 *)
Definition multi_queued_count (q : multi) : nat :=
  fold_left (fun acc p => acc + length (snd p)) (mq_queues q) 0.
