(* src/queuing/single_queue_manager.h with its default comparator and selector, which is what
   broker_core instantiates (src/broker_core.cpp:136-137). *)
From Verif Require Import Base Containers Worker Multi.

(* What the environment decides and the code cannot influence. All theorems quantify over it.
   o_addr k   : address of the k-th worker object ever allocated
   o_clock k  : k-th reading of std::chrono::system_clock::now(), in milliseconds
   o_tie k r  : how the k-th std::sort call orders entries with equal arrival times (std::sort is
                not stable): among equals, the entry of request number r with smaller rank first *)
Record oracle : Type := mkOracle {
  o_addr : nat -> N;
  o_clock : nat -> Z;
  o_tie : nat -> nat -> N }.

(* struct request_entry, single_queue_manager.h:12-15 *)
Record entry : Type := mkEntry { e_request : request; e_arrived : Z }.

(* Members, single_queue_manager.h:44-46; the last two count clock readings and sorts so far and
   exist only to index the oracle. *)
Record single : Type := mkSingle {
  sq_jobs : list entry;
  sq_worker_jobs : pmap (option request);
  sq_workers : list worker;
  sq_clock : nat;
  sq_sorts : nat }.

Definition single_init : single := mkSingle [] [] [] 0 0.

(* std::sort with fcfs_job_comparator (17-22, 93-95): some permutation ordered by arrival time; the
   order among equal times is given by the rank function. *)
Definition entry_le (tie : nat -> N) (a b : entry) : bool :=
  Z.ltb (e_arrived a) (e_arrived b) ||
  (Z.eqb (e_arrived a) (e_arrived b) && N.leb (tie (r_id (e_request a))) (tie (r_id (e_request b)))).
Fixpoint sort_insert (tie : nat -> N) (e : entry) (l : list entry) : list entry :=
  match l with
  | [] => [e]
  | x :: t => if entry_le tie e x then e :: x :: t else x :: sort_insert tie e t
  end.
Fixpoint sort_entries (tie : nat -> N) (l : list entry) : list entry :=
  match l with
  | [] => []
  | e :: t => sort_insert tie e (sort_entries tie t)
  end.

(* is_request_assignable, 53-61 *)
Fixpoint assignable (r : request) (ws : list worker) : res bool :=
  match ws with
  | [] => Val false
  | w :: t => let? b := check_headers w (r_headers r) in if b then Val true else assignable r t
  end.

(* first_idle_worker_selector::select, 25-36: `pair.second == nullptr && check_headers(...)` *)
Fixpoint select_idle (r : request) (m : pmap (option request)) : res (option worker) :=
  match m with
  | [] => Val None
  | (w, Some _) :: t => select_idle r t
  | (w, None) :: t =>
      let? b := check_headers w (r_headers r) in if b then Val (Some w) else select_idle r t
  end.

(* the search loop of assign_request, 97-106: first entry the worker can run, and the others *)
Fixpoint take_first (w : worker) (l : list entry) : res (option (request * list entry)) :=
  match l with
  | [] => Val None
  | e :: t =>
      let? b := check_headers w (r_headers (e_request e)) in
      if b then Val (Some (e_request e, t))
      else let? x := take_first w t in
           match x with
           | None => Val None
           | Some (r, rest) => Val (Some (r, e :: rest))
           end
  end.

Section WithOracle.
Context (o : oracle).

(* assign_request, 90-109 *)
Definition single_assign (w : worker) (q : single) : res (option request * single) :=
  let wj := pm_set w None (sq_worker_jobs q) in
  let jobs := sort_entries (o_tie o (sq_sorts q)) (sq_jobs q) in
  let? x := take_first w jobs in
  match x with
  | Some (r, rest) =>
      Val (Some r, mkSingle rest (pm_set w (Some r) wj) (sq_workers q) (sq_clock q) (S (sq_sorts q)))
  | None => Val (None, mkSingle jobs wj (sq_workers q) (sq_clock q) (S (sq_sorts q)))
  end.

(* add_worker, 78-88 *)
Definition single_add_worker (w : worker) (cur : option request) (q : single)
  : res (option request * single) :=
  let q1 := mkSingle (sq_jobs q) (pm_set w cur (sq_worker_jobs q)) (sq_workers q ++ [w])
              (sq_clock q) (sq_sorts q) in
  match cur with
  | Some r => Val (Some r, q1)
  | None => single_assign w q1
  end.

(* the filtering of jobs_ in worker_terminated, 120-131: (kept, returned) *)
Fixpoint split_jobs (ws : list worker) (l : list entry) : res (list entry * list request) :=
  match l with
  | [] => Val ([], [])
  | e :: t =>
      let? b := assignable (e_request e) ws in
      let? p := split_jobs ws t in
      let '(kept, gone) := p in
      if b then Val (e :: kept, gone) else Val (kept, e_request e :: gone)
  end.

(* worker_terminated, 111-134 *)
Definition single_worker_terminated (w : worker) (q : single) : res (list request * single) :=
  let '(cur, wj) := pm_index None w (sq_worker_jobs q) in
  let ws := list_remove w (sq_workers q) in
  let? p := split_jobs ws (sq_jobs q) in
  let '(kept, gone) := p in
  Val (match cur with Some r => [r] | None => [] end ++ gone,
       mkSingle kept (pm_erase w wj) ws (sq_clock q) (sq_sorts q)).

(* enqueue_request, 136-164 *)
Definition single_enqueue (r : request) (q : single) : res (enqueue_result * single) :=
  let? idle := select_idle r (sq_worker_jobs q) in
  match idle with
  | Some w =>
      Val (mkEnq (Some w) true,
           mkSingle (sq_jobs q) (pm_set w (Some r) (sq_worker_jobs q)) (sq_workers q)
             (sq_clock q) (sq_sorts q))
  | None =>
      let? b := assignable r (sq_workers q) in
      if b then
        Val (mkEnq None true,
             mkSingle (sq_jobs q ++ [mkEntry r (o_clock o (sq_clock q))]) (sq_worker_jobs q)
               (sq_workers q) (S (sq_clock q)) (sq_sorts q))
      else Val (mkEnq None false, q)
  end.

(* get_queued_request_count, 166-169 *)
Definition single_queued_count (q : single) : nat := length (sq_jobs q).

(* get_current_request, 171-174 *)
Definition single_get_current (w : worker) (q : single) : option request * single :=
  let '(cur, wj) := pm_index None w (sq_worker_jobs q) in
  (cur, mkSingle (sq_jobs q) wj (sq_workers q) (sq_clock q) (sq_sorts q)).

(* worker_finished, 176-179 *)
Definition single_worker_finished (w : worker) (q : single) := single_assign w q.

(* worker_cancelled, 181-186 *)
Definition single_worker_cancelled (w : worker) (q : single) : option request * single :=
  let '(cur, wj) := pm_index None w (sq_worker_jobs q) in
  (cur, mkSingle (sq_jobs q) (pm_set w None wj) (sq_workers q) (sq_clock q) (sq_sorts q)).

End WithOracle.
