(* Vocabulary for stating properties of the broker: what a manager holds, runs of the broker, and
   what is visible in the messages of a run. *)
From Verif Require Import Base Bytes Containers Worker Multi Single Queue Handler.
Local Open Scope string_scope.

(* ---- what a queue manager holds ---- *)

Definition olist {A} (x : option A) : list A := match x with Some a => [a] | None => [] end.

Definition current_map (m : manager) : pmap (option request) :=
  match m with QSingle q => sq_worker_jobs q | QMulti q => mq_current q end.

(* the request assigned to worker w *)
Definition current_of (m : manager) (w : worker) : option request :=
  match pm_find w (current_map m) with Some (Some r) => Some r | _ => None end.

(* the requests waiting in the queue(s) *)
Definition queued (m : manager) : list request :=
  match m with
  | QSingle q => map e_request (sq_jobs q)
  | QMulti q => concat (map snd (mq_queues q))
  end.

(* the requests assigned to some worker *)
Definition running (m : manager) : list request := flat_map (fun p => olist (snd p)) (current_map m).

(* everything the manager holds *)
Definition held (m : manager) : list request := running m ++ queued m.

(* the workers the manager knows *)
Definition manager_workers (m : manager) : list worker :=
  match m with QSingle q => sq_workers q | QMulti q => mq_order q end.

(* worker w can run request r *)
Definition capable (w : worker) (r : request) : Prop := check_headers w (r_headers r) = Val true.

(* ---- runs ---- *)

Inductive kind : Type := KSingle | KMulti.
(* broker_core::broker_init, src/broker_core.cpp:132-140 *)
Definition empty_manager (k : kind) : manager :=
  match k with KSingle => QSingle single_init | KMulti => QMulti multi_init end.

(* One processed message: the state before it, the message, the messages emitted, the state after. *)
Record event : Type := mkEvent { ev_pre : state; ev_in : msg; ev_out : list msg; ev_post : state }.

(* run o cfg k tr s : starting from scratch with queue manager k, processing the inputs of tr in
   order yields the outputs recorded in tr and ends in state s. The inputs are arbitrary. *)
Inductive run (o : oracle) (cfg : config) (k : kind) : list event -> state -> Prop :=
| run_nil : run o cfg k [] (init_state (empty_manager k))
| run_snoc : forall tr s m outs s',
    run o cfg k tr s ->
    on_request o cfg m s = (outs, inr (tt, s')) ->
    run o cfg k (tr ++ [mkEvent s m outs s']) s'.

(* message m kills the broker in state s, after emitting outs *)
Definition crashes (o : oracle) (cfg : config) (s : state) (m : msg) (outs : list msg) (f : fault) : Prop :=
  on_request o cfg m s = (outs, inl f).

(* executable version, for examples *)
Fixpoint exec (o : oracle) (cfg : config) (s : state) (ms : list msg) : list event * (fault + state) :=
  match ms with
  | [] => ([], inr s)
  | m :: t =>
      match on_request o cfg m s with
      | (outs, inl f) => ([], inl f)
      | (outs, inr (tt, s')) =>
          let '(tr, r) := exec o cfg s' t in (mkEvent s m outs s' :: tr, r)
      end
  end.

(* ---- what is visible in messages ---- *)

Definition list_count {A} (p : A -> bool) (l : list A) : nat := length (filter p l).
Definition total {A} (f : A -> nat) (l : list A) : nat := fold_right (fun a n => f a + n) 0 l.

Definition starts_with (pre l : list string) : bool := list_string_eqb (firstn (length pre) l) pre.

(* a final status of job j sent to the frontend *)
Definition is_report (j : string) (m : msg) : bool :=
  String.eqb (m_key m) "status_notifier" && starts_with ["type"; "job-status"; "id"; j] (m_data m).

(* an eval of job j sent to a worker *)
Definition is_dispatch (j : string) (m : msg) : bool :=
  String.eqb (m_key m) "workers" && starts_with ["eval"; j] (m_data m).

(* a client's eval for job j *)
Definition is_submission (j : string) (m : msg) : bool :=
  String.eqb (m_key m) "clients" && starts_with ["eval"; j] (m_data m).

Definition is_accept_for (m : msg) (out : msg) : bool :=
  msg_eqb out (Msg "clients" (m_ident m) ["accept"]).

(* the event is the acceptance of a submission of job j *)
Definition accepts (j : string) (e : event) : bool :=
  is_submission j (ev_in e) && existsb (is_accept_for (ev_in e)) (ev_out e).

(* the job a registering worker announces: the last current_job entry after the empty frame *)
Fixpoint after_empty (frames : list string) : list string :=
  match frames with
  | [] => []
  | f :: t => if String.eqb f "" then t else after_empty t
  end.
Definition announced (frames : list string) : option string :=
  fold_left (fun acc f => if String.eqb (fst (split_header f)) "current_job"
                          then Some (snd (split_header f)) else acc)
            (after_empty (skipn 2 frames)) None.

(* the event registers a new worker that announces job j as its current job *)
Definition adopts (j : string) (e : event) : bool :=
  String.eqb (m_key (ev_in e)) "workers" && starts_with ["init"] (m_data (ev_in e)) &&
  Nat.ltb (length (s_reg (ev_pre e))) (length (s_reg (ev_post e))) &&
  match announced (m_data (ev_in e)) with Some j' => String.eqb j' j | None => false end.

Definition reports (j : string) (tr : list event) : nat :=
  total (fun e => list_count (is_report j) (ev_out e)) tr.
Definition dispatches (j : string) (tr : list event) : nat :=
  total (fun e => list_count (is_dispatch j) (ev_out e)) tr.
Definition acceptances (j : string) (tr : list event) : nat := list_count (accepts j) tr.
Definition adoptions (j : string) (tr : list event) : nat := list_count (adopts j) tr.

Definition job_is (j : string) (r : request) : bool := String.eqb (r_job r) j.
