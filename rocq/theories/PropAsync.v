(* Property C37: asynchronous handlers. *)
From Verif Require Import Base Bytes Containers Worker Multi Single Queue Handler SpecText Spec SpecRun SpecOut SpecHttp SpecWire Notifier
  Reactor SpecReactor Async SpecAsync AsyncFacts AsyncRun Demo.
Local Open Scope string_scope.
Local Open Scope list_scope.

(* For every interleaving: each handler acts like a mailbox of its own, and what is in its pipe is what is
   in the mailbox. *)
Theorem C37_mailbox : forall hwm es id, Forall plain es ->
  done_by id (fst (exec_steps hwm es new_channel)) = fst (box_steps hwm id es new_box) /\
  p_pipe (ch_peers (snd (exec_steps hwm es new_channel)) id) =
  map (fun x => match x with Letter m => m_key m :: m_ident m :: m_data m | Stop => ["TERMINATE"] end) (b_items (snd (box_steps hwm id es new_box))).
Proof. exact refines. Qed.
Print Assumptions C37_mailbox.

(* The steps of the other handlers do not matter. *)
Theorem C37_own_steps : forall hwm id es, Forall plain es ->
  done_by id (fst (exec_steps hwm es new_channel)) =
  done_by id (fst (exec_steps hwm (filter (fun e => match e with Connect i | Pass i _ | Terminate i | Take i => String.eqb i id end) es) new_channel)).
Proof. exact own. Qed.
Print Assumptions C37_own_steps.

(* For every interleaving, connected or not, full or not: no message is handled twice, altered, or after
   one that was passed later. *)
Theorem C37_at_most_once : forall hwm id es, Forall plain es ->
  some_of (handled_msgs (done_by id (fst (exec_steps hwm es new_channel)))) (passed_to id es).
Proof. exact at_most_once. Qed.
Print Assumptions C37_at_most_once.

(* Once connected, and while there is room: what is handled and what is still in the pipe is what was
   passed. What was passed before is lost. *)
Theorem C37_exactly_once : forall hwm id es0 es1, Forall plain (es0 ++ Connect id :: es1) ->
  Forall (fun e => e <> Connect id) es0 -> no_stop id es1 -> never_full hwm id (es0 ++ Connect id :: es1) ->
  exists handled waiting,
  done_by id (fst (exec_steps hwm (es0 ++ Connect id :: es1) new_channel)) = map Some handled /\
  p_pipe (ch_peers (snd (exec_steps hwm (es0 ++ Connect id :: es1) new_channel)) id) = map (fun m => m_key m :: m_ident m :: m_data m) waiting /\
  handled ++ waiting = passed_to id es1.
Proof. exact exactly_once. Qed.
Print Assumptions C37_exactly_once.

(* With room for all messages there is always room. *)
Theorem C37_room : forall hwm id es,
  length (filter (fun e => match e with Pass i _ | Terminate i => String.eqb i id | _ => false end) es) <= hwm -> never_full hwm id es.
Proof. exact few. Qed.
Print Assumptions C37_room.

(* After the termination message, every round of the thread handles the next message passed before it; the
   round after the last one returns. n messages were handled before. *)
Theorem C37_terminates : forall hwm id es0 es1 es2, Forall plain (es0 ++ Connect id :: es1 ++ Terminate id :: es2) ->
  Forall (fun e => e <> Connect id) es0 -> no_stop id es1 -> never_full hwm id (es0 ++ Connect id :: es1 ++ [Terminate id]) -> only_takes id es2 ->
  exists n, length (passed_to id es1) = n + length (p_pipe (ch_peers (snd (exec_steps hwm (es0 ++ Connect id :: es1) new_channel)) id)) /\
  done_by id (fst (exec_steps hwm (es0 ++ Connect id :: es1 ++ Terminate id :: es2) new_channel)) =
  firstn (n + takes id es2) (map Some (passed_to id es1) ++ [None]).
Proof. exact terminates. Qed.
Print Assumptions C37_terminates.

(* Terminated before it connects, or while the pipe is full, the thread never returns, whatever follows:
   the destructor waits for ever. *)
Theorem C37_hangs : forall hwm id es1 es2, Forall plain (es1 ++ Terminate id :: es2) -> no_stop id es1 -> no_stop id es2 ->
  Forall (fun e => e <> Connect id) es1 \/ length (p_pipe (ch_peers (snd (exec_steps hwm es1 new_channel)) id)) >= hwm ->
  ~ In None (done_by id (fst (exec_steps hwm (es1 ++ Terminate id :: es2) new_channel))).
Proof. exact hangs. Qed.
Print Assumptions C37_hangs.

(* From the broker to the frontend: the notifications of every run, but for those sent before the
   notifier's thread connected, are handled there or still in the pipe, in order; each one handled is posted
   (C35). *)
Theorem C37_notifications : forall o cfg k fuel ws acts l', (forall w, In w ws -> w_async w = []) ->
  loop state broker_tables (broker_handlers o cfg) (S fuel) ws (broker_start (empty_manager k)) = (acts, inr l') ->
  exists tr, run o cfg k tr (l_states l' 0) /\ acts = flat_map event_actions tr /\
  forall hwm id es0 es1, passed_to id (es0 ++ es1) = passed_on 0 acts ->
    Forall (fun e => match e with Pass i _ => i = id | _ => True end) (es0 ++ es1) ->
    Forall (fun e => e <> Connect id) es0 -> no_stop id es1 -> never_full hwm id (es0 ++ Connect id :: es1) ->
  exists handled waiting,
    done_by id (fst (exec_steps hwm (es0 ++ Connect id :: es1) new_channel)) = map Some handled /\
    p_pipe (ch_peers (snd (exec_steps hwm (es0 ++ Connect id :: es1) new_channel)) id) = map (fun m => m_key m :: m_ident m :: m_data m) waiting /\
    passed_to id es0 ++ handled ++ waiting = sent_on "status_notifier" tr /\
    forall m, In m handled -> forall c outs, exists p target acts,
      post_for c (m_data m) p target /\ notifier_on_request c outs m = Val acts /\ attempts p target outs acts.
Proof. exact reaches. Qed.
Print Assumptions C37_notifications.

(* ---- examples ---- *)

Definition note (d : string) : msg := Msg "status_notifier" "" ["type"; "error"; "message"; d].

(* the first message is lost, the third one does not fit, the second one and the fourth one are handled *)
Example C37_example_lost : fst (exec_steps 1
    [Pass "7" (note "1"); Connect "7"; Pass "7" (note "2"); Pass "7" (note "3"); Take "7"; Take "7"; Pass "7" (note "4"); Take "7"] new_channel) =
  [("7", Some (note "2")); ("7", Some (note "4"))].
Proof. vm_compute. reflexivity. Qed.

(* two handlers; one is terminated with two messages in its pipe *)
Example C37_example_terminate : fst (exec_steps 10
    [Connect "7"; Connect "8"; Pass "7" (note "1"); Pass "8" (note "2"); Pass "7" (note "3"); Terminate "7"; Take "7"; Pass "8" (note "4");
     Take "7"; Take "8"; Take "7"; Take "7"; Take "8"] new_channel) =
  [("7", Some (note "1")); ("7", Some (note "3")); ("8", Some (note "2")); ("7", None); ("8", Some (note "4"))].
Proof. vm_compute. reflexivity. Qed.

(* terminated before it has connected *)
Example C37_example_hang : fst (exec_steps 10 [Terminate "7"; Connect "7"; Take "7"; Take "7"] new_channel) = [].
Proof. vm_compute. reflexivity. Qed.

(* A message without data frames is not finished: the next message, whichever handler it is for, becomes a
   part of it; even the termination message. *)
Example C37_refuted_empty :
  fst (exec_steps 10 [Connect "7"; Connect "8"; Pass "7" (Msg "k" "i" []); Pass "8" (note "1"); Take "7"; Take "8"] new_channel) =
    [("7", Some (Msg "k" "i" ["8"; "status_notifier"; ""; "type"; "error"; "message"; "1"]))] /\
  fst (exec_steps 10 [Connect "7"; Pass "7" (Msg "k" "i" []); Terminate "7"; Take "7"; Take "7"] new_channel) =
    [("7", Some (Msg "k" "i" ["7"; "TERMINATE"]))].
Proof. split; vm_compute; reflexivity. Qed.
(* a message whose key is the termination text ends the thread *)
Example C37_refuted_key :
  fst (exec_steps 10 [Connect "7"; Pass "7" (Msg "TERMINATE" "i" ["x"]); Pass "7" (note "1"); Take "7"; Take "7"] new_channel) = [("7", None)].
Proof. vm_compute. reflexivity. Qed.

(* a job is done: the loop passes one notification, the thread handles it and posts it *)
Definition one_job : list wait :=
  map (fun x => mkWait [x] [] 0 0)
    [("workers", ("A", ["init"; "g"])); ("clients", ("C", ["eval"; "j1"; "hwgroup=g"; ""; "body"])); ("workers", ("A", ["done"; "j1"; "OK"]))].
Example C37_example_notification :
  let acts := fst (loop state broker_tables (broker_handlers demo_oracle demo_cfg) 1 one_job (broker_start (empty_manager KSingle))) in
  let m := Msg "status_notifier" "" ["type"; "job-status"; "id"; "j1"; "status"; "OK"] in
  passed_on 0 acts = [m] /\
  fst (exec_steps 2000 [Connect "7"; Pass "7" m; Take "7"] new_channel) = [("7", Some m)] /\
  notifier_on_request (mkNotifier "http://api" 80 "" "") (fun _ => Performed None) m =
    Val [Post (mkPost "http://api/job-status/j1" 80 "status=OK" None)].
Proof. vm_compute. repeat split. Qed.
