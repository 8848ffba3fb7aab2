(* C31, C32, C43: what the broker sends and what its sockets deliver. *)
From Verif Require Import Base Bytes Containers Worker Multi Single Queue Handler Wire SpecText Spec SpecRun SpecOut SpecWire Demo
  Out WireFacts WireRun.
Local Open Scope string_scope.
Local Open Scope list_scope.

(* ---- C31 ---- *)

(* Messages that all have a data frame: exactly those whose addressee can take them are delivered, to
   it, with their frames, in order, and the socket is ready for the next message. *)
Theorem C31_delivery : forall ms, (forall can m, In (can, m) ms -> m_data m <> []) ->
  send_messages ms None = (ideal ms, None).
Proof. exact delivered. Qed.
Print Assumptions C31_delivery.

(* what one connected peer gets: its messages, in order *)
Theorem C31_addressee : forall i ms, (forall can m, In (can, m) ms -> m_data m <> [] /\ can i = true) ->
  arrives_at i (fst (send_messages ms None)) =
  map (fun p => m_data (snd p)) (filter (fun p => String.eqb (m_ident (snd p)) i) ms).
Proof. exact delivered_to. Qed.
Print Assumptions C31_addressee.

(* The receiving side takes in multipart messages of any number of frames one by one, and no frame of
   what follows. It waits while the last frame is missing. *)
Theorem C31_received : forall key ms fs rest, (forall m, In m ms -> m_key m = key) -> incoming ms fs ->
  receive_messages key (length ms) (fs ++ rest) = Some (ms, rest).
Proof. exact received. Qed.
Print Assumptions C31_received.
Theorem C31_received_waits : forall key l, receive_message key (map (fun x => Frame x true) l) = None.
Proof. exact receive_waits. Qed.
Print Assumptions C31_received_waits.
(* what the sending side hands to the socket for messages with data frames has that form *)
Theorem C31_frames : forall ms, (forall m, In m ms -> m_data m <> []) -> incoming ms (flat_map message_frames ms).
Proof. exact frames_incoming. Qed.
Print Assumptions C31_frames.

(* with messages without frames: `glued` says exactly what is delivered, whatever the messages *)
Theorem C31_any_messages : forall ms ds, glued ms ds ->
  fst (send_messages (map (fun m => (fun _ => true, m)) ms) None) = ds.
Proof. exact glued_exact. Qed.
Print Assumptions C31_any_messages.
Theorem C31_any_messages_total : forall ms, exists ds, glued ms ds.
Proof. exact glued_total. Qed.
Print Assumptions C31_any_messages_total.

(* In every run, what goes out on a socket is delivered as it should, provided that, for the workers'
   socket, the manager is the multi one or no registering worker announces a job, and, for the
   monitor's socket, no progress message without arguments occurs. *)
Theorem C31_run : forall o cfg k tr s key cans, run o cfg k tr s ->
  (key = "workers" -> k = KMulti \/ forall e j, In e tr -> adopts j e = false) ->
  (key = "monitor" -> forall e i, In e tr -> ev_in e <> Msg "workers" i ["progress"]) ->
  send_messages (paired cans (sent_on key tr)) None = (ideal (paired cans (sent_on key tr)), None).
Proof. exact run_delivered. Qed.
Print Assumptions C31_run.

Example C31_example :
  send_messages [(fun i => String.eqb i "A", Msg "workers" "A" ["eval"; "j"; ""]); (fun i => String.eqb i "A", Msg "workers" "B" ["pong"]);
                 (fun _ => true, Msg "workers" "B" ["pong"])] None =
    ([("A", ["eval"; "j"; ""]); ("B", ["pong"])], None) /\
  fst (send_messages (map (fun m => (fun _ => true, m))
     [Msg "workers" "A" []; Msg "workers" "B" ["eval"; "j"]; Msg "workers" "C" ["pong"]]) None) =
    [("A", ["B"; "eval"; "j"]); ("C", ["pong"])] /\
  receive_messages "clients" 1 [Frame "u" false; Frame "v" true; Frame "x" false] =
    Some ([Msg "clients" "u" []], [Frame "v" true; Frame "x" false]) /\
  receive_messages "clients" 2 [Frame "u" true; Frame "eval" true; Frame "" false; Frame "v" true; Frame "x" false; Frame "w" true] =
    Some ([Msg "clients" "u" ["eval"; ""]; Msg "clients" "v" ["x"]], [Frame "w" true]).
Proof. repeat split. Qed.

(* ---- C32 ---- *)

(* A message without data frames is sent exactly (a) with the single manager, to a newly registered
   worker that announces a current job, and (b) to the monitor for a progress message without
   arguments. *)
Theorem C32_empty_iff : forall o cfg k tr1 e tr2 s, run o cfg k (tr1 ++ e :: tr2) s -> forall out,
  (In out (ev_out e) /\ m_data out = [] <->
   (k = KSingle /\ (exists j, adopts j e = true) /\ out = Msg "workers" (m_ident (ev_in e)) []) \/
   ((exists i, ev_in e = Msg "workers" i ["progress"]) /\ out = Msg "monitor" "recodex-monitor" [])).
Proof. exact empty_iff. Qed.
Print Assumptions C32_empty_iff.

(* Consequence of (a), with all workers connected: up to the registration everything is delivered to
   its addressee; the next message for any worker is delivered to the registering worker, preceded by
   the identity of the worker it was meant for. *)
Theorem C32_misdelivered : forall o cfg tr1 e tr2 s j m rest, run o cfg KSingle (tr1 ++ e :: tr2) s ->
  (forall e' j', In e' tr1 -> adopts j' e' = false) -> adopts j e = true ->
  sent_on "workers" tr2 = m :: rest -> m_data m <> [] ->
  exists ds, fst (send_messages (map (fun m => (fun _ => true, m)) (sent_on "workers" (tr1 ++ e :: tr2))) None) =
    map (fun m => (m_ident m, m_data m)) (sent_on "workers" tr1) ++
    (m_ident (ev_in e), m_ident m :: m_data m) :: ds.
Proof. exact adoption_misdelivers. Qed.
Print Assumptions C32_misdelivered.

(* B comes back with a job; the job accepted for A next is delivered to B, and A never hears of it *)
Example C32_example : exists tr s, run demo_oracle demo_cfg KSingle tr s /\ map ev_in tr = misdelivery_inputs /\
  In (Msg "clients" "u" ["accept"]) (sent_on "clients" tr) /\
  sent_on "workers" tr = [Msg "workers" "A" ["pong"]; Msg "workers" "B" []; Msg "workers" "A" ["eval"; "x"; "url"]; Msg "workers" "A" ["pong"]] /\
  fst (send_messages (map (fun m => (fun _ => true, m)) (sent_on "workers" tr)) None) =
    [("A", ["pong"]); ("B", ["A"; "eval"; "x"; "url"]); ("A", ["pong"])].
Proof.
  eexists _, _. split; [apply (exec_start _ _ _ misdelivery_inputs); vm_compute; reflexivity|].
  split; [vm_compute; reflexivity|]. split; [vm_compute; auto|]. split; vm_compute; reflexivity.
Qed.
(* the same with the multi manager is delivered correctly *)
Example C32_example_multi : exists tr s, run demo_oracle demo_cfg KMulti tr s /\ map ev_in tr = misdelivery_inputs /\
  fst (send_messages (map (fun m => (fun _ => true, m)) (sent_on "workers" tr)) None) =
    [("A", ["pong"]); ("A", ["eval"; "x"; "url"]); ("A", ["pong"])].
Proof.
  eexists _, _. split; [apply (exec_start _ _ _ misdelivery_inputs); vm_compute; reflexivity|].
  split; vm_compute; reflexivity.
Qed.

(* ---- C43 ---- *)

(* Everything the broker says, in every run: may_say lists, for each kind of message received, the
   messages that can be sent in answer, with their addressees and frames. *)
Theorem C43_says : forall o cfg k tr1 e tr2 s, run o cfg k (tr1 ++ e :: tr2) s ->
  forall out, In out (ev_out e) -> may_say (ev_in e) out.
Proof. exact says_allowed. Qed.
Print Assumptions C43_says.

Example C43_example : exists tr s, run demo_oracle demo_cfg KSingle tr s /\ exists tr1 e tr2, tr = tr1 ++ e :: tr2 /\
  ev_in e = from_worker "A" ["done"; "x"; "INTERNAL_ERROR"; "disk"] /\
  ev_out e = [Msg "status_notifier" "" ["type"; "job-status"; "id"; "x"; "status"; "FAILED"; "message";
                "Job was reassigned too many (1) times. Last failure message was: disk"];
              Msg "monitor" "recodex-monitor" ["x"; "FAILED"]; Msg "workers" "A" ["eval"; "y"; "q"]].
Proof.
  eexists _, _. split; [apply (exec_start _ _ _
    [from_worker "A" ["init"; "g"]; from_client "u" ["eval"; "x"; ""; "p"]; from_worker "A" ["done"; "x"; "INTERNAL_ERROR"; "disk"];
     from_client "u" ["eval"; "y"; ""; "q"];
     from_worker "A" ["done"; "x"; "INTERNAL_ERROR"; "disk"]]); vm_compute; reflexivity|].
  eexists [_; _; _; _], _, []. split; [reflexivity|]. split; vm_compute; reflexivity.
Qed.
