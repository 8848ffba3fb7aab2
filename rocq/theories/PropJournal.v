(* C64: the log tells what the broker does. *)
From Verif Require Import Base Bytes Containers Worker Multi Single Queue Handler Logger LogHandler SpecText Spec SpecRun SpecMsg SpecQueue
  SpecOutcome SpecJoin SpecTick SpecJournal Demo Journal JournalFacts.
Local Open Scope string_scope.
Local Open Scope list_scope.

(* C64. Logging changes neither the messages sent nor the next state nor the failures of the handler. *)
Theorem C64_unchanged : forall o cfg m s,
  on_request o cfg m s = (said (fst (on_request_log o cfg m s)), snd (on_request_log o cfg m s)).
Proof. exact erased. Qed.
Print Assumptions C64_unchanged.

(* For each message the lines, their levels and arguments, and their places between the messages sent are
   the ones of SpecJournal.journal. *)
Theorem C64_journal : forall o cfg k tr1 e tr2 s, run o cfg k (tr1 ++ e :: tr2) s ->
  journal cfg (ev_pre e) (ev_post e) (ev_in e) (record o cfg e) /\ said (record o cfg e) = ev_out e.
Proof. exact record_journal. Qed.
Print Assumptions C64_journal.

(* Each line has one of 26 formats with as many arguments as it needs, so that it can be written. *)
Theorem C64_formats : forall o cfg k tr1 e tr2 s, run o cfg k (tr1 ++ e :: tr2) s ->
  forall l f a, In (Line l f a) (record o cfg e) -> In (l, f, length a) formats /\ exists text, render f a = Some text.
Proof. exact lines_known. Qed.
Print Assumptions C64_formats.

(* Each job handed to a worker is directly followed by the line that names both; there are no other lines
   of this kind. *)
Theorem C64_sent : forall o cfg k tr1 e tr2 s, run o cfg k (tr1 ++ e :: tr2) s -> paired (record o cfg e).
Proof. exact record_paired. Qed.
Print Assumptions C64_sent.

(* A client is told that its job is refused exactly when an error line says so. *)
Theorem C64_refused : forall o cfg k tr1 e tr2 s i job frames, run o cfg k (tr1 ++ e :: tr2) s ->
  ev_in e = Msg "clients" i ("eval" :: job :: frames) ->
  (exists text, In (Msg "clients" i ["reject"; text]) (ev_out e)) <->
  exists f a, In f refusals /\ In (Line LErr f (job :: a)) (record o cfg e).
Proof. exact refusal_told. Qed.
Print Assumptions C64_refused.

(* A done message is acted on exactly when there is no warning or error about it. *)
Theorem C64_done : forall o cfg k tr1 e tr2 s i rest, run o cfg k (tr1 ++ e :: tr2) s ->
  ev_in e = Msg "workers" i ("done" :: rest) ->
  accepted (ev_pre e) i rest <-> ~ exists x, In x (record o cfg e) /\ complaint x.
Proof. exact done_told. Qed.
Print Assumptions C64_done.

(* After a done message that is acted on the worker is called free exactly when it has nothing to do. *)
Theorem C64_free : forall o cfg k tr1 e tr2 s i rest w, run o cfg k (tr1 ++ e :: tr2) s ->
  ev_in e = Msg "workers" i ("done" :: rest) -> accepted (ev_pre e) i rest -> sender i (ev_pre e) = Some w ->
  In (Line LDebug " - worker {} is now free" [shown w]) (record o cfg e) <-> current_of (s_queue (ev_post e)) w = None.
Proof. exact free_told. Qed.
Print Assumptions C64_free.

(* A tick reports the workers it removes, in the order of registration; nothing else reports an expiry. *)
Theorem C64_expired : forall o cfg k tr1 e tr2 s, run o cfg k (tr1 ++ e :: tr2) s ->
  if String.eqb (m_key (ev_in e)) "timer" then
    exists rm, subseq rm (s_reg (ev_pre e)) /\ filter is_expiry (record o cfg e) = map (fun w => Line LInfo "Worker {} expired" [shown w]) rm /\
      forall w, In w rm <-> In w (s_reg (ev_pre e)) /\ ~ In w (s_reg (ev_post e))
  else filter is_expiry (record o cfg e) = [].
Proof. exact expiry_told. Qed.
Print Assumptions C64_expired.

(* Pings, progress, unknown words and ticks that remove nobody leave no line. *)
Theorem C64_silence : forall o cfg k tr1 e tr2 s, run o cfg k (tr1 ++ e :: tr2) s ->
  (m_key (ev_in e) = "workers" -> forall c rest, m_data (ev_in e) = c :: rest -> ~ In c ["init"; "done"]) ->
  (m_key (ev_in e) = "clients" -> forall c rest, m_data (ev_in e) = c :: rest -> ~ In c client_words) ->
  (m_key (ev_in e) = "timer" -> forall w, In w (s_reg (ev_pre e)) -> In w (s_reg (ev_post e))) ->
  logged (record o cfg e) = [].
Proof. exact silence. Qed.
Print Assumptions C64_silence.

(* At level info a message leaves at most one line more than it has frames, a tick one per worker. *)
Theorem C64_volume : forall o cfg k tr1 e tr2 s, run o cfg k (tr1 ++ e :: tr2) s ->
  length (filter loud (record o cfg e)) <=
  if String.eqb (m_key (ev_in e)) "timer" then length (s_reg (ev_pre e)) else S (length (m_data (ev_in e))).
Proof. exact volume. Qed.
Print Assumptions C64_volume.

(* If no frame received so far contains a newline, each call of the logger writes one line. *)
Theorem C64_one_line : forall o cfg k tr1 e tr2 s, run o cfg k (tr1 ++ e :: tr2) s ->
  (forall e', In e' (tr1 ++ [e]) -> Forall one_line (m_data (ev_in e'))) ->
  forall l f a, In (Line l f a) (record o cfg e) -> exists text, render f a = Some text /\ one_line text.
Proof. exact lines_apart. Qed.
Print Assumptions C64_one_line.

(* the log of a session *)
Definition log_of (lvl : level) (k : kind) (inputs : list msg) : list (list string) :=
  map (fun e => texts lvl (record demo_oracle demo_cfg e)) (fst (exec demo_oracle demo_cfg (start k) inputs)).

(* A job is refused, another runs and fails on A, is tried again and is done; A is lost. *)
Example C64_example :
  log_of LDebug KSingle
    [from_worker "A" ["init"; "g"; "a=1"; ""; "description=lab"]; from_client "u" ["eval"; "j0"; "b=2"; ""; "p"];
     from_client "u" ["eval"; "j1"; "a=1"; ""; "p"]; from_worker "A" ["ping"]; from_worker "A" ["done"; "j2"; "OK"];
     from_worker "A" ["done"; "j1"; "INTERNAL_ERROR"; "disk full"]; from_worker "A" ["done"; "j1"; "OK"];
     tick "1001"; tick "1001"] =
  [["Received message 'init' from workers"; " - added new worker 41 (lab) with headers: g a=1  description=lab "];
   ["Received message 'eval' from clients"; " - incoming job j0"; "Request 'j0' rejected. No worker available for headers:"; " - b: 2"];
   ["Received message 'eval' from clients"; " - incoming job j1"; " - job j1 sent to worker 41 (lab)"];
   [];
   ["Received message 'done' from workers"; "Got 'done' message from worker 41 (lab) with mismatched job id - j2 (message) vs. j1 (worker)"];
   ["Received message 'done' from workers"; " - reassigning job j1 (1 attempts already failed)"; " - job j1 sent to worker 41 (lab)"];
   ["Received message 'done' from workers"; " - worker 41 (lab) is now free"];
   []; ["Worker 41 (lab) expired"]].
Proof. vm_compute. reflexivity. Qed.

(* the same at level warn *)
Example C64_example_warn :
  concat (log_of LWarn KSingle
    [from_worker "A" ["init"; "g"; "a=1"; ""; "description=lab"]; from_client "u" ["eval"; "j0"; "b=2"; ""; "p"];
     from_client "u" ["eval"; "j1"; "a=1"; ""; "p"]; from_worker "A" ["ping"]; from_worker "A" ["done"; "j2"; "OK"];
     from_worker "A" ["done"; "j1"; "INTERNAL_ERROR"; "disk full"]; from_worker "A" ["done"; "j1"; "OK"];
     tick "1001"; tick "1001"]) =
  ["Request 'j0' rejected. No worker available for headers:"; " - b: 2";
   "Got 'done' message from worker 41 (lab) with mismatched job id - j2 (message) vs. j1 (worker)"].
Proof. vm_compute. reflexivity. Qed.

(* Without the condition on newlines C64_one_line is false: a client can forge a line. *)
Example C64_one_line_refuted :
  exists k inputs s job, final (exec demo_oracle demo_cfg (start k) inputs) = Some s /\
    In (Line LDebug " - incoming job {}" [job]) (record demo_oracle demo_cfg (event_at (exec demo_oracle demo_cfg (start k) inputs) 0)) /\
    render " - incoming job {}" [job] = Some (" - incoming job j" ++ String newline "Worker 41 (lab) expired")%string.
Proof.
  exists KSingle, [from_client "u" ["eval"; ("j" ++ String newline "Worker 41 (lab) expired")%string; ""]].
  eexists. eexists. split; [vm_compute; reflexivity|]. split; [vm_compute; do 2 right; left; reflexivity|reflexivity].
Qed.
