(* What the log of the broker should say: for each message the complete record of what is sent and what is
   logged, in order; the formats in use; lines on disk. *)
From Coq Require Import Sorted.
From Verif Require Import Base Bytes Containers Worker Multi Single Queue Handler Logger LogHandler SpecText Spec SpecRun SpecMsg SpecQueue
  SpecOutcome SpecJoin SpecTick.
Local Open Scope string_scope.
Local Open Scope list_scope.

(* the messages and the lines of a record *)
Definition said (l : list out) : list msg := flat_map (fun x => match x with Say m => [m] | Line _ _ _ => [] end) l.
Definition logged (l : list out) : list out := filter (fun x => match x with Say _ => false | Line _ _ _ => true end) l.

(* the record of an event *)
Definition record (o : oracle) (cfg : config) (e : event) : list out := fst (on_request_log o cfg (ev_in e) (ev_pre e)).

Definition received (what from : string) : out := Line LInfo ("Received message '" ++ what ++ "' from " ++ from)%string [].
(* r is handed to w *)
Definition sent (w : worker) (r : request) : list out :=
  [Say (handover w r); Line LDebug " - job {} sent to worker {}" [r_job r; shown w]].
(* n attempts to run r have failed *)
Definition tried_again (r : request) (n : N) : out :=
  Line LDebug " - reassigning job {} ({} attempts already failed)" [r_job r; to_string_N n].
Definition waits (r : request) : out := Line LDebug " - job {} is now waiting in the queue" [r_job r].
(* worker w is idle in state s *)
Definition free (s : state) (w : worker) : list out :=
  match current_of (s_queue s) w with Some _ => [] | None => [Line LDebug " - worker {} is now free" [shown w]] end.

(* the requirements of a submission: sorted by header name, the values of one header in the order of the message *)
Definition laid_out (need : list string) (l : list (string * string)) : Prop :=
  StronglySorted (fun p q => String.ltb (fst q) (fst p) = false) l /\ length l <= length need /\
  forall h, ((exists m, meta_name h m) -> ~ In h (map fst l)) /\
    ((forall m, ~ meta_name h m) -> values h need (map snd (filter (fun p => String.eqb (fst p) h) l))).

Section Lost.
Context (cfg : config).
(* the requests of a lost worker, one after the other, as in SpecTick.settled; ws are left, un is still to be reported *)
Inductive rescued (ws : list worker) (att : request -> N) : manager -> list request -> list out -> list request -> manager -> Prop :=
| re_nil : forall m, rescued ws att m [] [] [] m
| re_announced : forall m r rs outs un m', r_complete r = false -> rescued ws att m rs outs un m' ->
    rescued ws att m (r :: rs) (Say (failed_report (r_job r) lost_text) :: Say (tell (r_job r) "FAILED") :: outs) un m'
| re_last : forall m r rs outs un m', r_complete r = true -> (c_max_failures cfg <= att r)%N -> rescued ws att m rs outs un m' ->
    rescued ws att m (r :: rs) (Say (failed_report (r_job r) (too_many_text (att r))) :: Say (tell (r_job r) "FAILED") :: outs) un m'
| re_nobody : forall m r rs outs un m', r_complete r = true -> (att r < c_max_failures cfg)%N -> (forall w, In w ws -> ~ fits w r) ->
    rescued ws att m rs outs un m' ->
    rescued ws att m (r :: rs) (tried_again r (att r) :: Say (tell (r_job r) "FAILED") ::
                              Line LDebug " - failed to enqueue job {}" [r_job r] :: outs) (r :: un) m'
| re_given : forall m r rs outs un m' w m1, r_complete r = true -> (att r < c_max_failures cfg)%N -> In w ws -> fits w r ->
    current_of m w = None -> now_has m m1 w (Some r) -> still_wait m m1 -> rescued ws att m1 rs outs un m' ->
    rescued ws att m (r :: rs) (tried_again r (att r) :: sent w r ++ Say (tell (r_job r) "ABORTED") :: outs) un m'
| re_queued : forall m r rs outs un m' w m1, r_complete r = true -> (att r < c_max_failures cfg)%N -> In w ws -> fits w r ->
    (forall w', current_of m1 w' = current_of m w') -> lines_up m m1 r -> rescued ws att m1 rs outs un m' ->
    rescued ws att m (r :: rs) (tried_again r (att r) :: waits r :: Say (tell (r_job r) "ABORTED") :: outs) un m'.

(* the workers rm are lost one after the other, as in SpecTick.removals; ws are registered before *)
Inductive expired : list worker -> list worker -> (request -> N) -> manager -> list out -> manager -> Prop :=
| ex_nil : forall ws att m, expired [] ws att m [] m
| ex_next : forall w rm ws ws1 att m rs m1 att1 outs un m2 outs' m',
    lost_with ws m m1 w rs ->
    (forall w', In w' ws1 <-> In w' ws /\ w' <> w) ->
    (forall r, att1 r = (att r + match current_of m w with Some c => if Nat.eqb (r_id r) (r_id c) then 1 else 0 | None => 0 end)%N) ->
    rescued ws1 att1 m1 rs outs un m2 -> kind_of m2 = kind_of m -> expired rm ws1 att1 m2 outs' m' ->
    expired (w :: rm) ws att m (Line LInfo "Worker {} expired" [shown w] :: outs ++ map (fun r => Say (died_report w r)) un ++ outs') m'.

(* journal s s' m l: message m takes the broker from s to s' with record l *)
Inductive journal (s s' : state) : msg -> list out -> Prop :=
(* clients *)
| jo_eval_broken : forall i job frames, ~ In "" frames ->
    journal s s' (Msg "clients" i ("eval" :: job :: frames))
      [received "eval" "clients"; Say (Msg "clients" i ["ack"]); Line LWarn "Unexpected end of message from frontend. Skipped." []]
| jo_eval_frozen : forall i job frames, In "" frames -> s_frozen s = true ->
    journal s s' (Msg "clients" i ("eval" :: job :: frames))
      [received "eval" "clients"; Say (Msg "clients" i ["ack"]); Say (Msg "clients" i ["reject"; "The broker is frozen."]);
       Line LErr "Request '{}' rejected. {}" [job; "The broker is frozen."]]
| jo_eval_sent : forall i job frames need payload w r, header_block frames need payload -> s_frozen s = false ->
    request_for s job need payload r -> In w (s_reg s) -> fits w r -> current_of (s_queue s) w = None ->
    journal s s' (Msg "clients" i ("eval" :: job :: frames))
      (received "eval" "clients" :: Say (Msg "clients" i ["ack"]) :: Line LDebug " - incoming job {}" [job] ::
       sent w r ++ [Say (Msg "clients" i ["accept"])])
| jo_eval_queued : forall i job frames need payload w r, header_block frames need payload -> s_frozen s = false ->
    request_for s job need payload r -> In w (s_reg s) -> fits w r -> In r (queued (s_queue s')) ->
    journal s s' (Msg "clients" i ("eval" :: job :: frames))
      [received "eval" "clients"; Say (Msg "clients" i ["ack"]); Line LDebug " - incoming job {}" [job];
       Line LDebug " - saved to queue" []; Say (Msg "clients" i ["accept"])]
| jo_eval_rejected : forall i job frames need payload r, header_block frames need payload -> s_frozen s = false ->
    request_for s job need payload r -> (forall w, In w (s_reg s) -> ~ fits w r) -> laid_out need (r_headers r) ->
    journal s s' (Msg "clients" i ("eval" :: job :: frames))
      (received "eval" "clients" :: Say (Msg "clients" i ["ack"]) :: Line LDebug " - incoming job {}" [job] ::
       Line LErr "Request '{}' rejected. No worker available for headers:" [job] ::
       map (fun p => Line LErr " - {}: {}" [fst p; snd p]) (r_headers r) ++
       [Say (Msg "clients" i ["reject"; String.concat "" ("No worker available for given headers: " ::
                                          map (fun p => fst p ++ "=" ++ snd p ++ "; ")%string (r_headers r))]);
        Say (tell job "FAILED")])
| jo_stats : forall i rest answer,
    journal s s' (Msg "clients" i ("get-runtime-stats" :: rest))
      [Line LDebug "Client requested runtime statistics" []; Say (Msg "clients" i answer)]
| jo_freeze : forall i rest,
    journal s s' (Msg "clients" i ("freeze" :: rest))
      [Line LInfo "The broker was frozen and will not accept any requests until it is restarted or unfrozen" [];
       Say (Msg "clients" i ["ack"])]
| jo_unfreeze : forall i rest,
    journal s s' (Msg "clients" i ("unfreeze" :: rest))
      [Line LInfo "The broker was unfrozen and will now accept requests again" []; Say (Msg "clients" i ["ack"])]
(* workers *)
| jo_ping : forall i rest,
    journal s s' (Msg "workers" i ("ping" :: rest)) [Say (Msg "workers" i [match sender i s with Some _ => "pong" | None => "intro" end])]
| jo_progress : forall i rest,
    journal s s' (Msg "workers" i ("progress" :: rest)) [Say (Msg "monitor" "recodex-monitor" rest)]
| jo_init_short : forall i,
    journal s s' (Msg "workers" i ["init"])
      [received "init" "workers"; Line LWarn "Init command without argument. Nothing to do." []]
| jo_init_known : forall i hw frames w, sender i s = Some w -> s_reg s' = s_reg s ->
    journal s s' (Msg "workers" i ("init" :: hw :: frames)) [received "init" "workers"]
| jo_init : forall i hw frames w x, w_identity w = i -> s_reg s' = s_reg s ++ [w] ->
    match x with Some r => current_of (s_queue s') w = Some r | None => True end ->
    journal s s' (Msg "workers" i ("init" :: hw :: frames))
      (received "init" "workers" :: map (fun w0 => Say (two_inits w0)) (olist (sender i s)) ++ flat_map (sent w) (olist x) ++
       [Line LDebug " - added new worker {} with headers: {}"
          [shown w; String.concat "" (map (fun f => f ++ " ")%string (hw :: frames))]])
| jo_done_unknown : forall i rest, sender i s = None ->
    journal s s' (Msg "workers" i ("done" :: rest))
      [received "done" "workers"; Line LWarn "Got 'done' message from an unknown worker" []]
| jo_done_short : forall i rest w, sender i s = Some w -> length rest < 2 ->
    journal s s' (Msg "workers" i ("done" :: rest))
      [received "done" "workers"; Line LErr "Got 'done' message with not enough arguments from worker {}" [shown w]]
| jo_done_other : forall i j st rest w r, sender i s = Some w -> current_of (s_queue s) w = Some r -> j <> r_job r ->
    journal s s' (Msg "workers" i ("done" :: j :: st :: rest))
      [received "done" "workers";
       Line LErr "Got 'done' message from worker {} with mismatched job id - {} (message) vs. {} (worker)" [shown w; j; r_job r]]
| jo_done_ok : forall i rest w r x, sender i s = Some w -> current_of (s_queue s) w = Some r -> current_of (s_queue s') w = x ->
    journal s s' (Msg "workers" i ("done" :: r_job r :: "OK" :: rest))
      (received "done" "workers" :: Say (ok_report (r_job r)) :: flat_map (sent w) (olist x) ++ free s' w)
| jo_done_frames_error : forall i rest w r, sender i s = Some w -> current_of (s_queue s) w = Some r -> length rest <> 1 ->
    journal s s' (Msg "workers" i ("done" :: r_job r :: "INTERNAL_ERROR" :: rest))
      [received "done" "workers";
       Line LWarn "Invalid number of arguments in a 'done' message with status 'INTERNAL_FAILURE' from worker {}" [shown w]]
| jo_done_announced : forall i text w r, sender i s = Some w -> current_of (s_queue s) w = Some r -> r_complete r = false ->
    current_of (s_queue s') w = None ->
    journal s s' (Msg "workers" i ["done"; r_job r; "INTERNAL_ERROR"; text])
      (received "done" "workers" :: Say (failed_report (r_job r) ("Job failed with '" ++ text ++ "' and cannot be reassigned")%string) :: free s' w)
| jo_done_last : forall i text w r x, sender i s = Some w -> current_of (s_queue s) w = Some r -> r_complete r = true ->
    (c_max_failures cfg <= attempts s r + 1)%N -> current_of (s_queue s') w = x ->
    journal s s' (Msg "workers" i ["done"; r_job r; "INTERNAL_ERROR"; text])
      (received "done" "workers" ::
       Say (failed_report (r_job r) ("Job was reassigned too many (" ++ to_string_N (attempts s r) ++ ") times. Last failure message was: " ++ text)%string) ::
       Say (tell (r_job r) "FAILED") :: flat_map (sent w) (olist x) ++ free s' w)
| jo_done_again : forall i text w r x, sender i s = Some w -> current_of (s_queue s) w = Some r -> r_complete r = true ->
    (attempts s r + 1 < c_max_failures cfg)%N ->
    match x with
    | Some w' => In w' (s_reg s) /\ fits w' r /\ current_of (s_queue s') w' = Some r
    | None => In r (queued (s_queue s')) /\ current_of (s_queue s') w = None
    end ->
    journal s s' (Msg "workers" i ["done"; r_job r; "INTERNAL_ERROR"; text])
      (received "done" "workers" :: tried_again r (attempts s r + 1) ::
       match x with Some w' => sent w' r | None => [waits r] end ++ free s' w)
| jo_done_frames_failed : forall i rest w r, sender i s = Some w -> current_of (s_queue s) w = Some r -> length rest <> 1 ->
    journal s s' (Msg "workers" i ("done" :: r_job r :: "FAILED" :: rest))
      [received "done" "workers";
       Line LWarn "Invalid number of arguments in a 'done' message with status 'FAILED' from worker {}" [shown w]]
| jo_done_failed : forall i text w r x, sender i s = Some w -> current_of (s_queue s) w = Some r -> current_of (s_queue s') w = x ->
    journal s s' (Msg "workers" i ["done"; r_job r; "FAILED"; text])
      (received "done" "workers" :: Say (failed_report (r_job r) text) :: flat_map (sent w) (olist x) ++ free s' w)
| jo_done_status : forall i st rest w r, sender i s = Some w -> current_of (s_queue s) w = Some r ->
    ~ In st ["OK"; "FAILED"; "INTERNAL_ERROR"] ->
    journal s s' (Msg "workers" i ("done" :: r_job r :: st :: rest))
      [received "done" "workers"; Line LWarn "Received unexpected status code {} from worker {}" [st; shown w]]
(* timer *)
| jo_tick : forall i t rest rm l, subseq rm (s_reg s) -> (forall w, In w (s_reg s') <-> In w (s_reg s) /\ ~ In w rm) ->
    expired rm (s_reg s) (attempts s) (s_queue s) l (s_queue s') ->
    journal s s' (Msg "timer" i (t :: rest)) l
(* other words and channels *)
| jo_worker_word : forall i c rest, ~ In c worker_words -> journal s s' (Msg "workers" i (c :: rest)) []
| jo_client_word : forall i c rest, ~ In c client_words -> journal s s' (Msg "clients" i (c :: rest)) []
| jo_channel : forall k i data, ~ In k ["workers"; "clients"; "timer"] -> journal s s' (Msg k i data) [].
End Lost.

(* the formats in use, with their levels and numbers of arguments *)
Definition formats : list (level * string * nat) :=
  [(LInfo, "Received message 'eval' from clients", 0);
   (LInfo, "Received message 'init' from workers", 0);
   (LInfo, "Received message 'done' from workers", 0);
   (LWarn, "Unexpected end of message from frontend. Skipped.", 0);
   (LErr, "Request '{}' rejected. {}", 2);
   (LDebug, " - incoming job {}", 1);
   (LDebug, " - saved to queue", 0);
   (LErr, "Request '{}' rejected. No worker available for headers:", 1);
   (LErr, " - {}: {}", 2);
   (LWarn, "Init command without argument. Nothing to do.", 0);
   (LDebug, " - added new worker {} with headers: {}", 2);
   (LWarn, "Got 'done' message from an unknown worker", 0);
   (LErr, "Got 'done' message with not enough arguments from worker {}", 1);
   (LErr, "Got 'done' message from worker {} with mismatched job id - {} (message) vs. {} (worker)", 3);
   (LWarn, "Invalid number of arguments in a 'done' message with status 'INTERNAL_FAILURE' from worker {}", 1);
   (LWarn, "Invalid number of arguments in a 'done' message with status 'FAILED' from worker {}", 1);
   (LWarn, "Received unexpected status code {} from worker {}", 2);
   (LDebug, " - worker {} is now free", 1);
   (LInfo, "Worker {} expired", 1);
   (LDebug, " - reassigning job {} ({} attempts already failed)", 2);
   (LDebug, " - failed to enqueue job {}", 1);
   (LDebug, " - job {} is now waiting in the queue", 1);
   (LDebug, " - job {} sent to worker {}", 2);
   (LDebug, "Client requested runtime statistics", 0);
   (LInfo, "The broker was frozen and will not accept any requests until it is restarted or unfrozen", 0);
   (LInfo, "The broker was unfrozen and will now accept requests again", 0)].

(* a message to a worker other than the answers to its pings, and the line about it *)
Definition about_sending (x : out) : Prop :=
  match x with
  | Say m => m_key m = "workers" /\ m_data m <> ["pong"] /\ m_data m <> ["intro"]
  | Line _ f _ => f = " - job {} sent to worker {}"
  end.
(* each job handed over is directly followed by its line, and there is no such line otherwise *)
Inductive paired : list out -> Prop :=
| pa_nil : paired []
| pa_sent : forall w r l, paired l -> paired (sent w r ++ l)
| pa_other : forall x l, ~ about_sending x -> paired l -> paired (x :: l).

(* the lines that tell of a refused job *)
Definition refusals : list string := ["Request '{}' rejected. {}"; "Request '{}' rejected. No worker available for headers:"].

(* warnings and errors *)
Definition complaint (x : out) : Prop := exists l f a, x = Line l f a /\ (l = LWarn \/ l = LErr).
(* a done message the broker acts on: from a registered worker, about its current job *)
Definition accepted (s : state) (i : string) (rest : list string) : Prop :=
  exists w r, sender i s = Some w /\ current_of (s_queue s) w = Some r /\
    ((exists more, rest = r_job r :: "OK" :: more) \/
     exists st text, (st = "FAILED" \/ st = "INTERNAL_ERROR") /\ rest = [r_job r; st; text]).

Definition is_expiry (x : out) : bool :=
  match x with Say _ => false | Line _ f _ => String.eqb f "Worker {} expired" end.
(* lines a logger of level info writes *)
Definition loud (x : out) : bool := match x with Say _ => false | Line l _ _ => should_log LInfo l end.

(* text that takes one line *)
Definition newline : ascii := "010"%char.
Definition one_line (t : string) : Prop := no_char newline t.
