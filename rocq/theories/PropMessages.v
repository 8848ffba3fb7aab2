(* C05, C06, C07, C20, C21, C22, C25, C26, C27: what single messages do. *)
From Verif Require Import Base Bytes Containers Worker Multi Single Queue Handler SpecText Spec SpecRun SpecMsg Demo
  Messages Stats.
Local Open Scope string_scope.
Local Open Scope list_scope.

(* C05. An eval with a job id and a header block closed by an empty frame: on the clients' channel the
   broker sends exactly ack and then one accept or reject, both to the submitting client. *)
Theorem C05_eval_protocol : forall o cfg k tr1 e tr2 s i job frames need payload, run o cfg k (tr1 ++ e :: tr2) s ->
  ev_in e = Msg "clients" i ("eval" :: job :: frames) -> header_block frames need payload ->
  exists reply, filter (fun m => String.eqb (m_key m) "clients") (ev_out e) =
                  [Msg "clients" i ["ack"]; Msg "clients" i reply] /\
                (reply = ["accept"] \/ exists t, reply = ["reject"; t]).
Proof. exact eval_protocol. Qed.
Print Assumptions C05_eval_protocol.

(* Without the empty frame only ack is sent and nothing changes: the client never learns that the job
   was dropped. *)
Theorem C05_eval_truncated : forall o cfg i job frames s, frames <> [] -> ~ In "" frames ->
  on_request o cfg (Msg "clients" i ("eval" :: job :: frames)) s = ([Msg "clients" i ["ack"]], inr (tt, s)).
Proof. exact eval_truncated. Qed.
Print Assumptions C05_eval_truncated.

Example C05_example : exists tr s, run demo_oracle demo_cfg KMulti tr s /\
  In [Msg "clients" "u" ["ack"]; Msg "workers" "A" ["eval"; "job2"; "url3"]; Msg "clients" "u" ["accept"]] (map ev_out tr) /\
  In [Msg "clients" "v" ["ack"]; Msg "clients" "v" ["reject"; "No worker available for given headers: hwgroup=group3; "];
      Msg "monitor" "recodex-monitor" ["job4"; "FAILED"]] (map ev_out tr).
Proof. eexists _, _. split; [apply (exec_start _ _ _ demo_inputs); vm_compute; reflexivity|]. split; find_in. Qed.

(* C06. Not frozen: the eval is accepted iff some worker registered at that moment offers everything
   its headers require; otherwise the client gets reject, the monitor FAILED, and nothing changes. *)
Theorem C06_accept_iff_servable : forall o cfg k tr1 e tr2 s i job frames need payload, run o cfg k (tr1 ++ e :: tr2) s ->
  ev_in e = Msg "clients" i ("eval" :: job :: frames) -> header_block frames need payload ->
  s_frozen (ev_pre e) = false ->
  (In (Msg "clients" i ["accept"]) (ev_out e) <-> servable tr1 (ev_pre e) need) /\
  (~ servable tr1 (ev_pre e) need ->
   (exists t, ev_out e = [Msg "clients" i ["ack"]; Msg "clients" i ["reject"; t]; Msg "monitor" "recodex-monitor" [job; "FAILED"]]) /\
   same_jobs (ev_pre e) (ev_post e)).
Proof. exact accept_iff_servable. Qed.
Print Assumptions C06_accept_iff_servable.

(* Frozen: always rejected and the state is the same, whatever the headers. *)
Theorem C06_frozen_rejects : forall o cfg i job frames need payload s,
  s_frozen s = true -> header_block frames need payload ->
  on_request o cfg (Msg "clients" i ("eval" :: job :: frames)) s =
    ([Msg "clients" i ["ack"]; Msg "clients" i ["reject"; "The broker is frozen."]], inr (tt, s)).
Proof. exact frozen_rejects. Qed.
Print Assumptions C06_frozen_rejects.

(* a busy worker makes a job acceptable, a worker with too few threads does not *)
Example C06_example : exists tr s, run demo_oracle demo_cfg KSingle tr s /\ map ev_out tr =
  [ [];
    [Msg "clients" "u" ["ack"]; Msg "workers" "A" ["eval"; "x"; "p"]; Msg "clients" "u" ["accept"]];
    [Msg "clients" "u" ["ack"]; Msg "clients" "u" ["accept"]];
    [Msg "clients" "u" ["ack"]; Msg "clients" "u" ["reject"; "No worker available for given headers: threads=5; "];
     Msg "monitor" "recodex-monitor" ["z"; "FAILED"]];
    [Msg "clients" "v" ["ack"]];
    [Msg "clients" "u" ["ack"]; Msg "clients" "u" ["reject"; "The broker is frozen."]] ].
Proof.
  eexists _, _. split; [apply (exec_start _ _ _
    [from_worker "A" ["init"; "g"; "threads=4"];
     from_client "u" ["eval"; "x"; "threads=4"; ""; "p"]; from_client "u" ["eval"; "y"; "threads=3"; ""; "p"];
     from_client "u" ["eval"; "z"; "threads=5"; ""; "p"]; from_client "v" ["freeze"];
     from_client "u" ["eval"; "t"; "threads=3"; ""; "p"]]); vm_compute; reflexivity|].
  vm_compute. reflexivity.
Qed.

(* C07. A well-formed eval is rejected as frozen iff the last freeze/unfreeze command of the history
   was freeze. *)
Theorem C07_frozen_iff : forall o cfg k tr1 e tr2 s i job frames need payload, run o cfg k (tr1 ++ e :: tr2) s ->
  ev_in e = Msg "clients" i ("eval" :: job :: frames) -> header_block frames need payload ->
  (In (Msg "clients" i ["reject"; "The broker is frozen."]) (ev_out e) <-> frozen_after tr1 = true).
Proof. exact frozen_iff. Qed.
Print Assumptions C07_frozen_iff.

Theorem C07_frozen_history : forall o cfg k tr s, run o cfg k tr s -> s_frozen s = frozen_after tr.
Proof. exact frozen_history. Qed.
Print Assumptions C07_frozen_history.

(* a worker cannot freeze the broker; the last client command counts *)
Example C07_example : exists tr s, run demo_oracle demo_cfg KMulti tr s /\ map (fun e => s_frozen (ev_post e)) tr =
  [false; true; true; true; true; false; false].
Proof.
  eexists _, _. split; [apply (exec_start _ _ _
    [from_worker "A" ["freeze"]; from_client "u" ["freeze"]; from_client "v" ["freeze"; "x"]; from_worker "A" ["unfreeze"];
     tick "5"; from_client "w" ["unfreeze"]; from_client "w" ["thaw"]]); vm_compute; reflexivity|].
  vm_compute. reflexivity.
Qed.

(* C20. In every state a ping is answered by exactly one message, pong or intro, to its sender, and only
   the sender's liveness and ping timer are refreshed. *)
Theorem C20_ping_reply : forall o cfg i rest s, exists s',
  on_request o cfg (Msg "workers" i ("ping" :: rest)) s =
    ([Msg "workers" i [match sender i s with Some _ => "pong" | None => "intro" end]], inr (tt, s')) /\
  heard cfg i s s'.
Proof. exact ping_reply. Qed.
Print Assumptions C20_ping_reply.

(* C21. In every state a progress message from anybody is forwarded to the monitor without its command
   frame, and that is all. *)
Theorem C21_progress_forwarded : forall o cfg i rest s, exists s',
  on_request o cfg (Msg "workers" i ("progress" :: rest)) s =
    ([Msg "monitor" "recodex-monitor" rest], inr (tt, s')) /\
  heard cfg i s s'.
Proof. exact progress_forwarded. Qed.
Print Assumptions C21_progress_forwarded.

Example C20_C21_example : exists tr s, run demo_oracle demo_cfg KMulti tr s /\
  map ev_out tr = [ [Msg "workers" "A" ["intro"]]; []; [Msg "workers" "A" ["pong"]];
                    [Msg "monitor" "recodex-monitor" ["j"; "TASK"; ""; "7"]] ] /\
  map (fun e => map (liveness (ev_post e)) (s_reg (ev_post e))) tr = [[]; [0%N]; [2%N]; [2%N]].
Proof.
  eexists _, _. split; [apply (exec_start _ _ _
    [from_worker "A" ["ping"; "x"]; from_worker "A" ["init"; "g"]; from_worker "A" ["ping"];
     from_worker "nobody" ["progress"; "j"; "TASK"; ""; "7"]]); vm_compute; reflexivity|].
  vm_compute. auto.
Qed.

(* C22. The messages of `ignored` (unknown command for the channel, unknown channel, init without
   hardware group, done from an unregistered identity, with too few frames, for another job, with an
   unknown status, or with the wrong number of frames for its status) produce no output; a worker's
   message only refreshes its sender, any other leaves the state as it is. *)
Theorem C22_ignored_harmless : forall o cfg k tr s m, run o cfg k tr s -> ignored s m ->
  exists s', on_request o cfg m s = ([], inr (tt, s')) /\
    (m_key m = "workers" -> heard cfg (m_ident m) s s') /\ (m_key m <> "workers" -> s' = s).
Proof. exact ignored_harmless. Qed.
Print Assumptions C22_ignored_harmless.

(* a busy worker sends a done for another job, an unknown status and a FAILED without text *)
Example C22_example : exists tr s, run demo_oracle demo_cfg KSingle tr s /\
  ignored s (from_worker "A" ["done"; "y"; "OK"]) /\ ignored s (from_worker "A" ["done"; "x"; "ok"]) /\
  ignored s (from_worker "A" ["done"; "x"; "FAILED"]) /\ ignored s (from_client "A" ["done"; "x"; "OK"]).
Proof.
  eexists _, _. split; [apply (exec_start _ _ _
    [from_worker "A" ["init"; "g"]; from_client "u" ["eval"; "x"; ""; "p"]]); vm_compute; reflexivity|].
  split; [|split; [|split]].
  - eapply ig_other_job; [reflexivity|reflexivity|vm_compute; reflexivity|vm_compute; reflexivity|discriminate].
  - eapply ig_status; [reflexivity|reflexivity|vm_compute; reflexivity|vm_compute; reflexivity|].
    simpl. intros [E|[E|[E|[]]]]; discriminate.
  - eapply ig_frames; [reflexivity|reflexivity|vm_compute; reflexivity|vm_compute; reflexivity|simpl; auto|discriminate].
  - eapply ig_client_word; [reflexivity|reflexivity|]. simpl. intros [E|[E|[E|[E|[]]]]]; discriminate.
Qed.

(* C25. An init from an identity whose worker was registered with the same headers (for every name the
   same values in the same order) is answered by nothing and changes nothing but the sender's liveness
   and ping timer; hardware group hw and the frames after the header block are arbitrary. *)
Theorem C25_reinit_same : forall o cfg k tr s i w reg hw0 hdrs0 hw frames hdrs, run o cfg k tr s ->
  sender i s = Some w -> In reg tr -> joined reg w hw0 hdrs0 ->
  init_block frames hdrs -> same_headers hdrs0 hdrs ->
  exists s', on_request o cfg (Msg "workers" i ("init" :: hw :: frames)) s = ([], inr (tt, s')) /\ heard cfg i s s'.
Proof. exact reinit_same. Qed.
Print Assumptions C25_reinit_same.

(* the second init has another hardware group, another order of different headers and a current job *)
Example C25_example : exists tr s, run demo_oracle demo_cfg KMulti tr s /\
  map ev_out tr = [[]; []] /\ map w_hwgroup (s_reg s) = ["g"] /\ map (liveness s) (s_reg s) = [2%N] /\ held (s_queue s) = [].
Proof.
  eexists _, _. split; [apply (exec_start _ _ _
    [from_worker "A" ["init"; "g"; "a=1"; "b=2"; "a=3"];
     from_worker "A" ["init"; "h"; "b=2"; "a=1"; "a=3"; ""; "current_job=x"]]); vm_compute; reflexivity|].
  vm_compute. auto.
Qed.

(* C26. An init of a registered identity with different headers, if survived: an error goes to the
   frontend, a second worker joins, and the identity still stands for the first one. *)
Theorem C26_reinit_changed : forall o cfg k tr s i w reg hw0 hdrs0 hw frames hdrs outs s', run o cfg k tr s ->
  sender i s = Some w -> In reg tr -> joined reg w hw0 hdrs0 ->
  init_block frames hdrs -> ~ same_headers hdrs0 hdrs ->
  let m := Msg "workers" i ("init" :: hw :: frames) in
  on_request o cfg m s = (outs, inr (tt, s')) ->
  (exists text rest, outs = Msg "status_notifier" "" ["type"; "error"; "message"; text] :: rest) /\
  (exists w2, joined (mkEvent s m outs s') w2 hw hdrs /\ w2 <> w) /\
  sender i s' = Some w.
Proof. exact reinit_changed. Qed.
Print Assumptions C26_reinit_changed.

(* From then on, while the first worker w is registered, every message of the identity is attributed to
   w, and another worker w2 keeps its liveness, its ping timer and its current job: it is never
   refreshed and no done report is credited to it. *)
Theorem C26_shadowed : forall o cfg k tr1 e tr2 s i w w2, run o cfg k (tr1 ++ e :: tr2) s ->
  sender i (ev_post e) = Some w -> w2 <> w ->
  forall e', In e' tr2 -> m_key (ev_in e') = "workers" -> m_ident (ev_in e') = i ->
  In w (s_reg (ev_pre e')) -> In w2 (s_reg (ev_pre e')) ->
  sender i (ev_pre e') = Some w /\
  In w2 (s_reg (ev_post e')) /\ liveness (ev_post e') w2 = liveness (ev_pre e') w2 /\
  ping_timer (ev_post e') w2 = ping_timer (ev_pre e') w2 /\
  forall r, current_of (s_queue (ev_pre e')) w2 = Some r -> current_of (s_queue (ev_post e')) w2 = Some r.
Proof. exact shadowed. Qed.
Print Assumptions C26_shadowed.

(* job x goes to the second worker; the identity's report of x is ignored because its first worker's
   current job is y *)
Example C26_example : exists tr s, run demo_oracle demo_cfg KMulti tr s /\
  map w_identity (s_reg s) = ["A"; "A"] /\ map (liveness s) (s_reg s) = [2%N; 0%N] /\
  map ev_out (skipn 1 tr) =
    [ [Msg "status_notifier" "" ["type"; "error"; "message"; "Received two different INIT messages from the same worker (41)"]];
      [Msg "clients" "u" ["ack"]; Msg "workers" "A" ["eval"; "x"; "p"]; Msg "clients" "u" ["accept"]];
      [Msg "clients" "u" ["ack"]; Msg "workers" "A" ["eval"; "y"; "p"]; Msg "clients" "u" ["accept"]];
      [] ] /\
  map r_job (held (s_queue s)) = ["x"; "y"].
Proof.
  eexists _, _. split; [apply (exec_start _ _ _
    [from_worker "A" ["init"; "g"; "a=1"]; from_worker "A" ["init"; "h"; "a=2"];
     from_client "u" ["eval"; "x"; "a=2"; ""; "p"]; from_client "u" ["eval"; "y"; "a=1"; ""; "p"];
     from_worker "A" ["done"; "x"; "OK"]]); vm_compute; reflexivity|].
  vm_compute. auto.
Qed.

(* C27. The reply to get-runtime-stats in every reachable state: evaluated-jobs and failed-jobs count
   the credited reports of the history, is-frozen is current, the others are the true numbers right
   after the last timer tick (0, and no jobs-in-progress entry, before the first one). *)
Theorem C27_stats_reply : forall o cfg k tr s i rest, run o cfg k tr s ->
  let show f := to_string_N (match after_last_tick tr with Some t => N.of_nat (f t) | None => 0%N end) in
  on_request o cfg (Msg "clients" i ("get-runtime-stats" :: rest)) s =
  ([Msg "clients" i
     (["evaluated-jobs"; to_string_N (N.of_nat (list_count (credited "OK") tr));
       "failed-jobs"; to_string_N (N.of_nat (list_count (credited "FAILED") tr + list_count (credited "INTERNAL_ERROR") tr));
       "idle-worker-count"; show (fun t => list_count (is_idle (s_queue t)) (s_reg t))] ++
      (if existsb (fun e => String.eqb (m_key (ev_in e)) "timer") tr
       then ["jobs-in-progress"; show (fun t => length (running (s_queue t)))] else []) ++
      ["queued-jobs"; show (fun t => length (queued (s_queue t)));
       "worker-count"; show (fun t => length (s_reg t));
       "is-frozen"; if frozen_after tr then "1" else "0"])], inr (tt, s)).
Proof. exact stats_reply. Qed.
Print Assumptions C27_stats_reply.

(* the last done comes after the last tick: counted as evaluated, but its worker still counts as busy *)
Example C27_example : exists tr s, run demo_oracle demo_cfg KSingle tr s /\
  ev_out (last tr (mkEvent s (tick "") [] s)) = [Msg "clients" "w"
    ["evaluated-jobs"; "2"; "failed-jobs"; "1"; "idle-worker-count"; "0"; "jobs-in-progress"; "1"; "queued-jobs"; "0";
     "worker-count"; "1"; "is-frozen"; "1"]].
Proof.
  eexists _, _. split; [apply (exec_start _ _ _
    [from_worker "A" ["init"; "g"]; from_client "u" ["eval"; "x"; ""; "p"]; from_client "u" ["eval"; "y"; ""; "p"];
     from_client "u" ["eval"; "z"; ""; "p"]; from_worker "A" ["done"; "x"; "OK"]; from_worker "A" ["done"; "x"; "OK"];
     from_worker "A" ["done"; "y"; "FAILED"; "bad"]; tick "5"; from_worker "A" ["done"; "z"; "OK"];
     from_client "w" ["freeze"]; from_client "w" ["get-runtime-stats"]]); vm_compute; reflexivity|].
  vm_compute. reflexivity.
Qed.
