(* C46: the exact effect of the messages by which workers register. *)
From Verif Require Import Base Bytes Containers Worker Multi Single Queue Handler SpecText Spec SpecRun SpecMsg SpecQueue SpecOutcome SpecJoin Demo
  Joining.
Local Open Scope string_scope.
Local Open Scope list_scope.

(* C46. An init, whose thread counts are numbers, of an identity without registered worker: one worker w
   with the identity, hardware group, headers and description of the message joins the registry, and
   nothing is sent but x to w. If the message announces a current job, w has it (the last one counts),
   the queue stays, and x is that job with the single queue and nothing with per-worker queues. If not, w
   has x, which is a request that waits for it, and is nothing only if none does. The new worker's
   liveness is 0. *)
Theorem C46_new : forall o cfg k tr s i hw frames hdrs, run o cfg k tr s -> sender i s = None -> init_block frames hdrs ->
  (forall f v, In f hdrs -> header_frame f "threads" v -> exists n, denotes v n) ->
  exists w x s', worker_for s i ("init" :: hw :: frames) hdrs w /\
    on_request o cfg (Msg "workers" i ("init" :: hw :: frames)) s = (map (handover w) (olist x), inr (tt, s')) /\
    taken_in cfg i ("init" :: hw :: frames) s s' w x.
Proof. exact init_new. Qed.
Print Assumptions C46_new.

(* The same for an identity whose worker w0 registered with other headers; before it, an error that names
   w0 goes to the frontend. (With the same headers: C25.) *)
Theorem C46_again : forall o cfg k tr s i w0 reg hw0 hdrs0 hw frames hdrs, run o cfg k tr s ->
  sender i s = Some w0 -> In reg tr -> joined reg w0 hw0 hdrs0 -> init_block frames hdrs -> ~ same_headers hdrs0 hdrs ->
  (forall f v, In f hdrs -> header_frame f "threads" v -> exists n, denotes v n) ->
  exists w x s', worker_for s i ("init" :: hw :: frames) hdrs w /\
    on_request o cfg (Msg "workers" i ("init" :: hw :: frames)) s = (two_inits w0 :: map (handover w) (olist x), inr (tt, s')) /\
    taken_in cfg i ("init" :: hw :: frames) s s' w x.
Proof. exact init_again. Qed.
Print Assumptions C46_again.

(* A registers; y is queued; B announces two jobs and a description, the last ones count; C gets y; A
   registers again with other headers. *)
Example C46_example :
  let x := exec demo_oracle demo_cfg (start KSingle)
    [from_worker "A" ["init"; "g"; "a=1"; ""; "description=box"]; from_client "u" ["eval"; "x"; "a=1"; ""]; from_client "u" ["eval"; "y"; "a=1"; ""; "p"];
     from_worker "B" ["init"; "h"; "a=1"; ""; "current_job=s"; "description=one"; "current_job=t"; "description=two"; "colour=red"];
     from_worker "C" ["init"; "h"; "a=1"]; from_worker "A" ["init"; "h"; "b=2"]] in
  skipn 3 (outputs x) =
    [[Msg "workers" "B" []]; [Msg "workers" "C" ["eval"; "y"; "p"]];
     [Msg "status_notifier" "" ["type"; "error"; "message"; "Received two different INIT messages from the same worker (41 (box))"]]] /\
  option_map (fun s => map (fun w => (w_identity w, w_description w, option_map r_job (current_of (s_queue s) w))) (s_reg s)) (final x) =
    Some [("A", "box", Some "x"); ("B", "two", Some "t"); ("C", "", Some "y"); ("A", "", None)].
Proof. vm_compute. auto. Qed.
