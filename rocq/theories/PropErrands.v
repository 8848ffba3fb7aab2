(* C77: from the command line to the requests at the frontend. *)
From Verif Require Import Base Bytes Containers Worker Multi Single Queue Handler SpecText Spec SpecRun SpecFatal SpecLedger SpecPool SpecOracle Demo
  Notifier SpecHttp Reactor SpecReactor Async SpecAsync Curl SpecCurl Config SpecConfig Logger Startup SpecStartup SpecWhole Errands SpecErrands Whole ErrandsFacts
  PropConfig.
Local Open Scope string_scope.
Local Open Scope list_scope.

(* What the process hands to the notifier's thread, whatever becomes of it: the notifications among the answers of the
   ledger or the hall, up to the message that ends it. *)
Theorem C77_handed : forall env args o fuel ws, (forall w, In w ws -> w_async w = []) ->
  match process env args o (S fuel) ws with
  | (effs, Exited _) => informed effs = []
  | (effs, Serving l) => exists g k outss L, started env args g k /\ answered o (handler_config g) k (agenda [] [] ws) outss L /\ informed effs = news outss
  | (effs, Unwinding) => start_up env args = (effs, Unwinding) /\ informed effs = [] \/
      exists g k ms m later outss L outs f, started env args g k /\ agenda [] [] ws = ms ++ m :: later /\
        answered o (handler_config g) k ms outss L /\ doomed L m outs f /\ informed effs = news (outss ++ [outs])
  end.
Proof. exact handed. Qed.
Print Assumptions C77_handed.

(* For every interleaving of the two threads, connected or not, full or not, terminated or not: what the notifier's thread
   handles are some of these, in order, none of them twice, and for each it performs the transfer with the configured
   address, port and login until it succeeds, four times at most, whatever libcurl does. *)
Theorem C77_requests : forall env args o fuel ws effs p hwm id es, (forall w, In w ws -> w_async w = []) ->
  process env args o (S fuel) ws = (effs, p) -> passed_to id es = informed effs -> own_steps_only id es ->
  let handled := handled_msgs (done_by id (fst (exec_steps hwm es new_channel))) in
  some_of handled (informed effs) /\
  forall m, In m handled -> forall g k c, started env args g k -> notifier_from g c -> forall outs,
  exists t target errands, terms_for c (m_data m) t target /\ sent_to g t /\ notify c outs m = Val errands /\ tries t target outs 0 1 errands.
Proof. exact requests_some. Qed.
Print Assumptions C77_requests.

(* Once it has connected, and while there is room in the pipe, none is left out: what is not handled waits. *)
Theorem C77_all : forall env args o fuel ws effs p hwm id es0 es1, (forall w, In w ws -> w_async w = []) ->
  process env args o (S fuel) ws = (effs, p) ->
  passed_to id (es0 ++ Connect id :: es1) = informed effs -> own_steps_only id (es0 ++ Connect id :: es1) ->
  Forall (fun e => e <> Connect id) es0 -> no_stop id es1 -> never_full hwm id (es0 ++ Connect id :: es1) ->
  exists waiting, passed_to id es0 ++ handled_msgs (done_by id (fst (exec_steps hwm (es0 ++ Connect id :: es1) new_channel))) ++ waiting = informed effs /\
  p_pipe (ch_peers (snd (exec_steps hwm (es0 ++ Connect id :: es1) new_channel)) id) = map (fun m => m_key m :: m_ident m :: m_data m) waiting.
Proof. exact requests_all. Qed.
Print Assumptions C77_all.

(* what is done for a notification is determined, but for the calls that perform the transfer *)
Theorem C77_course : forall t target outs n d es1 es2, tries t target outs n d es1 -> tries t target outs n d es2 ->
  map (fun e => match e with Calls _ => Calls [] | x => x end) es1 = map (fun e => match e with Calls _ => Calls [] | x => x end) es2.
Proof. exact tries_fun. Qed.
Print Assumptions C77_course.

(* The notifier is configured; a job is done. The first attempt fails, the second one succeeds. *)
Definition errand_env : environment := mkEnvironment (fun _ => Options false None) ""
  (fun _ => inr (Map [(Scalar "queue_manager", Scalar "single");
     (Scalar "notifier", Map [(Scalar "address", Scalar "https://front/v1/broker-reports"); (Scalar "port", Scalar "443"); (Scalar "username", Scalar "user")])]))
  demo_cv (fun _ => "") (fun _ _ _ _ => None) (fun _ _ => true).
Definition errand_waits : list wait := map (fun x => mkWait [x] [] 0 0)
  [("workers", ("A", ["init"; "g"])); ("clients", ("C", ["eval"; "j1"; "hwgroup=g"; ""; "body"])); ("workers", ("A", ["done"; "j1"; "OK"]));
   ("workers", ("A", ["init"; "h"; "threads=x"]))].
Definition errand_calls (url body : string) (last : list curl_call) : list curl_call :=
  [Init; Setopt (SetUrl url); Setopt (SetPort 443); Setopt (SetPostFields body); Setopt SetWriter; Setopt (SetFollowLocation 1); Setopt SetHttp2;
   Setopt (SetVerifyPeer 1); Setopt (SetVerifyHost 2); Setopt (SetFailOnError 1); Setopt SetAuthBasic; Setopt (SetUserPwd "user:"); Perform] ++ last.
Example C77_example : exists g,
  started errand_env [] g KSingle /\
  let effs := fst (process errand_env [] demo_oracle 1 errand_waits) in
  let m := Msg "status_notifier" "" ["type"; "job-status"; "id"; "j1"; "status"; "OK"] in
  let e := Msg "status_notifier" "" ["type"; "error"; "message"; "Received two different INIT messages from the same worker (41)"] in
  snd (process errand_env [] demo_oracle 1 errand_waits) = Unwinding /\ informed effs = [m; e] /\
  handled_msgs (done_by "7" (fst (exec_steps 2000 [Connect "7"; Pass "7" m; Take "7"; Pass "7" e; Terminate "7"; Take "7"; Take "7"] new_channel))) = [m; e] /\
  let c := mkNotifier "https://front/v1/broker-reports" 443 "user" "" in
  notifier_from g c /\
  notify c (fun n => Served [] (if Nat.eqb n 0 then Some (503%Z, "busy") else None)) m =
    Val [Calls (errand_calls "https://front/v1/broker-reports/job-status/j1" "status=OK" [GetResponseCode; Cleanup]);
         Critical "curl failed: POST request failed to https://front/v1/broker-reports/job-status/j1?status=OK. Error: (503) busy"; Pause 1;
         Calls (errand_calls "https://front/v1/broker-reports/job-status/j1" "status=OK" [Cleanup])].
Proof.
  pose (p := snd (start_up errand_env [])). vm_compute in p.
  match goal with x := Serving (_, ?g) |- _ => exists g end. clear p.
  split; [apply started_serves; vm_compute; reflexivity|]. vm_compute. repeat split. left. reflexivity.
Qed.
