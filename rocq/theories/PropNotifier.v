(* C35, C36: notifications to the frontend. *)
From Verif Require Import Base Bytes Containers Queue Handler Notifier SpecText Spec SpecRun SpecOut SpecHttp Demo NotifierFacts.
Local Open Scope string_scope.
Local Open Scope list_scope.

(* ---- C35 ---- *)

(* Every notification of every run becomes one POST: to address/type/id, with the remaining pairs, tried
   at most four times, with a line in the log for each failure. The notifier does not fail. *)
Theorem C35_posted : forall o cfg k tr1 e tr2 s, run o cfg k (tr1 ++ e :: tr2) s -> forall m, In m (ev_out e) ->
  m_key m = "status_notifier" -> forall c outs, exists p target acts,
  post_for c (m_data m) p target /\ notifier_on_request c outs m = Val acts /\ attempts p target outs acts.
Proof. exact run_posted. Qed.
Print Assumptions C35_posted.

(* Any message of pairs, also those the broker never sends: the last "type" and "id" are the path, the
   last value of every other name is a parameter, by increasing name. *)
Theorem C35_any : forall c outs m pairs, m_data m = flat pairs -> exists q acts,
  parameters pairs q /\ notifier_on_request c outs m = Val acts /\
  attempts (mkPost (c_str (n_address c ++ path_of (last_value "type" pairs) ++ path_of (last_value "id" pairs))) (n_port c)
              (c_str (query_text q)) (auth c))
    (n_address c ++ path_of (last_value "type" pairs) ++ path_of (last_value "id" pairs) ++ "?" ++ query_text q) outs acts.
Proof. exact any_even. Qed.
Print Assumptions C35_any.

(* a message with an odd number of frames is read past its end *)
Theorem C35_odd : forall c outs m, Nat.even (length (m_data m)) = false -> notifier_on_request c outs m = Fail DerefEnd.
Proof. exact any_odd. Qed.
Print Assumptions C35_odd.

Definition demo_notifier : notifier_config := mkNotifier "http://api" 80 "user" "".

(* a refused second attempt: three requests, waits of one and two seconds in between *)
Example C35_example : notifier_on_request demo_notifier (fun n => Performed (if Nat.eqb n 2 then None else Some (503%Z, "HTTP error")))
    (Msg "status_notifier" "" ["type"; "job-status"; "id"; "j1"; "status"; "FAILED"; "message"; "disk"]) =
  let p := mkPost "http://api/job-status/j1" 80 "message=disk&status=FAILED" (Some "user:") in
  let line := "curl failed: POST request failed to http://api/job-status/j1?message=disk&status=FAILED. Error: (503) HTTP error" in
  Val [Post p; Complain line; Sleep 1; Post p; Complain line; Sleep 2; Post p].
Proof. vm_compute. reflexivity. Qed.
(* all four refused *)
Example C35_example_given_up : notifier_on_request (mkNotifier "http://api" 80 "" "") (fun n => Performed (Some (0%Z, "no route")))
    (Msg "status_notifier" "" ["type"; "error"; "message"; "text"]) =
  let p := mkPost "http://api/error" 80 "message=text" None in
  let line := "curl failed: POST request failed to http://api/error?message=text. Error: (0) no route" in
  Val [Post p; Complain line; Sleep 1; Post p; Complain line; Sleep 2; Post p; Complain line; Sleep 4; Post p; Complain line; Sleep 8].
Proof. vm_compute. reflexivity. Qed.
(* repeated and unsorted names *)
Example C35_example_any : notifier_on_request demo_notifier (fun _ => Performed None)
    (Msg "" "" ["z"; "1"; "id"; "i"; "a"; "2"; "type"; "t"; "z"; "3"; "type"; "u"]) =
  Val [Post (mkPost "http://api/u/i" 80 "a=2&z=3" (Some "user:"))].
Proof. vm_compute. reflexivity. Qed.
(* libcurl gives no handle: nothing is sent, nothing is retried *)
Example C35_example_no_handle : notifier_on_request demo_notifier (fun _ => NoHandle)
    (Msg "status_notifier" "" ["type"; "job-status"; "id"; "j1"; "status"; "OK"]) = Val [].
Proof. reflexivity. Qed.
Example C35_example_run : exists tr s, run demo_oracle demo_cfg KSingle tr s /\ exists tr1 e tr2, tr = tr1 ++ e :: tr2 /\
  exists m, In m (ev_out e) /\ m_key m = "status_notifier" /\
  notifier_on_request demo_notifier (fun _ => Performed None) m =
    Val [Post (mkPost "http://api/job-status/x" 80 "status=OK" (Some "user:"))].
Proof.
  eexists _, _. split; [apply (exec_start _ _ _
    [from_worker "A" ["init"; "g"]; from_client "u" ["eval"; "x"; ""; "p"]; from_worker "A" ["done"; "x"; "OK"; ""]]);
    vm_compute; reflexivity|].
  eexists [_; _], _, []. split; [reflexivity|]. eexists. split; [vm_compute; left; reflexivity|]. split; vm_compute; reflexivity.
Qed.

(* ---- C36 ---- *)

(* names and values that stand for themselves are read back exactly *)
Theorem C36_round_trip : forall q, (forall k v, In (k, v) q -> literal k /\ no_char "="%char k /\ literal v) ->
  form_pairs (c_str (get_http_query q)) = q.
Proof. exact round_trip_pairs. Qed.
Print Assumptions C36_round_trip.

(* In every run, the frontend reads the failure of a job as it was reported exactly when the text of the
   failure stands for itself. *)
Theorem C36_failed : forall o cfg k tr1 e tr2 s, run o cfg k (tr1 ++ e :: tr2) s -> forall m, In m (ev_out e) ->
  m_key m = "status_notifier" -> forall c outs acts p, notifier_on_request c outs m = Val acts -> In (Post p) acts ->
  forall j t, m_data m = ["type"; "job-status"; "id"; j; "status"; "FAILED"; "message"; t] ->
  (form_pairs (p_body p) = [("message", t); ("status", "FAILED")] <-> literal t).
Proof. exact run_read. Qed.
Print Assumptions C36_failed.

Theorem C36_done : forall o cfg k tr1 e tr2 s, run o cfg k (tr1 ++ e :: tr2) s -> forall m, In m (ev_out e) ->
  m_key m = "status_notifier" -> forall c outs acts p, notifier_on_request c outs m = Val acts -> In (Post p) acts ->
  forall j, m_data m = ["type"; "job-status"; "id"; j; "status"; "OK"] -> form_pairs (p_body p) = [("status", "OK")].
Proof. exact run_read_ok. Qed.
Print Assumptions C36_done.

Definition inputs_failing (t : string) : list msg :=
  [from_worker "A" ["init"; "g"]; from_client "u" ["eval"; "x"; ""; "p"]; from_worker "A" ["done"; "x"; "FAILED"; t]].

(* A failed job that the frontend reads as both done and failed... *)
Theorem C36_refuted_injection : exists tr s, run demo_oracle demo_cfg KSingle tr s /\ exists tr1 e tr2, tr = tr1 ++ e :: tr2 /\
  exists m t, m_data m = ["type"; "job-status"; "id"; "x"; "status"; "FAILED"; "message"; t] /\ ev_out e = [m] /\
  exists p, notifier_on_request demo_notifier (fun _ => Performed None) m = Val [Post p] /\
  form_pairs (p_body p) = [("message", "disk"); ("status", "OK"); ("status", "FAILED")].
Proof.
  eexists _, _. split; [apply (exec_start _ _ _ (inputs_failing "disk&status=OK")); vm_compute; reflexivity|].
  eexists [_; _], _, []. split; [reflexivity|]. eexists _, _. split; [|split; [vm_compute; reflexivity|]]; [reflexivity|].
  eexists. split; vm_compute; reflexivity.
Qed.
Print Assumptions C36_refuted_injection.
(* ... and one it reads as done only *)
Theorem C36_refuted_replaced : exists tr s, run demo_oracle demo_cfg KSingle tr s /\ exists tr1 e tr2, tr = tr1 ++ e :: tr2 /\
  exists m t, m_data m = ["type"; "job-status"; "id"; "x"; "status"; "FAILED"; "message"; t] /\ ev_out e = [m] /\
  exists p, notifier_on_request demo_notifier (fun _ => Performed None) m = Val [Post p] /\
  form_pairs (p_body p) = [("message", "disk"); ("status", "OK")].
Proof.
  eexists _, _. split; [apply (exec_start _ _ _ (inputs_failing ("disk&status=OK" ++ String "000" ""))); vm_compute; reflexivity|].
  eexists [_; _], _, []. split; [reflexivity|]. eexists _, _. split; [|split; [vm_compute; reflexivity|]]; [reflexivity|].
  eexists. split; vm_compute; reflexivity.
Qed.
Print Assumptions C36_refuted_replaced.

(* the four kinds of text that are not read back *)
Example C36_example_texts : forall t, In t ["a&b"; "a+b"; "100%41"; String "a" (String "000" "")] ->
  form_pairs (c_str (get_http_query [("message", t)])) <> [("message", t)].
Proof. intros t H. repeat (destruct H as [<-|H]; [vm_compute; discriminate|]). destruct H. Qed.
Example C36_example : form_pairs (c_str (get_http_query [("message", "100% a=b, c"); ("status", "FAILED")])) =
  [("message", "100% a=b, c"); ("status", "FAILED")].
Proof. vm_compute. reflexivity. Qed.
