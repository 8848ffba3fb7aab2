(* C41: loading the configuration. *)
From Verif Require Import Base Bytes Containers Worker Multi Single Queue Handler Spec Config SpecConfig ConfigFacts Demo.
Local Open Scope string_scope.
Local Open Scope list_scope.

(* the document of the examples: ports are decimal numbers, paths have one directory *)
Definition demo_number (bound : Z) (t : string) : option N :=
  match stoll t with Val z => if (Z.leb 0 z && Z.ltb z bound)%bool then Some (Z.to_N z) else None | _ => if String.eqb t "18446744073709551615" then Some (N.pred (2 ^ 64)) else None end.
Definition demo_cv : conversions := mkConversions (demo_number 65536) (demo_number (2 ^ 63)) (fun _ => "b.log") (fun _ => "/tmp").
Definition demo_doc (liveness interval : string) : yaml := Map
  [(Scalar "queue_manager", Scalar "multi");
   (Scalar "clients", Map [(Scalar "port", Scalar "9658"); (Scalar "port", Scalar "1")]);
   (Scalar "workers", Map [(Scalar "address", Seq []); (Scalar "max_liveness", Scalar liveness); (Scalar "ping_interval", Scalar interval)]);
   (Scalar "monitor", Scalar "here");
   (Scalar "logger", Map [(Scalar "file", Scalar "/tmp/b.log")])].

(* every text setting is what the document says, or its default *)
Theorem C41_texts : forall cv doc g path f get def, load cv doc = inr g -> In (path, f, get, def) (text_settings cv) ->
  (forall t, written path doc t -> get g = f t) /\ ((forall t, ~ written path doc t) -> get g = def).
Proof. exact texts. Qed.
Print Assumptions C41_texts.
Example C41_example_texts : exists g, load demo_cv (demo_doc "3" "500") = inr g /\
  g_queue_manager g = "multi" /\ g_worker_address g = "*" /\ g_monitor_address g = "127.0.0.1" /\ g_log_path g = "/tmp" /\ g_log_basename g = "b.log".
Proof. eexists. split; [reflexivity|]. repeat split. Qed.

(* every number setting is the converted number of the document, or its default *)
Theorem C41_numbers : forall cv doc g path conv val get def, load cv doc = inr g -> In (path, conv, val, get, def) (number_settings cv) ->
  (forall t, written path doc t -> exists n z, conv t = Some n /\ val n z /\ get g = Some z) /\ ((forall t, ~ written path doc t) -> get g = def).
Proof. exact numbers. Qed.
Print Assumptions C41_numbers.
Example C41_example_numbers : exists g, load demo_cv (demo_doc "3" "500") = inr g /\
  g_client_port g = 9658%N /\ g_max_liveness g = 3%N /\ g_max_failures g = 3%N /\ g_ping_interval g = 500%Z /\ g_notifier_port g = None.
Proof. eexists. split; [reflexivity|]. repeat split. Qed.

(* loading fails exactly if the document is not a map or a number that is there does not convert *)
Theorem C41_fails : forall cv doc, (exists e, load cv doc = inl e) <->
  (forall es, doc <> Map es) \/ exists path conv val get def t, In (path, conv, val, get, def) (number_settings cv) /\ written path doc t /\ conv t = None.
Proof. exact fails. Qed.
Print Assumptions C41_fails.
Example C41_example_fails : load demo_cv (demo_doc "3" "-500") = inl (BadConversion "-500") /\ load demo_cv Null = inl NotAMap.
Proof. split; reflexivity. Qed.

(* the queue manager that is built; with any other text the broker does not start *)
Theorem C41_manager : forall cv doc g, load cv doc = inr g ->
  (choose_manager g = Some KMulti <-> written ["queue_manager"] doc "multi") /\
  (choose_manager g = Some KSingle <-> written ["queue_manager"] doc "single" \/ forall t, ~ written ["queue_manager"] doc t).
Proof. exact manager. Qed.
Print Assumptions C41_manager.
Example C41_example_manager : exists g, load demo_cv (demo_doc "3" "500") = inr g /\ choose_manager g = Some KMulti.
Proof. eexists. split; reflexivity. Qed.

(* the interval the handler compares with is not negative exactly if the number is below 2^63 *)
Theorem C41_interval : forall cv doc g, load cv doc = inr g -> (forall t n, as_size cv t = Some n -> (n < 2 ^ 64)%N) ->
  ((0 <= c_ping_interval (handler_config g))%Z <->
   forall t n, written ["workers"; "ping_interval"] doc t -> as_size cv t = Some n -> (n < 2 ^ 63)%N).
Proof. exact interval. Qed.
Print Assumptions C41_interval.
(* an interval meant to be practically infinite removes a worker that has just pinged, at a tick of 0 ms *)
Example C41_refuted_interval : exists g, load demo_cv (demo_doc "1" "18446744073709551615") = inr g /\
  c_ping_interval (handler_config g) = (-1)%Z /\
  option_map s_reg (final (exec demo_oracle (handler_config g) (start KMulti) [from_worker "A" ["init"; "g"; "env=c"]; from_worker "A" ["ping"]; tick "0"])) = Some [].
Proof. eexists. split; [reflexivity|]. split; vm_compute; reflexivity. Qed.
