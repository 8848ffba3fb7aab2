(* C71. The whole broker with one queue per worker is a ledger of desks, lines and a rota. *)
From Verif Require Import Base Bytes Containers Worker Multi Single Queue Handler SpecText Spec SpecRun SpecMsg SpecFront SpecBook SpecFatal SpecLedger LedgerFun LedgerRun Demo.
Local Open Scope string_scope.
Local Open Scope list_scope.

(* Every execution is one of the ledger, which sends exactly the same messages; its desks are the registered workers in
   the order of the registry, and its rota is the order in which the queue manager asks them. *)
Theorem C71_ledger : forall o cfg tr s, run o cfg KMulti tr s ->
  exists L, reacted cfg (map ev_in tr) (map ev_out tr) L /\ l_frozen L = s_frozen s /\
    Forall2 (desk_is s) (f_desks (l_floor L)) (s_reg s) /\ f_rota (l_floor L) = map w_id (manager_workers (s_queue s)).
Proof. exact run_ledger_is. Qed.
Print Assumptions C71_ledger.

(* And the other way round, for every oracle. *)
Theorem C71_complete : forall o cfg ms outss L, reacted cfg ms outss L ->
  exists tr s, run o cfg KMulti tr s /\ map ev_in tr = ms /\ map ev_out tr = outss.
Proof. exact ledger_runs. Qed.
Print Assumptions C71_complete.

(* The ledger tells which messages are fatal. *)
Theorem C71_fatal : forall o cfg tr s L m outs f, run o cfg KMulti tr s -> reacted cfg (map ev_in tr) (map ev_out tr) L ->
  (crashes o cfg s m outs f <-> doomed L m outs f).
Proof. exact crash_ledger. Qed.
Print Assumptions C71_fatal.

(* The messages received determine the messages sent and the ledger. *)
Theorem C71_determined : forall cfg ms os1 L1, reacted cfg ms os1 L1 -> forall os2 L2, reacted cfg ms os2 L2 -> os1 = os2 /\ L1 = L2.
Proof. exact reacted_fun. Qed.
Print Assumptions C71_determined.

Definition ledger_inputs : list msg :=
  [from_worker "A" ["init"; "g"; "env=c"]; from_worker "B" ["init"; "h"; "env=c"; "threads=4"; ""; "description=box"; "current_job=old"];
   from_client "u" ["eval"; "x"; "env=c"; ""; "url"]; from_client "u" ["eval"; "y"; "env=c"; ""];
   from_client "u" ["eval"; "z"; "hwgroup=g"; ""]; from_worker "A" ["done"; "y"; "INTERNAL_ERROR"; "disk"]; from_worker "B" ["ping"];
   tick "600"; tick "600"; from_worker "B" ["done"; "old"; "OK"]; from_client "u" ["eval"; "v"; "hwgroup=h"; ""]; tick "1100";
   from_client "u" ["get-runtime-stats"]; from_worker "B" ["progress"; "x"; "TASK"]].

(* B comes with a job it already has; A gives y back, keeps z in line and is lost; x and y end up with B, z with nobody. *)
Example C71_example : exists tr s L, run demo_oracle demo_cfg KMulti tr s /\ map ev_in tr = ledger_inputs /\
  reacted demo_cfg ledger_inputs (map ev_out tr) L /\
  map (fun d => (d_key d, name_of d, option_map (fun k => (k_name k, k_strikes k, k_text k)) (d_now d), map (fun k => (k_name k, k_strikes k)) (d_line d)))
    (f_desks (l_floor L)) = [(1, "B", Some ("x", 0%N, ["eval"; "x"; "url"]), [("y", 1%N); ("v", 0%N)])] /\
  f_rota (l_floor L) = [1] /\
  skipn 9 (map ev_out tr) =
    [[Msg "status_notifier" "" ["type"; "job-status"; "id"; "old"; "status"; "OK"]; Msg "workers" "B" ["eval"; "x"; "url"]];
     [Msg "clients" "u" ["ack"]; Msg "clients" "u" ["accept"]];
     [Msg "monitor" "recodex-monitor" ["z"; "FAILED"];
      Msg "status_notifier" "" ["type"; "job-status"; "id"; "z"; "status"; "FAILED"; "message"; "Worker 41 dieded"]];
     [Msg "clients" "u" ["evaluated-jobs"; "1"; "failed-jobs"; "1"; "idle-worker-count"; "0"; "jobs-in-progress"; "1";
                         "queued-jobs"; "2"; "worker-count"; "1"; "is-frozen"; "0"]];
     [Msg "monitor" "recodex-monitor" ["x"; "TASK"]]] /\
  doomed L (from_client "u" ["eval"; "q"; "threads=many"; ""]) [Msg "clients" "u" ["ack"]] InvalidArgument /\
  forall outs f, ~ doomed L (from_worker "B" ["done"; "x"; "OK"]) outs f.
Proof.
  destruct (exec demo_oracle demo_cfg (start KMulti) ledger_inputs) as (tr, [f|s]) eqn:E; [vm_compute in E; discriminate|].
  pose proof (exec_start _ _ _ _ _ _ E) as HR. destruct (C71_ledger _ _ _ _ HR) as (L & H1 & H2 & H3 & H4).
  assert (HF : forall m outs f, crashes demo_oracle demo_cfg s m outs f <-> doomed L m outs f) by (intros; apply (C71_fatal _ _ _ _ _ _ _ _ HR H1)).
  exists tr, s, L. split; [exact HR|]. vm_compute in E. injection E as <- <-.
  split; [reflexivity|]. split; [exact H1|]. split; [|split; [exact H4|split; [reflexivity|split]]].
  - clear - H3. cbn [s_reg] in H3. inversion H3 as [|d w ds ws (S1 & (S2 & _) & S3 & S4) H4 E1 E2]; subst. inversion H4; subst.
    destruct d as (key, g, now, line). cbn [d_key d_guest d_now d_line] in *. unfold name_of. cbn [map d_key d_guest d_now d_line]. rewrite <- S2, S1.
    inversion S3 as [|k r (K1 & _ & K2 & K3) X1 X2]. subst.
    destruct (K3 eq_refl) as (K4 & _). cbn [option_map]. rewrite <- K1, <- K2, <- K4.
    match type of S4 with Forall2 _ _ ?x => let y := eval vm_compute in x in change x with y in S4 end.
    inversion S4 as [|k1 r1 l1 m1 (J1 & _ & J2 & _) S5 X3 X4]; subst. inversion S5 as [|k2 r2 l2 m2 (I1 & _ & I2 & _) S6 X5 X6]; subst. inversion S6; subst.
    cbn [map]. rewrite <- J1, <- J2, <- I1, <- I2. reflexivity.
  - apply HF. vm_compute. reflexivity.
  - intros outs f Hd. apply HF in Hd. vm_compute in Hd. discriminate.
Qed.
