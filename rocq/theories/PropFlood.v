(* C62: how many messages the broker sends. *)
From Verif Require Import Base Bytes Containers Worker Multi Single Queue Handler Spec SpecRun SpecMsg SpecFlood Demo Flood.
Local Open Scope string_scope.
Local Open Scope list_scope.

(* C62. In any state, the broker sends at most three messages for one it receives from a client or a
   worker (or from anywhere but the timer), even if it fails while handling it. *)
Theorem C62_each : forall o cfg m s, m_key m <> "timer" -> length (fst (on_request o cfg m s)) <= 3.
Proof. exact each_at_most. Qed.
Print Assumptions C62_each.

(* A tick sends at most two messages per worker it removes and request the broker holds; in particular
   none if it removes no worker. *)
Theorem C62_tick : forall o cfg k tr s i d outs s', run o cfg k tr s -> on_request o cfg (Msg "timer" i d) s = (outs, inr (tt, s')) ->
  length outs <= 2 * (length (s_reg s) - length (s_reg s')) * length (held (s_queue s)).
Proof. exact tick_count. Qed.
Print Assumptions C62_tick.

(* With the single queue, the messages sent in a whole run are bounded by a constant times the messages
   received from clients and workers, however often the timer ticks and whatever is lost. *)
Theorem C62_linear : forall o cfg tr s, run o cfg KSingle tr s ->
  (N.of_nat (sent tr) <= (3 + 2 * N.max 1 (c_max_failures cfg)) * N.of_nat (received tr))%N.
Proof. exact single_linear. Qed.
Print Assumptions C62_linear.

(* Three messages are sent for an eval that is handed out, one that nobody can run, and the last failure
   of a job whose worker has another one waiting. *)
Example C62_each_example : exists tr s, run demo_oracle demo_cfg KMulti tr s /\
  map (fun e => length (ev_out e)) tr = [0; 3; 2; 3; 1; 3].
Proof.
  eexists _, _. split; [apply (exec_start _ _ _
    [from_worker "A" ["init"; "g"]; from_client "u" ["eval"; "x"; ""; "p"]; from_client "u" ["eval"; "y"; ""; "p"];
     from_client "u" ["eval"; "z"; "hwgroup=h"; ""; "p"]; from_worker "A" ["done"; "x"; "INTERNAL_ERROR"; "disk"];
     from_worker "A" ["done"; "x"; "INTERNAL_ERROR"; "disk"]]); vm_compute; reflexivity|].
  vm_compute. auto.
Qed.

(* A tick that removes one of two workers: the running job is handed over, the waiting one nobody else
   can run is reported. *)
Example C62_tick_example : exists tr s, run demo_oracle demo_cfg KSingle tr s /\
  map (fun e => length (ev_out e)) tr = [0; 0; 1; 3; 2; 0; 1; 4] /\ sent tr = 11 /\ received tr = 6.
Proof.
  eexists _, _. split; [apply (exec_start _ _ _
    [from_worker "A" ["init"; "g"]; from_worker "B" ["init"; "h"]; from_worker "B" ["ping"]; from_client "u" ["eval"; "x"; ""; "p"];
     from_client "u" ["eval"; "y"; "hwgroup=h"; ""; "p"]; tick "1001"; from_worker "A" ["ping"]; tick "1001"]); vm_compute; reflexivity|].
  vm_compute. auto.
Qed.

(* With the per-worker queues the bound of C62_linear is false: two workers that are lost in turn pass the
   waiting jobs back and forth. *)
Definition swap (a : string) : list msg :=
  [from_worker a ["init"; "g"]; from_worker a ["ping"]; tick "1001"; from_worker a ["ping"]; tick "1001"].
Definition eager_cfg : config := mkConfig 2 1 1000.
Definition swaps : list msg :=
  [from_worker "A" ["init"; "g"]; from_worker "A" ["ping"]] ++ repeat (from_client "u" ["eval"; "x"; ""; "p"]) 40 ++
  concat (repeat (swap "B" ++ swap "A") 5).
Example C62_linear_refuted : exists tr s, run demo_oracle eager_cfg KMulti tr s /\
  (3 + 2 * Nat.max 1 1) * received tr < sent tr.
Proof.
  assert (H : match exec demo_oracle eager_cfg (init_state (empty_manager KMulti)) swaps with
              | (tr, inr _) => Nat.ltb ((3 + 2 * Nat.max 1 1) * received tr) (sent tr)
              | _ => false
              end = true) by (vm_compute; reflexivity).
  destruct (exec _ _ _ swaps) as (tr, [f|s]) eqn:E; [discriminate|]. exists tr, s. split; [exact (exec_start _ _ _ _ _ _ E)|].
  apply Nat.ltb_lt. exact H.
Qed.
